(** Memory layout of the function block instances shared between ST and Rust: the
    [repr(C)] parameter structs of src/*.rs against the declarations in iec61131-st/*.st. *)
From Coq Require Import String ZArith List Bool.
From Verif Require Import Base ModelFB ModelTimers.
Import ListNotations.
Open Scope list_scope.
Open Scope string_scope.
Open Scope Z_scope.

(** How the Rust compiler represents [Option<Instant>] (/repo/src/timers.rs:23).  This is not
    fixed by /repo: older compilers use a tag word followed by two 8-byte numbers, newer ones
    (since about Rust 1.66) store [None] as an impossible nanosecond count.  Everything below is parametrised by
    it. *)
Inductive option_repr := Tagged | Niche.

(** The types of the fields of the shared structs.  [FBool] is [bool], [Signal]
    (/repo/src/utils.rs:1-5, [repr(transparent)] over [bool]) and BOOL; [FInt] a Rust or ST
    integer, TIME and LTIME being 64-bit signed (/repo/src/timers.rs:13 [type Time]);
    [FBytes n] is ARRAY[1..n] OF BYTE; [FInstant] is [Option<Instant>]. *)
Inductive ftype := FBool | FInt (t : ity) | FBytes (n : Z) | FInstant.

(** Sizes in bytes on the 64-bit targets of /repo (/repo/src/timers.rs:15-24 and
    /repo/src/counters.rs:5-250 under [repr(C)]). *)
Definition fsize (r : option_repr) (t : ftype) : Z :=
  match t with
  | FBool => 1
  | FInt i => it_bits i / 8
  | FBytes n => n
  | FInstant => match r with Tagged => 24 | Niche => 16 end
  end.

(** Alignments in bytes (/repo/src/timers.rs:15-24, /repo/src/counters.rs:5-250). *)
Definition falign (t : ftype) : Z :=
  match t with
  | FBool => 1
  | FInt i => it_bits i / 8
  | FBytes _ => 1
  | FInstant => 8
  end.

(** The C rule: a field goes to the next multiple of its alignment.  /repo/src/timers.rs:15,
    /repo/src/counters.rs:5 [repr(C)]. *)
Definition round_up (a n : Z) : Z := (n + a - 1) / a * a.

(** Offsets of the fields of a [repr(C)] struct (/repo/src/timers.rs:15,
    /repo/src/counters.rs:5, 121, 237, /repo/src/flanks.rs:4,
    /repo/src/bistable_functionblocks.rs:1), starting at byte [pos]. *)
Fixpoint offsets (r : option_repr) (pos : Z) (fs : list (string * ftype)) : list Z :=
  match fs with
  | [] => []
  | (_, t) :: fs' =>
      let o := round_up (falign t) pos in o :: offsets r (o + fsize r t) fs'
  end.

(** The byte after the last field (/repo/src/timers.rs:15, /repo/src/counters.rs:5). *)
Fixpoint fields_end (r : option_repr) (pos : Z) (fs : list (string * ftype)) : Z :=
  match fs with
  | [] => pos
  | (_, t) :: fs' => fields_end r (round_up (falign t) pos + fsize r t) fs'
  end.

(** Alignment of a struct: the largest alignment of a field (/repo/src/timers.rs:15, /repo/src/counters.rs:5). *)
Definition struct_align (fs : list (string * ftype)) : Z :=
  fold_right (fun f a => Z.max (falign (snd f)) a) 1 fs.

(** Size of a struct: with tail padding (/repo/src/timers.rs:15, /repo/src/counters.rs:5). *)
Definition struct_size (r : option_repr) (fs : list (string * ftype)) : Z :=
  round_up (struct_align fs) (fields_end r 0 fs).

(** * The Rust structs *)

(** /repo/src/bistable_functionblocks.rs:1-7 [struct SetResetParams] *)
Definition rust_SetResetParams : list (string * ftype) :=
  [("set", FBool); ("reset", FBool); ("output", FBool)].

(** /repo/src/flanks.rs:4-9 [struct Trigger] *)
Definition rust_Trigger : list (string * ftype) :=
  [("clk", FBool); ("output", FBool); ("internal", FBool)].

(** /repo/src/counters.rs:5-14 [struct CTUParams<T>] *)
Definition rust_CTUParams (t : ity) : list (string * ftype) :=
  [("cu", FBool); ("r", FBool); ("pv", FInt t); ("q", FBool); ("cv", FInt t);
   ("internal", FBool)].

(** /repo/src/counters.rs:121-130 [struct CTDParams<T>] *)
Definition rust_CTDParams (t : ity) : list (string * ftype) :=
  [("cd", FBool); ("ld", FBool); ("pv", FInt t); ("q", FBool); ("cv", FInt t);
   ("internal", FBool)].

(** /repo/src/counters.rs:237-250 [struct CTUDParams<T>] *)
Definition rust_CTUDParams (t : ity) : list (string * ftype) :=
  [("cu", FBool); ("cd", FBool); ("r", FBool); ("ld", FBool); ("pv", FInt t);
   ("qu", FBool); ("qd", FBool); ("cv", FInt t);
   ("internal_up", FBool); ("internal_down", FBool)].

(** /repo/src/timers.rs:15-24 [struct TimerParams] *)
Definition rust_TimerParams : list (string * ftype) :=
  [("input", FBool); ("preset_time", FInt i64); ("output", FBool);
   ("elapsed_time", FInt i64); ("input_edge", FBool); ("start_time", FInstant)].

(** The exported functions and the struct each takes: /repo/src/bistable_functionblocks.rs:23,
    35; /repo/src/flanks.rs:19, 26; /repo/src/counters.rs:57-117, 173-233, 320-380;
    /repo/src/timers.rs:84-189. *)
Definition rust_blocks : list (string * list (string * ftype)) :=
  [("SR", rust_SetResetParams); ("RS", rust_SetResetParams);
   ("R_TRIG", rust_Trigger); ("F_TRIG", rust_Trigger);
   ("CTU", rust_CTUParams i16); ("CTU_INT", rust_CTUParams i16); ("CTU_DINT", rust_CTUParams i32);
   ("CTU_UDINT", rust_CTUParams u32); ("CTU_LINT", rust_CTUParams i64); ("CTU_ULINT", rust_CTUParams u64);
   ("CTD", rust_CTDParams i16); ("CTD_INT", rust_CTDParams i16); ("CTD_DINT", rust_CTDParams i32);
   ("CTD_UDINT", rust_CTDParams u32); ("CTD_LINT", rust_CTDParams i64); ("CTD_ULINT", rust_CTDParams u64);
   ("CTUD", rust_CTUDParams i16); ("CTUD_INT", rust_CTUDParams i16); ("CTUD_DINT", rust_CTUDParams i32);
   ("CTUD_UDINT", rust_CTUDParams u32); ("CTUD_LINT", rust_CTUDParams i64);
   ("CTUD_ULINT", rust_CTUDParams u64);
   ("TP", rust_TimerParams); ("TP_TIME", rust_TimerParams); ("TP_LTIME", rust_TimerParams);
   ("TON", rust_TimerParams); ("TON_TIME", rust_TimerParams); ("TON_LTIME", rust_TimerParams);
   ("TOF", rust_TimerParams); ("TOF_TIME", rust_TimerParams); ("TOF_LTIME", rust_TimerParams)].

(** * The ST declarations *)

(** ST types used in the declarations (/repo/iec61131-st/counters.st:13-527,
    /repo/iec61131-st/timers.st:12-233): their IEC widths, on one byte for BOOL. *)
Definition BOOL := FBool.
(** Type of PV and CV at /repo/iec61131-st/counters.st:17, 21. *)
Definition INT := FInt i16.
(** Type of PV and CV at /repo/iec61131-st/counters.st:71, 75. *)
Definition DINT := FInt i32.
(** Type of PV and CV at /repo/iec61131-st/counters.st:98, 102. *)
Definition UDINT := FInt u32.
(** Type of PV and CV at /repo/iec61131-st/counters.st:125, 129. *)
Definition LINT := FInt i64.
(** Type of PV and CV at /repo/iec61131-st/counters.st:152, 156. *)
Definition ULINT := FInt u64.
(** Type of PT and ET at /repo/iec61131-st/timers.st:15, 19. *)
Definition TIME := FInt i64.
(** Type of PT and ET at /repo/iec61131-st/timers.st:223, 227. *)
Definition LTIME := FInt i64.

(** /repo/iec61131-st/counters.st:13-26, 40-53, 67-80, 94-107, 121-134, 148-161 *)
Definition st_CTU (t : ftype) : list (string * ftype) :=
  [("CU", BOOL); ("R", BOOL); ("PV", t); ("Q", BOOL); ("CV", t); ("M", BOOL)].

(** /repo/iec61131-st/counters.st:175-188, 202-215, 229-242, 256-269, 283-296, 310-323 *)
Definition st_CTD (t : ftype) : list (string * ftype) :=
  [("CD", BOOL); ("LD", BOOL); ("PV", t); ("Q", BOOL); ("CV", t); ("M", BOOL)].

(** /repo/iec61131-st/counters.st:340-357, 374-391, 408-425, 442-459, 476-493, 510-527 *)
Definition st_CTUD (t : ftype) : list (string * ftype) :=
  [("CU", BOOL); ("CD", BOOL); ("R", BOOL); ("LD", BOOL); ("PV", t);
   ("QU", BOOL); ("QD", BOOL); ("CV", t); ("MU", BOOL); ("MD", BOOL)].

(** /repo/iec61131-st/timers.st:12-25, 38-51, 64-77, 90-103, 116-129, 142-155, 168-181,
    194-207, 220-233; [pt] and [et] are the types of PT and ET. *)
Definition st_timer (pt et : ftype) : list (string * ftype) :=
  [("IN", BOOL); ("PT", pt); ("Q", BOOL); ("ET", et); ("__signal__", BOOL);
   ("__BUFFER__", FBytes 24)].

(** /repo/iec61131-st/bistable_functionblocks.st:11-19, 31-39; /repo/iec61131-st/flanks.st:10-20,
    31-41; /repo/iec61131-st/counters.st:13-527; /repo/iec61131-st/timers.st:12-233. *)
Definition st_blocks : list (string * list (string * ftype)) :=
  [("SR", [("SET1", BOOL); ("RESET", BOOL); ("Q1", BOOL)]);
   ("RS", [("SET", BOOL); ("RESET1", BOOL); ("Q1", BOOL)]);
   ("R_TRIG", [("CLK", BOOL); ("Q", BOOL); ("M", BOOL)]);
   ("F_TRIG", [("CLK", BOOL); ("Q", BOOL); ("M", BOOL)]);
   ("CTU", st_CTU INT); ("CTU_INT", st_CTU INT); ("CTU_DINT", st_CTU DINT);
   ("CTU_UDINT", st_CTU UDINT); ("CTU_LINT", st_CTU LINT); ("CTU_ULINT", st_CTU ULINT);
   ("CTD", st_CTD INT); ("CTD_INT", st_CTD INT); ("CTD_DINT", st_CTD DINT);
   ("CTD_UDINT", st_CTD UDINT); ("CTD_LINT", st_CTD LINT); ("CTD_ULINT", st_CTD ULINT);
   ("CTUD", st_CTUD INT); ("CTUD_INT", st_CTUD INT); ("CTUD_DINT", st_CTUD DINT);
   ("CTUD_UDINT", st_CTUD UDINT); ("CTUD_LINT", st_CTUD LINT); ("CTUD_ULINT", st_CTUD ULINT);
   ("TP", st_timer TIME TIME); ("TP_TIME", st_timer TIME TIME);
   ("TP_LTIME", st_timer TIME LTIME);
   ("TON", st_timer TIME TIME); ("TON_TIME", st_timer TIME TIME);
   ("TON_LTIME", st_timer LTIME TIME);
   ("TOF", st_timer TIME TIME); ("TOF_TIME", st_timer TIME TIME);
   ("TOF_LTIME", st_timer LTIME LTIME)].

(** Lookup by name in the two tables above.  Linking by name: [no_mangle],
    /repo/src/counters.rs:55-57. *)
Fixpoint block (name : string) (l : list (string * list (string * ftype)))
  : option (list (string * ftype)) :=
  match l with
  | [] => None
  | (n, fs) :: l' => if String.eqb n name then Some fs else block name l'
  end.

(** * Writing an instance *)

(** Memory: the byte at each address.  The instances passed as [&mut], /repo/src/counters.rs:57-388. *)
Definition mem := Z -> Z.

(** Store the bytes [v] from address [a].  An assignment to a field, e.g.
    /repo/src/counters.rs:28-34. *)
Definition store (m : mem) (a : Z) (v : list Z) : mem :=
  fun x => if (a <=? x) && (x <? a + Z.of_nat (length v))
           then nth (Z.to_nat (x - a)) v 0 else m x.

(** What a Rust function block does to memory through its [&mut] parameter at [base]: it may
    give any field of the struct any value, i.e. write the bytes [vals] to the fields
    (/repo/src/counters.rs:57-388, /repo/src/timers.rs:84-189,
    /repo/src/flanks.rs:19-30, /repo/src/bistable_functionblocks.rs:23-40). *)
Fixpoint store_fields (m : mem) (base : Z) (offs : list Z) (vals : list (list Z)) : mem :=
  match offs, vals with
  | o :: offs', v :: vals' => store_fields (store m (base + o) v) base offs' vals'
  | _, _ => m
  end.

(** * Zero-initialised timers *)

(** Little-endian number of a list of bytes.  Reading a field, e.g. /repo/src/timers.rs:23. *)
Fixpoint le (bs : list Z) : Z :=
  match bs with [] => 0 | b :: bs' => b + 256 * le bs' end.

(** The start time (/repo/src/timers.rs:23) that the bytes of an instance stand for.  Tagged: a
    64-bit tag, then seconds and nanoseconds.  Niche: 64-bit seconds, then 32-bit nanoseconds,
    10^9 nanoseconds standing for [None].  The seconds are read as unsigned, a
    simplification for clock readings before the epoch of the clock. *)
Definition decode_start (r : option_repr) (bs : list Z) : option Z :=
  match r with
  | Tagged =>
      if le (firstn 8 bs) =? 0 then None
      else Some (le (firstn 8 (skipn 8 bs)) * 10 ^ 9 + le (firstn 8 (skipn 16 bs)))
  | Niche =>
      let ns := le (firstn 4 (skipn 8 bs)) in
      if ns =? 10 ^ 9 then None else Some (le (firstn 8 bs) * 10 ^ 9 + ns)
  end.

(** The instance that a timer function finds in memory that ST has set to zero before the
    first cycle (/repo/iec61131-st/timers.st:12-25: no initial values). *)
Definition timer_zeroed (r : option_repr) : timer :=
  Timer false (le (repeat 0 8)) false (le (repeat 0 8)) (Signal false)
        (decode_start r (repeat 0 (Z.to_nat (fsize r FInstant)))).
