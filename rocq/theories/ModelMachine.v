(** Calls of function blocks as an ST program makes them: the instances lie in one memory, the
    program stores inputs at the offsets of the ST declaration, the exported Rust function
    reads and writes the fields of its struct, the program reads outputs at ST's offsets. *)
From Coq Require Import String ZArith List Bool.
From Verif Require Import Base ModelFB ModelCounters ModelTimers ModelLayout.
Import ListNotations.
Open Scope list_scope.
Open Scope string_scope.
Open Scope Z_scope.

(** The value of a field: [bool] and [Signal], an integer, [Option<Instant>]
    (/repo/src/timers.rs:17-24, /repo/src/counters.rs:7-14). *)
Inductive fval := VBool (b : bool) | VInt (z : Z) | VStart (s : option Z).

(** * Bytes of values *)

(** The [n] low bytes of [z], least significant first.  The supported targets are
    little-endian; a simplification for others (/repo/src/counters.rs:5-14 [repr(C)]). *)
Fixpoint to_le (n : nat) (z : Z) : list Z :=
  match n with O => [] | S n' => z mod 256 :: to_le n' (z / 256) end.

(** The bytes of a value in a field of type [t] (/repo/src/timers.rs:15-24,
    /repo/src/counters.rs:5-250).  [Option<Instant>] is written as [decode_start] reads it;
    padding is written as zero, a simplification (nobody reads it). *)
Definition encode (r : option_repr) (t : ftype) (v : fval) : list Z :=
  match t with
  | FBool => [match v with VBool true => 1 | _ => 0 end]
  | FInt i => to_le (Z.to_nat (it_bits i / 8)) (match v with VInt z => z | _ => 0 end)
  | FBytes n => repeat 0 (Z.to_nat n)
  | FInstant =>
      match r, v with
      | Tagged, VStart (Some s) => to_le 8 1 ++ to_le 8 (s / 10 ^ 9) ++ to_le 8 (s mod 10 ^ 9)
      | Tagged, _ => repeat 0 24
      | Niche, VStart (Some s) => to_le 8 (s / 10 ^ 9) ++ to_le 4 (s mod 10 ^ 9) ++ repeat 0 4
      | Niche, _ => repeat 0 8 ++ to_le 4 (10 ^ 9) ++ repeat 0 4
      end
  end.

(** The value of the bytes of a field.  A Rust [bool] whose byte is neither 0 nor 1 is undefined
    behaviour.  The byte buffer of the timers is never read as such.
    /repo/src/timers.rs:15-24, /repo/src/counters.rs:5-250. *)
Definition decode (r : option_repr) (t : ftype) (bs : list Z) : outcome fval :=
  match t with
  | FBool => if le bs =? 0 then Ok (VBool false) else if le bs =? 1 then Ok (VBool true) else Ub
  | FInt i => Ok (VInt (wrap i (le bs)))
  | FBytes _ => Ub
  | FInstant => Ok (VStart (decode_start r bs))
  end.

(** The [n] bytes at address [a] (reading a field through the [&mut] parameter,
    /repo/src/counters.rs:37-47). *)
Definition load (m : mem) (a : Z) (n : nat) : list Z :=
  map (fun i => m (a + Z.of_nat i)) (seq 0 n).

(** Reading every field of a struct at [base] whose fields start at [pos]
    (/repo/src/counters.rs:57: [params: &mut CTUParams<i16>], and so on for each block). *)
Fixpoint load_fields (r : option_repr) (m : mem) (base pos : Z) (fs : list (string * ftype))
  : outcome (list fval) :=
  match fs with
  | [] => Ok []
  | (_, t) :: fs' =>
      let o := round_up (falign t) pos in
      let! v := decode r t (load m (base + o) (Z.to_nat (fsize r t))) in
      let! vs := load_fields r m base (o + fsize r t) fs' in
      Ok (v :: vs)
  end.

(** The bytes of the fields of a struct.  /repo/src/counters.rs:57,
    /repo/src/timers.rs:84. *)
Fixpoint encode_fields (r : option_repr) (fs : list (string * ftype)) (vs : list fval)
  : list (list Z) :=
  match fs, vs with
  | (_, t) :: fs', v :: vs' => encode r t v :: encode_fields r fs' vs'
  | _, _ => []
  end.

(** * The exported functions on the fields of their struct, in declaration order *)

(** /repo/src/bistable_functionblocks.rs:23-25, 35-37; the struct is lines 3-7. *)
Definition sr_code (f : sr_params -> sr_params) (vs : list fval) : outcome (list fval) :=
  match vs with
  | [VBool s; VBool r; VBool q] =>
      let x := f (SrParams s r q) in
      Ok [VBool (sr_set x); VBool (sr_reset x); VBool (sr_output x)]
  | _ => Ub
  end.

(** /repo/src/flanks.rs:19-30; the struct is lines 5-9. *)
Definition trig_code (f : trigger -> trigger) (vs : list fval) : outcome (list fval) :=
  match vs with
  | [VBool c; VBool q; VBool m] =>
      let x := f (Trigger c q (Signal m)) in
      Ok [VBool (tr_clk x); VBool (tr_output x); VBool (current_value (tr_internal x))]
  | _ => Ub
  end.

(** /repo/src/counters.rs:57-117 on the struct of lines 7-14. *)
Definition ctu_code (p : profile) (t : ity) (vs : list fval) : outcome (list fval) :=
  match vs with
  | [VBool cu; VBool r; VInt pv; VBool q; VInt cv; VBool m] =>
      let! x := ctu p t (CtuParams cu r pv q cv (Signal m)) in
      Ok [VBool (ctu_cu x); VBool (ctu_r x); VInt (ctu_pv x); VBool (ctu_q x); VInt (ctu_cv x);
          VBool (current_value (ctu_internal x))]
  | _ => Ub
  end.

(** /repo/src/counters.rs:173-233 on the struct of lines 123-130. *)
Definition ctd_code (p : profile) (t : ity) (vs : list fval) : outcome (list fval) :=
  match vs with
  | [VBool cd; VBool ld; VInt pv; VBool q; VInt cv; VBool m] =>
      let! x := ctd p t (CtdParams cd ld pv q cv (Signal m)) in
      Ok [VBool (ctd_cd x); VBool (ctd_ld x); VInt (ctd_pv x); VBool (ctd_q x); VInt (ctd_cv x);
          VBool (current_value (ctd_internal x))]
  | _ => Ub
  end.

(** /repo/src/counters.rs:320-380 on the struct of lines 239-250. *)
Definition ctud_code (p : profile) (t : ity) (vs : list fval) : outcome (list fval) :=
  match vs with
  | [VBool cu; VBool cd; VBool r; VBool ld; VInt pv; VBool qu; VBool qd; VInt cv;
     VBool mu; VBool md] =>
      let! x := ctud p t (CtudParams cu cd r ld pv qu qd cv (Signal mu) (Signal md)) in
      Ok [VBool (cud_cu x); VBool (cud_cd x); VBool (cud_r x); VBool (cud_ld x);
          VInt (cud_pv x); VBool (cud_qu x); VBool (cud_qd x); VInt (cud_cv x);
          VBool (current_value (cud_up x)); VBool (current_value (cud_down x))]
  | _ => Ub
  end.

(** /repo/src/timers.rs:84-189 on the struct of lines 17-24; the two numbers are the clock
    readings as in [tcall]. *)
Definition timer_code (f : timer -> Z -> Z -> outcome timer) (now1 now2 : Z) (vs : list fval)
  : outcome (list fval) :=
  match vs with
  | [VBool i; VInt pt; VBool q; VInt et; VBool e; VStart s] =>
      let! x := f (Timer i pt q et (Signal e) s) now1 now2 in
      Ok [VBool (t_input x); VInt (t_preset x); VBool (t_output x); VInt (t_elapsed x);
          VBool (current_value (t_edge x)); VStart (t_start x)]
  | _ => Ub
  end.

(** What each exported function does to the fields of its struct, by name:
    /repo/src/bistable_functionblocks.rs:23, 35; /repo/src/flanks.rs:19, 26;
    /repo/src/counters.rs:57-117, 173-233, 320-380; /repo/src/timers.rs:84-189. *)
Definition rust_code (p : profile) (n1 n2 : Z)
  : list (string * (list fval -> outcome (list fval))) :=
  [("SR", sr_code SR); ("RS", sr_code RS);
   ("R_TRIG", trig_code R_TRIG); ("F_TRIG", trig_code F_TRIG);
   ("CTU", ctu_code p i16); ("CTU_INT", ctu_code p i16); ("CTU_DINT", ctu_code p i32);
   ("CTU_UDINT", ctu_code p u32); ("CTU_LINT", ctu_code p i64); ("CTU_ULINT", ctu_code p u64);
   ("CTD", ctd_code p i16); ("CTD_INT", ctd_code p i16); ("CTD_DINT", ctd_code p i32);
   ("CTD_UDINT", ctd_code p u32); ("CTD_LINT", ctd_code p i64); ("CTD_ULINT", ctd_code p u64);
   ("CTUD", ctud_code p i16); ("CTUD_INT", ctud_code p i16); ("CTUD_DINT", ctud_code p i32);
   ("CTUD_UDINT", ctud_code p u32); ("CTUD_LINT", ctud_code p i64);
   ("CTUD_ULINT", ctud_code p u64);
   ("TP", timer_code TP n1 n2); ("TP_TIME", timer_code TP_TIME n1 n2);
   ("TP_LTIME", timer_code TP_LTIME n1 n2);
   ("TON", timer_code TON n1 n2); ("TON_TIME", timer_code TON_TIME n1 n2);
   ("TON_LTIME", timer_code TON_LTIME n1 n2);
   ("TOF", timer_code TOF n1 n2); ("TOF_TIME", timer_code TOF_TIME n1 n2);
   ("TOF_LTIME", timer_code TOF_LTIME n1 n2)].

(** Linking by name: the entry of a table with the given name (the ST declarations are
    [{external}], e.g. /repo/iec61131-st/counters.st:12-13). *)
Fixpoint linked {A} (name : string) (l : list (string * A)) : option A :=
  match l with
  | [] => None
  | (n, x) :: l' => if String.eqb n name then Some x else linked name l'
  end.

(** * Programs *)

(** An instance of a block: its type and its address (VAR c : CTU_DINT; END_VAR in the program;
    the declarations are /repo/iec61131-st/counters.st:13-527 and so on). *)
Record instance := Inst { i_name : string; i_base : Z }.

(** One call: the instance, the inputs the program assigns (those left out keep their value),
    and the clock readings a timer makes during it (/repo/src/timers.rs:36, 50, 61). *)
Record call := Call { c_inst : instance; c_inputs : list (string * fval); c_now1 : Z; c_now2 : Z }.

(** Type and offset of a variable of an ST declaration (/repo/iec61131-st/counters.st:13-527,
    /repo/iec61131-st/timers.st:12-233). *)
Fixpoint st_var (r : option_repr) (pos : Z) (fs : list (string * ftype)) (var : string)
  : option (ftype * Z) :=
  match fs with
  | [] => None
  | (n, t) :: fs' =>
      let o := round_up (falign t) pos in
      if String.eqb n var then Some (t, o) else st_var r (o + fsize r t) fs' var
  end.

(** Storing the inputs of a call (the ST compiler's code for c(CU := x, PV := y)).  A name the
    block does not declare is a compile error; here it has no effect.  Declarations:
    /repo/iec61131-st/counters.st:13-527 and the other block files. *)
Fixpoint store_inputs (r : option_repr) (m : mem) (base : Z) (ss : list (string * ftype))
  (ins : list (string * fval)) : mem :=
  match ins with
  | [] => m
  | (var, v) :: ins' =>
      store_inputs r
        (match st_var r 0 ss var with
         | Some (t, o) => store m (base + o) (encode r t v)
         | None => m
         end) base ss ins'
  end.

(** Executing the exported function on the instance at [base]
    (/repo/src/counters.rs:57-388, /repo/src/timers.rs:84-189, /repo/src/flanks.rs:19-30,
    /repo/src/bistable_functionblocks.rs:23-40). *)
Definition rust_call (r : option_repr) (m : mem) (base : Z) (rs : list (string * ftype))
  (code : list fval -> outcome (list fval)) : outcome mem :=
  let! vs := load_fields r m base 0 rs in
  let! vs' := code vs in
  Ok (store_fields m base (offsets r 0 rs) (encode_fields r rs vs')).

(** One call of the program.  An instance of an undeclared block is a compile error, a declared
    block without a Rust function a link error; both are [Ub] here (C70: there is none).  Calls of
    the blocks declared in /repo/iec61131-st/counters.st:13-527, timers.st, flanks.st,
    bistable_functionblocks.st:11-39. *)
Definition st_call (r : option_repr) (p : profile) (m : mem) (c : call) : outcome mem :=
  let name := i_name (c_inst c) in
  let base := i_base (c_inst c) in
  match block name st_blocks, block name rust_blocks, linked name (rust_code p (c_now1 c) (c_now2 c))
  with
  | Some ss, Some rs, Some code =>
      rust_call r (store_inputs r m base ss (c_inputs c)) base rs code
  | _, _, _ => Ub
  end.

(** A program run: calls one after the other; a panic ends it.  A program over the
    blocks of /repo/iec61131-st/*.st. *)
Fixpoint run (r : option_repr) (p : profile) (m : mem) (prog : list call) : outcome mem :=
  match prog with
  | [] => Ok m
  | c :: prog' => let! m' := st_call r p m c in run r p m' prog'
  end.

(** Reading a variable of an instance (c.CV in ST; declarations as for [st_var]).
    /repo/iec61131-st/counters.st:13-527 and the other block files. *)
Definition st_read (r : option_repr) (m : mem) (i : instance) (var : string) : outcome fval :=
  match block (i_name i) st_blocks with
  | Some ss =>
      match st_var r 0 ss var with
      | Some (t, o) => decode r t (load m (i_base i + o) (Z.to_nat (fsize r t)))
      | None => Ub
      end
  | None => Ub
  end.
