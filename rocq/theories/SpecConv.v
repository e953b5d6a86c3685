(** Specification vocabulary for the declared conversion functions. *)
From Coq Require Import Ascii String ZArith List Bool.
From Verif Require Import Base ModelLink.
Import ListNotations.
Open Scope list_scope.
Open Scope string_scope.

Definition type_name (t : sty) : string :=
  match t with
  | S_BOOL => "BOOL" | S_BYTE => "BYTE" | S_WORD => "WORD" | S_DWORD => "DWORD" | S_LWORD => "LWORD"
  | S_SINT => "SINT" | S_INT => "INT" | S_DINT => "DINT" | S_LINT => "LINT"
  | S_USINT => "USINT" | S_UINT => "UINT" | S_UDINT => "UDINT" | S_ULINT => "ULINT"
  | S_REAL => "REAL" | S_LREAL => "LREAL" | S_CHAR => "CHAR" | S_WCHAR => "WCHAR"
  | S_TIME => "TIME" | S_LTIME => "LTIME" | S_DATE => "DATE" | S_LDATE => "LDATE"
  | S_TOD => "TOD" | S_LTOD => "LTOD" | S_DT => "DT" | S_LDT => "LDT"
  | S_STRING => "STRING" | S_WSTRING => "WSTRING"
  end.
Definition all_types : list sty :=
  [S_BOOL; S_BYTE; S_WORD; S_DWORD; S_LWORD; S_SINT; S_INT; S_DINT; S_LINT; S_USINT; S_UINT; S_UDINT;
   S_ULINT; S_REAL; S_LREAL; S_CHAR; S_WCHAR; S_TIME; S_LTIME; S_DATE; S_LDATE; S_TOD; S_LTOD; S_DT;
   S_LDT; S_STRING; S_WSTRING].
Definition integer_types : list sty := [S_SINT; S_INT; S_DINT; S_LINT; S_USINT; S_UINT; S_UDINT; S_ULINT].
Definition real_types : list sty := [S_REAL; S_LREAL].
Definition word_types : list sty := [S_BYTE; S_WORD; S_DWORD; S_LWORD].
(** The L-variants of the time and date types are the same types in RuSTy. *)
Definition unlong (t : sty) : sty :=
  match t with S_LTIME => S_TIME | S_LDATE => S_DATE | S_LTOD => S_TOD | S_LDT => S_DT | _ => t end.

Definition conversion_name (a b : sty) : string := type_name a ++ "_TO_" ++ type_name b.
(** Names in Structured Text are not case sensitive. *)
Definition upper_char (c : ascii) : ascii :=
  let n := nat_of_ascii c in if ((97 <=? n) && (n <=? 122))%nat then ascii_of_nat (n - 32) else c.
Fixpoint upper (s : string) : string :=
  match s with EmptyString => EmptyString | String c r => String (upper_char c) (upper r) end.
(** There is a function that takes one argument, IN of type [a], and gives a [b]. *)
Definition converts (a b : sty) : Prop :=
  exists d x k a' b', In d st_decls /\ d_name d = conversion_name a b /\
    d_params d = [(x, k, Ty a')] /\ upper x = "IN" /\ (k = Input \/ k = InputRef) /\ d_ret d = Ty b' /\
    unlong a' = unlong a /\ unlong b' = unlong b.
(** Names and kinds of the parameters. *)
Definition formals (d : decl) : list (string * pkind) := map fst (d_params d).
(** [d'] is a typed instance of [d]: CONCAT__STRING of CONCAT, MUL__TIME__DINT of MUL__TIME. *)
Definition instance_of (d' d : decl) : Prop := exists s, d_name d' = d_name d ++ "__" ++ s.

Definition scalar (t : sty) : bool := match t with S_STRING | S_WSTRING => false | _ => true end.
(** The conversions between scalar types that cannot be reversed. *)
Definition one_way : list (sty * sty) :=
  [(S_BOOL, S_SINT); (S_BOOL, S_INT); (S_BOOL, S_USINT); (S_BOOL, S_UINT); (S_BOOL, S_UDINT); (S_BOOL, S_ULINT);
   (S_CHAR, S_WORD); (S_CHAR, S_DWORD); (S_CHAR, S_LWORD); (S_WCHAR, S_WORD); (S_WCHAR, S_DWORD); (S_WCHAR, S_LWORD);
   (S_DT, S_LINT); (S_DT, S_DATE); (S_DT, S_TOD); (S_DT, S_LTOD);
   (S_LDT, S_LINT); (S_LDT, S_DATE); (S_LDT, S_TOD); (S_LDT, S_LTOD)].

(** Formal parameters of the standard functions as IEC 61131-3 names them. *)
Definition standard_formals : list (string * list string) :=
  [("ABS", ["IN"]); ("SQRT", ["IN"]); ("LN", ["IN"]); ("LOG", ["IN"]); ("EXP", ["IN"]);
   ("SIN", ["IN"]); ("COS", ["IN"]); ("TAN", ["IN"]); ("ASIN", ["IN"]); ("ACOS", ["IN"]); ("ATAN", ["IN"]);
   ("ATAN2", ["Y"; "X"]); ("EXPT", ["IN1"; "IN2"]); ("TRUNC", ["IN"]);
   ("SHL", ["IN"; "N"]); ("SHR", ["IN"; "N"]); ("ROL", ["IN"; "N"]); ("ROR", ["IN"; "N"]);
   ("LIMIT", ["MN"; "IN"; "MX"]); ("NE", ["IN1"; "IN2"]);
   ("LEN", ["IN"]); ("LEFT", ["IN"; "L"]); ("RIGHT", ["IN"; "L"]); ("MID", ["IN"; "L"; "P"]);
   ("INSERT", ["IN1"; "IN2"; "P"]); ("DELETE", ["IN"; "L"; "P"]); ("REPLACE", ["IN1"; "IN2"; "L"; "P"]);
   ("FIND", ["IN1"; "IN2"]);
   ("ADD_TIME", ["IN1"; "IN2"]); ("ADD_TOD_TIME", ["IN1"; "IN2"]); ("ADD_DT_TIME", ["IN1"; "IN2"]);
   ("SUB_TIME", ["IN1"; "IN2"]); ("SUB_DATE_DATE", ["IN1"; "IN2"]); ("SUB_TOD_TIME", ["IN1"; "IN2"]);
   ("SUB_TOD_TOD", ["IN1"; "IN2"]); ("SUB_DT_TIME", ["IN1"; "IN2"]); ("SUB_DT_DT", ["IN1"; "IN2"]);
   ("MUL_TIME", ["IN1"; "IN2"]); ("DIV_TIME", ["IN1"; "IN2"]); ("MUL_LTIME", ["IN1"; "IN2"]); ("DIV_LTIME", ["IN1"; "IN2"]);
   ("CONCAT_DATE", ["YEAR"; "MONTH"; "DAY"]); ("CONCAT_TOD", ["HOUR"; "MINUTE"; "SECOND"; "MILLISECOND"]);
   ("CONCAT_DT", ["YEAR"; "MONTH"; "DAY"; "HOUR"; "MINUTE"; "SECOND"; "MILLISECOND"]);
   ("SPLIT_DATE", ["IN"; "YEAR"; "MONTH"; "DAY"]); ("SPLIT_TOD", ["IN"; "HOUR"; "MINUTE"; "SECOND"; "MILLISECOND"]);
   ("SPLIT_DT", ["IN"; "YEAR"; "MONTH"; "DAY"; "HOUR"; "MINUTE"; "SECOND"; "MILLISECOND"]);
   ("DAY_OF_WEEK", ["IN"]); ("IS_VALID", ["IN"]); ("IS_VALID_BCD", ["IN"]);
   ("TO_BIG_ENDIAN", ["IN"]); ("TO_LITTLE_ENDIAN", ["IN"]); ("FROM_BIG_ENDIAN", ["IN"]); ("FROM_LITTLE_ENDIAN", ["IN"])].
Definition formal_names (d : decl) : list string := map (fun p => upper (fst p)) (formals d).
