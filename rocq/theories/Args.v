(** Model of InterPhon/core/pre_check.py: the user-argument object. *)
From Coq Require Import String Ascii ZArith QArith Qcanon Bool Lia List.
From Verif Require Import Base.
Import ListNotations.
Local Open Scope string_scope.
Local Open Scope list_scope.
Local Open Scope nat_scope.

(** Values a caller may put in the argument dictionary.  Bool is an int in
    Python; a float stands for its exact rational value; objects other than
    these are not modelled. *)
(** pre_check.py 5-15, 46-89: the argument values those lines distinguish. *)
Inductive pyval : Type :=
| VNone
| VStr (s : string)
| VInt (z : Z)
| VFloat (q : Qc)
| VSeq (l : list pyval).

(** int(val) of one item; int(float) truncates toward zero. *)
(** pre_check.py 10, 12: int(val). *)
Definition py_int (v : pyval) : result Z :=
  match v with
  | VStr s => of_option EValue (parse_int s)
  | VInt z => Ok z
  | VFloat q => Ok (Z.quot (Qnum q) (Zpos (Qden q)))
  | VNone | VSeq _ => Err EType
  end.

(** float(val). *)
(** pre_check.py 48: float(_displacement). *)
Definition py_float (v : pyval) : result Qc :=
  match v with
  | VStr s => of_option EValue (parse_float s)
  | VInt z => Ok (Q2Qc (inject_Z z))
  | VFloat q => Ok q
  | VNone | VSeq _ => Err EType
  end.

(** pre_check.py 5-15 [to_int_numpy].  Its result is the list of the array's
    entries. *)
Definition to_int_numpy (v : pyval) : result (list Z) :=
  match v with
  | VInt z => Ok [z]
  | VStr s => mapM (fun w => of_option EValue (parse_int w)) (split_ws (strip s))
  | VSeq l => mapM py_int l
  | VNone | VFloat _ => Err EType
  end.

(** pre_check.py 38-40: the three instance variables ([None] = not set). *)
Record args : Type := mkArgs {
  a_disp : option Qc;
  a_enl : option (list Z);
  a_pbc : option (list Z) }.

(** pre_check.py 91-97 [initialization]. *)
Definition args_init : args := mkArgs None None None.
(** pre_check.py 91-97. *)
Definition initialization (a : args) : args := args_init.

(** pre_check.py 46-56: a negative value is silently dropped (line 51 builds an
    exception object without raising it), anything else is stored.  The printed
    caution of line 53 is not modelled. *)
Definition set_displacement (a : args) (v : pyval) : result args :=
  let! d := py_float v in
  if Qcltb d (Q2Qc 0) then Ok a
  else Ok (mkArgs (Some d) (a_enl a) (a_pbc a)).

(** pre_check.py 62-69. *)
Definition set_enlargement (a : args) (v : pyval) : result args :=
  let! e := to_int_numpy v in
  if Nat.eqb (List.length e) 3 then Ok (mkArgs (a_disp a) (Some e) (a_pbc a))
  else Err EInsufficientENLARGE.

(** pre_check.py 79: flag of one token ('0', 'F', 'f' mean False). *)
Definition flag_of_token (w : string) : Z :=
  match w with
  | String c _ =>
      if (Ascii.eqb c "0" || Ascii.eqb c "F" || Ascii.eqb c "f")%bool%char then 0%Z else 1%Z
  | EmptyString => 1%Z   (* unreachable: split() gives no empty token *)
  end.

(** pre_check.py 85-88 and 125-128: [enl] is [None] when enlargement is not set,
    then subscripting it is a TypeError. *)
Fixpoint check_pbc_from (ind : nat) (enl : option (list Z)) (pbc : list Z) : result unit :=
  match pbc with
  | [] => Ok tt
  | v :: r =>
      let! _ := (if Z.eqb v 0 then
                   match enl with
                   | None => Err EType
                   | Some e => let! x := py_nth e ind in
                               if Z.eqb x 1 then Ok tt else Err EMismatchENLARGEPBC
                   end
                 else Ok tt) in
      check_pbc_from (S ind) enl r
  end.

(** pre_check.py 75-89.  A non-string value has no [strip] (AttributeError). *)
Definition set_periodicity (a : args) (v : pyval) : result args :=
  match v with
  | VStr s =>
      let p := map flag_of_token (split_ws (strip s)) in
      if Nat.eqb (List.length p) 3 then
        let! _ := check_pbc_from 0 (a_enl a) p in
        Ok (mkArgs (a_disp a) (a_enl a) (Some p))
      else Err EInsufficientPBC
  | _ => Err EAttr
  end.

(** pre_check.py 108-113: dispatch of one dictionary entry, by substring. *)
Definition set_entry (a : args) (kv : string * pyval) : result args :=
  let '(k, v) := kv in
  if contains "displacement" k then set_displacement a v
  else if contains "enlargement" k then set_enlargement a v
  else if contains "periodicity" k then set_periodicity a v
  else Ok a.

(** pre_check.py 107-113: the loop over dict_args.items(). *)
Fixpoint set_entries (a : args) (d : list (string * pyval)) : result args :=
  match d with
  | [] => Ok a
  | kv :: r => let! a' := set_entry a kv in set_entries a' r
  end.

(** pre_check.py 99-113 [set_user_argument]; the dictionary is its items() list. *)
Definition set_user_argument (a : args) (d : list (string * pyval)) : result args :=
  set_entries (initialization a) d.

(** pre_check.py 115-128 [check_user_argument]; len(None) is a TypeError. *)
Definition check_user_argument (a : args) : result unit :=
  match a_enl a with
  | None => Err EType
  | Some e =>
      if negb (Nat.eqb (List.length e) 3) then Err EInsufficientENLARGE
      else match a_pbc a with
           | None => Err EType
           | Some p =>
               if negb (Nat.eqb (List.length p) 3) then Err EInsufficientPBC
               else check_pbc_from 0 (Some e) p
           end
  end.

(** pre_process.py 71-79 [PreProcess.set_user_arg]. *)
Definition set_user_arg (a : args) (d : list (string * pyval)) : result args :=
  let! a' := set_user_argument a d in
  let! _ := check_user_argument a' in
  Ok a'.

(** The same calls seen as updates of a mutable object: when an entry raises,
    the object keeps what the earlier entries stored. *)
(** pre_check.py 107-113, object view. *)
Fixpoint set_entries_st (a : args) (d : list (string * pyval)) : args * option err :=
  match d with
  | [] => (a, None)
  | kv :: r => match set_entry a kv with
               | Ok a' => set_entries_st a' r
               | Err e => (a, Some e)
               end
  end.

(** pre_process.py 71-79 on the object: new state and exception (if any). *)
Definition set_user_arg_st (a : args) (d : list (string * pyval)) : args * option err :=
  match set_entries_st (initialization a) d with
  | (a', Some e) => (a', Some e)
  | (a', None) => match check_user_argument a' with
                  | Ok _ => (a', None)
                  | Err e => (a', Some e)
                  end
  end.

(** Any history of calls (each may fail and be caught by the caller). *)
(** Not code of the repository: a sequence of calls of pre_process.py 71-79. *)
Definition run_history (a : args) (h : list (list (string * pyval))) : args :=
  fold_left (fun a d => fst (set_user_arg_st a d)) h a.
