(** Model of PreProcess.write_displace_cell, InterPhon/core/pre_process.py 114-200. *)
From Coq Require Import String Ascii ZArith Bool Lia List.
From Verif Require Import Base Dec Field Args Cell Super.
Import ListNotations.
Local Open Scope list_scope.
Local Open Scope nat_scope.

(** '{0:0>4}'.format(n): str(n) right-aligned in width 4, filled with '0'. *)
(** pre_process.py 173, 180, 193, 199: number in the file name. *)
Definition pad4 (n : nat) : string :=
  let s := nat_digits (Z.of_nat n) in (zeros (4 - String.length s) ++ s)%string.

Section DispSec.
  Context {A : Type} {F : Fld A}.

  (** A file written: suffix after "out_file", comment line and the cell whose
      contents are serialised (pre_process.py 173-200). *)
  Record out : Type := mkOut { o_suffix : string; o_comment : string; o_cell : cell A }.

  (** pre_process.py 174, 194: comment line. *)
  Definition forward : string := "Forward Displacement".
  (** pre_process.py 181, 200: comment line. *)
  Definition backward : string := "Backward Displacement".
  (** pre_process.py 173, 180, 193, 199: '-' and the number. *)
  Definition suffix (n : nat) : string := ("-" ++ pad4 n)%string.

  (** numpy row index with a Python int: negative counts from the end. *)
  (** pre_process.py 170-179, 191-198: numpy row index. *)
  Definition np_index (len : nat) (z : Z) : result nat :=
    if (0 <=? z)%Z then (if (z <? Z.of_nat len)%Z then Ok (Z.to_nat z) else Err EIndex)
    else (if (0 <=? z + Z.of_nat len)%Z then Ok (Z.to_nat (z + Z.of_nat len)) else Err EIndex).

  (** One displaced pair, pre_process.py 169-181 and 190-200.  [cur] is
      _current_position, [s] the aliased supercell; the returned cell is the
      object's state afterwards (backward displacement in place). *)
  Definition displace_pair (s : cell A) (cur : list (v3 A)) (at_ : Z) (d : A) (dir : v3 A) (num : nat)
    : result (cell A * list out) :=
    let! i := np_index (length cur) at_ in
    let! r := py_nth cur i in
    let! pos := of_option EType (c_cart s) in
    let pf := set_nth i (vadd r (vscale d dir)) pos in
    let sf := put_cart s pf in
    let pb := set_nth i (vsub r (vscale d dir)) pf in
    let sb := put_cart s pb in
    Ok (sb, [mkOut (suffix (num + 1)) forward sf; mkOut (suffix (num + 2)) backward sb]).

  (** The inner loop over directions; [num] is 2k (sym) or 6i+2j (non-sym). *)
  (** pre_process.py 168-183, 188-200. *)
  Fixpoint displace_dirs (s : cell A) (cur : list (v3 A)) (at_ : Z) (d : A) (dirs : list (v3 A)) (num : nat)
    : result (cell A * list out) :=
    match dirs with
    | [] => Ok (s, [])
    | dir :: r =>
        let! (s1, o1) := displace_pair s cur at_ d dir num in
        let! (s2, o2) := displace_dirs s1 cur at_ d r (num + 2) in
        Ok (s2, o1 ++ o2)
    end.

  (** The outer loop: each target atom with its list of directions; at the start
      of each atom the positions are reset (pre_process.py 161, 187). *)
  Fixpoint displace_atoms (s : cell A) (cur : list (v3 A)) (d : A) (l : list (Z * list (v3 A))) (num : nat)
    : result (cell A * list out) :=
    match l with
    | [] => Ok (s, [])
    | (at_, dirs) :: r =>
        let! (s1, o1) := displace_dirs (put_cart s cur) cur at_ d dirs num in
        let! (s2, o2) := displace_atoms s1 cur d r (num + 2 * length dirs) in
        Ok (s2, o1 ++ o2)
    end.

  (** np.eye(3) rows, pre_process.py 188. *)
  Definition eye3 : list (v3 A) := [V3 f1 f0 f0; V3 f0 f1 f0; V3 f0 f0 f1].

  (** _dis_super_cell.atom_cart = _current_position.copy() goes through the
      setter, which compares with len(atom_type) (unit_cell.py 154-161). *)
  Definition cart_ok (s : cell A) (cur : list (v3 A)) : bool :=
    match c_type s with None => true | Some t => Nat.eqb (length cur) (length t) end.

  (** Common part of both branches, pre_process.py 127-134: [targets] lists, for
      each atom to displace, its index in the unit cell and its directions.
      [d] is user_arg.displacement (None * array is a TypeError).
      Returns the final state of process.super_cell (the displaced cell is an
      alias of it, line 127) and the files in writing order. *)
  Definition write_displaced (s : cell A) (ar : args) (d : option A) (targets : list (Z * list (v3 A)))
    : result (cell A * list out) :=
    let s0 := set_selective s false in
    let! cur := of_option EAttr (c_cart s0) in
    let! enl := of_option EType (a_enl ar) in
    let! pbc := of_option EType (a_pbc ar) in
    let! E := enlarge enl pbc in
    match targets with
    | [] => Ok (s0, [])
    | _ :: _ =>
        if negb (cart_ok s0 cur) then Err EValue
        else let! dv := of_option EType d in
             displace_atoms s0 cur dv (map (fun '(i, dirs) => ((E * i)%Z, dirs)) targets) 0
    end.

  (** Non-symmetry branch, pre_process.py 185-200: every selected atom, the three
      Cartesian axes; the number in the name is 6*i+2*j+1 / 6*i+2*j+2. *)
  Definition write_displace_nosym (u s : cell A) (ar : args) (d : option A) : result (cell A * list out) :=
    let! tr := of_option EType (c_true u) in
    write_displaced s ar d (map (fun i => (i, eye3)) tr).

  (** Symmetry branch, pre_process.py 153-183, given the result of the symmetry
      search: positions [req] in the selection list of the required atoms with
      their first independent direction and additional directions. *)
  Definition write_displace_sym (u s : cell A) (ar : args) (d : option A)
      (req : list (nat * (v3 A * list (v3 A)))) : result (cell A * list out) :=
    let! tr := of_option EType (c_true u) in
    let! targets := mapM (fun '(k, (d1, more)) => let! i := py_nth tr k in Ok (i, d1 :: more)) req in
    write_displaced s ar d targets.
End DispSec.
Arguments out A : clear implicits.
