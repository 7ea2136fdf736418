(** Consistency checks of the post-process: PostArgument.check_match_argument
    (InterPhon/core/post_check.py 33-50) and check_file_order
    (InterPhon/interphon.py 32-113). *)
From Coq Require Import String Ascii ZArith QArith Qcanon Bool Lia Arith List.
From Verif Require Import Base Dec Field Args Cell Super Displace.
Import ListNotations.
Local Open Scope list_scope.
Local Open Scope nat_scope.

(** part of numpy.isclose, post_check.py 43-44. *)
Definition qcabs (x : Qc) : Qc := if Qcleb 0 x then x else Qcopp x.

(** numpy.isclose(a, b) with the default rtol = 1e-5, atol = 1e-8 (finite
    numbers): |a - b| <= atol + rtol * |b|. *)
(** numpy default used at post_check.py 43-44, interphon.py 71, 82, 100, 111. *)
Definition atol : Qc := Q2Qc (1 # 100000000).
(** numpy default used at post_check.py 43-44, interphon.py 71, 82, 100, 111. *)
Definition rtol : Qc := Q2Qc (1 # 100000).
(** numpy.isclose, post_check.py 43-44, interphon.py 71. *)
Definition isclose (a b : Qc) : bool := Qcleb (qcabs (a - b)) (atol + rtol * qcabs b).
(** post_check.py 43-44: allclose on one row. *)
Definition isclose3 (a b : v3 Qc) : bool :=
  (isclose (vx a) (vx b) && isclose (vy a) (vy b) && isclose (vz a) (vz b))%bool.

(** part of numpy.allclose, interphon.py 71. *)
Fixpoint all2 {A B} (f : A -> B -> bool) (l : list A) (l' : list B) : bool :=
  match l, l' with
  | a :: r, b :: r' => (f a b && all2 f r r')%bool
  | _, _ => true
  end.

(** numpy.allclose on two (n,3) arrays: numbers of rows must agree or one of them
    be 1 (broadcast); ValueError otherwise. *)
(** interphon.py 71, 82, 100, 111. *)
Definition allclose (p q : list (v3 Qc)) : result bool :=
  if Nat.eqb (length p) (length q) then Ok (all2 isclose3 p q)
  else match p, q with
       | [a], _ => Ok (forallb (fun b => isclose3 a b) q)
       | _, [b] => Ok (forallb (fun a => isclose3 a b) p)
       | _, _ => Err EValue
       end.

(** post_check.py 33-50.  The comparison of atom counts (52-54) is commented out
    in the source.  None entries give TypeErrors. *)
Definition check_match_argument (u s : cell Qc) (ar : args) : result unit :=
  let row (U W : v3 Qc) (e : Z) := isclose3 (vscale (fofZ e) U) W in
  let! U := of_option EType (c_lat u) in
  let! enl := of_option EType (a_enl ar) in
  let! e1 := py_nth enl 0 in
  let! SL := of_option EType (c_lat s) in
  if negb (row (r1 U) (r1 SL) e1) then Err EMismatchENLARGEpost
  else let! e2 := py_nth enl 1 in
  if negb (row (r2 U) (r2 SL) e2) then Err EMismatchENLARGEpost
  else let! e3 := py_nth enl 2 in
  if negb (row (r3 U) (r3 SL) e3) then Err EMismatchENLARGEpost
  else let! pbc := of_option EType (a_pbc ar) in
  let! E := enlarge enl pbc in
  Ok tt.

(** One assertion of check_file_order: the structure in the directory of force
    file [m] must be close to [expected].  [files] are the outcomes of
    read_unit_cell(...).atom_cart for each directory (a failing read raises). *)
(** interphon.py 69-73, 80-84, 97-102, 108-113. *)
Definition check_one (files : list (result (list (v3 Qc)))) (m : nat) (expected : list (v3 Qc)) : result unit :=
  let! r := py_nth files m in
  let! p := r in
  let! ok := allclose expected p in
  if ok then Ok tt else Err EAssert.

(** interphon.py 66-88 and 95-113, loop over displacement directions; [disp] is
    _dis_super_position, [k] the running pair number (2k = 6i+2j without
    symmetry). *)
Fixpoint check_dirs (files : list (result (list (v3 Qc)))) (cur disp : list (v3 Qc)) (at_ : Z) (d : Qc)
    (dirs : list (v3 Qc)) (k : nat) : result unit :=
  match dirs with
  | [] => Ok tt
  | dir :: r =>
      let! i := np_index (length cur) at_ in
      let! row := py_nth cur i in
      let df := set_nth i (vadd row (vscale d dir)) disp in
      let! _ := check_one files (2 * k) df in
      let db := set_nth i (vsub row (vscale d dir)) df in
      let! _ := check_one files (2 * k + 1) db in
      check_dirs files cur db at_ d r (S k)
  end.
(** interphon.py 54-86, 89-113. *)
Fixpoint check_targets (files : list (result (list (v3 Qc)))) (cur : list (v3 Qc)) (d : Qc)
    (l : list (Z * list (v3 Qc))) (k : nat) : result unit :=
  match l with
  | [] => Ok tt
  | (at_, dirs) :: r =>
      let! _ := check_dirs files cur cur at_ d dirs k in
      check_targets files cur d r (k + length dirs)
  end.

(** interphon.py 32-44 and the two branches.  As in Displace.v the symmetry
    search is given by its result [req]. *)
Definition check_order (s : cell Qc) (ar : args) (d : option Qc) (targets : list (Z * list (v3 Qc)))
    (files : list (result (list (v3 Qc)))) : result unit :=
  let! cur := of_option EAttr (c_cart s) in
  let! pbc := of_option EType (a_pbc ar) in
  let! enl := of_option EType (a_enl ar) in
  let! E := enlarge enl pbc in
  match targets with
  | [] => Ok tt
  | _ => let! dv := of_option EType d in
         check_targets files cur dv (map (fun '(i, dirs) => ((E * i)%Z, dirs)) targets) 0
  end.
(** interphon.py 32-44, 89-113. *)
Definition check_file_order_nosym (u s : cell Qc) (ar : args) (d : option Qc) (files : list (result (list (v3 Qc)))) : result unit :=
  let! tr := of_option EType (c_true u) in
  check_order s ar d (map (fun i => (i, eye3)) tr) files.
(** interphon.py 32-44, 46-86. *)
Definition check_file_order_sym (u s : cell Qc) (ar : args) (d : option Qc)
    (req : list (nat * (v3 Qc * list (v3 Qc)))) (files : list (result (list (v3 Qc)))) : result unit :=
  let! tr := of_option EType (c_true u) in
  let! targets := mapM (fun '(k, (d1, more)) => let! i := py_nth tr k in Ok (i, d1 :: more)) req in
  check_order s ar d targets files.
