(** Model of PostProcess.eval_phonon (InterPhon/core/post_process.py 391-470) over
    the real numbers.  numpy.linalg.eig and the index order returned by
    numpy.argsort for equal keys are parameters.  The force-constant matrix is an
    arbitrary function (cells never written hold arbitrary numbers). *)
From Coq Require Import String Ascii ZArith Bool Lia Arith Reals List.
From Coquelicot Require Import Complex.
From Verif Require Import Base Field Args Cell Super Displace Force.
Import ListNotations.
Local Open Scope list_scope.
Local Open Scope nat_scope.

(** Rows of the supercell lattice along periodic directions: lattice_matrix[_ind_pbc[i]]
    (post_process.py 411, 423-446). *)
Definition pbc_axes (pbc : list Z) (SL : m3 R) : list (v3 R) :=
  map snd (filter (fun '(p, _) => negb (Z.eqb p 0)) (combine pbc [r1 SL; r2 SL; r3 SL])).

(** (-1, 0, 1) *)
(** post_process.py 424, 430-431, 438-440: (-1, 0, 1). *)
Definition around : list Z := [-1; 0; 1]%Z.
(** post_process.py 425, 432-433, 441-443: integer * lattice vector. *)
Definition zscale (i : Z) (v : v3 R) : v3 R := vscale (IZR i) v.
(** The shifts in loop order, post_process.py 420-446 (four cases by the number of
    periodic directions; there are never more than three). *)
Definition images (axes : list (v3 R)) : list (v3 R) :=
  match axes with
  | [a] => map (fun i => zscale i a) around
  | [a; b] => flat_map (fun i => map (fun j => vadd (zscale i a) (zscale j b)) around) around
  | [a; b; c] => flat_map (fun i => flat_map (fun j => map (fun k => vadd (vadd (zscale i a) (zscale j b)) (zscale k c)) around) around) around
  | _ => []
  end.
(** if dot(pos, pos) > dot(tmp, tmp): pos = tmp *)
(** post_process.py 426-427, 434-435, 444-445. *)
Definition closer (pos sh : v3 R) : v3 R :=
  let tmp := vadd pos sh in
  if Rlt_dec (vdot tmp tmp) (vdot pos pos) then tmp else pos.
(** post_process.py 420-445. *)
Definition min_image (axes : list (v3 R)) (pos : v3 R) : v3 R := fold_left closer (images axes) pos.

(** np.exp(1j * complex(t, 0)) *)
(** post_process.py 450: np.exp(1j * x) for real x. *)
Definition cis (t : R) : C := (cos t, sin t).
(** post_process.py 414: complex square array. *)
Definition cmat : Type := nat -> nat -> C.
(** post_process.py 447-450: increment of one entry. *)
Definition add_at (D : cmat) (i j : nat) (z : C) : cmat :=
  fun i' j' => if (Nat.eqb i' i && Nat.eqb j' j)%bool then Cplus (D i' j') z else D i' j'.

(** post_process.py 417-451, the loop over unit_cell.xyz_true; [sp] is the row of
    super_cell.atom_cart, [fr] the row of force_constant. *)
Fixpoint unit_loop (n ncol : nat) (axes : list (v3 R)) (q : v3 R) (ucart : list (v3 R)) (sp : result (v3 R)) (row : nat)
    (fr : result (nat -> R)) (s2 : nat) (uxyz : list Z) (D : cmat) : result cmat :=
  match uxyz with
  | [] => Ok D
  | a :: r =>
      let! x := sp in
      let! ia := np_index (length ucart) a in
      let! y := py_nth ucart ia in
      let p := min_image axes (vsub x y) in
      if n <=? row then Err EIndex
      else
        let! f := fr in
        if ncol <=? s2 then Err EIndex
        else unit_loop n ncol axes q ucart sp row fr (S s2) r (add_at D row s2 (Cmult (RtoC (f s2)) (cis (vdot q p))))
  end.

(** post_process.py 416-451, the loop over super_cell.xyz_true. *)
Fixpoint super_loop (n nrow ncol E : nat) (axes : list (v3 R)) (q : v3 R) (scart ucart : list (v3 R)) (fc : nat -> nat -> R)
    (uxyz : list Z) (s1 : nat) (sxyz : list Z) (D : cmat) : result cmat :=
  match sxyz with
  | [] => Ok D
  | a :: r =>
      let sp := let! i := np_index (length scart) a in py_nth scart i in
      let fr := let! i := np_index nrow (a * 3 + Z.of_nat (s1 mod 3)) in Ok (fc i) in
      let! D' := unit_loop n ncol axes q ucart sp ((s1 / (E * 3)) * 3 + s1 mod 3) fr 0 uxyz D in
      super_loop n nrow ncol E axes q scart ucart fc uxyz (S s1) r D'
  end.

(** post_process.py 406-456 for one k-point: the entry of self.dyn_matrix. The
    divisor is sqrt of the outer product of mass_true; reshape raises ValueError on a
    wrong length.  [E] is a product of accepted enlargements, so it is positive (for
    E <= 0 there is no supercell, see C12). *)
Definition dyn_at (u s : cell R) (ar : args) (B : m3 R) (fc : nat -> nat -> R) (k : v3 R) : result cmat :=
  let! pbc := of_option EType (a_pbc ar) in
  let! enl := of_option EType (a_enl ar) in
  let! E := enlarge enl pbc in
  let! uxyz := of_option EType (c_xyz u) in
  let! tr := of_option EType (c_true u) in
  let! sxyz := of_option EType (c_xyz s) in
  let! sty := of_option EType (c_type s) in
  let! scart := of_option EType (c_cart s) in
  let! ucart := of_option EType (c_cart u) in
  let! SL := of_option EType (c_lat s) in
  let n := length uxyz in
  let! D := super_loop n (3 * length sty) (3 * length tr) (Z.to_nat E) (pbc_axes pbc SL) (vmul k B) scart ucart fc uxyz 0 sxyz (fun _ _ => RtoC 0) in
  let! ms := of_option EType (c_mass u) in
  if negb (Nat.eqb (length ms) n) then Err EValue
  else Ok (fun i j => Cdiv (D i j) (RtoC (sqrt (nth i ms 0%R * nth j ms 0%R)))).

(** numpy.sqrt on complex numbers (principal branch). *)
(** post_process.py 457: np.sqrt of a complex number (principal branch). *)
Definition csqrt (z : C) : C :=
  (sqrt ((Cmod z + fst z) / 2)%R,
   if Rlt_dec (snd z) 0 then (- sqrt ((Cmod z - fst z) / 2))%R else sqrt ((Cmod z - fst z) / 2)%R).
(** post_process.py 457 *)
Definition freq (lam : C) : R := ((fst (csqrt lam) - Rabs (snd (csqrt lam))) / (2 * PI) / 10 ^ 12)%R.

Section Eigen.
  (** numpy.linalg.eig: eigenvalues and the matrix whose columns are eigenvectors *)
  Variable eig : nat -> cmat -> list C * cmat.
  Variable argsort : list R -> list nat.
  (** post_process.py 457-460 *)
  Definition modes_at (n : nat) (D : cmat) : list R * cmat :=
    let (ew, ev) := eig n D in
    let w := map freq ew in
    let w' := map (fun i => nth i w 0%R) (argsort w) in
    (w', fun i j => ev (nth i (argsort w') 0) j).

  (** post_process.py 391-470: (w_q, v_q) per k-point.  Simplified: with no periodic
      direction the code then also writes w_q[0] to ./freqency_at_gamma_point.dat. *)
  Fixpoint eval_phonon (u s : cell R) (ar : args) (B : m3 R) (fc : nat -> nat -> R) (ks : list (v3 R)) : result (list (list R * cmat)) :=
    match ks with
    | [] => Ok []
    | k :: r =>
        let! D := dyn_at u s ar B fc k in
        let! n := of_option EType (c_xyz u) in
        let! rest := eval_phonon u s ar B fc r in
        Ok (modes_at (length n) D :: rest)
    end.
End Eigen.
