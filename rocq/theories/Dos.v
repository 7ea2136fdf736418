(** Model of analysis.DOS (InterPhon/analysis/dos.py 20-146) and of
    InterPhon/util/linear_tetrahedron_method.py over the real numbers.  [None] stands for
    a number that is not finite (numpy continues after 0/0). *)
From Coq Require Import Reals ZArith Bool Lia Arith List.
From Coquelicot Require Import Complex.
From Verif Require Import Base Field Phonon Band Thermal.
Import ListNotations.
Local Open Scope list_scope.
Local Open Scope nat_scope.

(** numpy - with nan/inf, linear_tetrahedron_method.py 66-73, 157-183. *)
Definition osub (x y : option R) : option R := obind x (fun a => obind y (fun b => Some (a - b)%R)).
(** numpy * with nan/inf, linear_tetrahedron_method.py 66-73, 157-183. *)
Definition omul (x y : option R) : option R := obind x (fun a => obind y (fun b => Some (a * b)%R)).
(** numpy / with nan/inf, linear_tetrahedron_method.py 67-70, 157-183. *)
Definition odiv (x y : option R) : option R := obind x (fun a => obind y (fun b => np_div a b)).
Declare Scope opt_scope.
Delimit Scope opt_scope with opt.
Notation "x + y" := (oadd x y) : opt_scope.
Notation "x - y" := (osub x y) : opt_scope.
Notation "x * y" := (omul x y) : opt_scope.
Notation "x / y" := (odiv x y) : opt_scope.
(** a finite number, linear_tetrahedron_method.py 66-73. *)
Definition num (x : R) : option R := Some x.

(** numpy.argsort of a short array: insertion sort, stable. *)
(** linear_tetrahedron_method.py 63, 154, 318: part of np.argsort. *)
Fixpoint insert_arg (x : R * nat) (l : list (R * nat)) : list (R * nat) :=
  match l with
  | [] => [x]
  | y :: r => if Rle_dec (fst y) (fst x) then y :: insert_arg x r else x :: l
  end.
(** linear_tetrahedron_method.py 63, 154, 318: np.argsort (the stable order; see the comment at the top). *)
Definition argsort (ws : list R) : list nat :=
  map snd (fold_left (fun acc x => insert_arg x acc) (combine ws (seq 0 (length ws))) []).
(** a[indices] *)
(** linear_tetrahedron_method.py 63-64, 154-155: indexing with an array of indices. *)
Definition take {A} (d : A) (l : list A) (ix : list nat) : list A := map (fun i => nth i l d) ix.

(** Inside a simplex: the density g and the vertex weights; [None] outside. *)
(** linear_tetrahedron_method.py 66-70: the density of a simplex and its corner weights, or nothing. *)
Definition weights : Type := option (option R * list (option R)).
(** linear_tetrahedron_method.py 66: w0 <= freq < w1. *)
Definition between (a f b : R) : bool := if Rle_dec a f then if Rlt_dec f b then true else false else false.
(** linear_tetrahedron_method.py 66-70 *)
Definition weights1 (f w0 w1 : R) : weights :=
  if between w0 f w1 then
    let f := num f in let w0 := num w0 in let w1 := num w1 in
    Some (num 1 / (w1 - w0), [(f - w1) / (w0 - w1); (f - w0) / (w1 - w0)])%opt
  else None.
(** linear_tetrahedron_method.py 157-176 and 198-217 *)
Definition weights2 (f w0 w1 w2 : R) : weights :=
  let b0 := between w0 f w1 in let b1 := between w1 f w2 in
  let f := num f in let w0 := num w0 in let w1 := num w1 in let w2 := num w2 in
  (if b0 then
    Some (num 2 * (f - w0) / (w1 - w0) / (w2 - w0),
          [num (1 / 2) * ((f - w1) / (w0 - w1) + (f - w2) / (w0 - w2));
           num (1 / 2) * (f - w0) / (w1 - w0);
           num (1 / 2) * (f - w0) / (w2 - w0)])
  else if b1 then
    Some (num 2 * (w2 - f) / (w2 - w1) / (w2 - w0),
          [num (1 / 2) * (f - w2) / (w0 - w2);
           num (1 / 2) * (f - w2) / (w1 - w2);
           num (1 / 2) * ((f - w0) / (w2 - w0) + (f - w1) / (w2 - w1))])
  else None)%opt.
(** linear_tetrahedron_method.py 330-381 (and five more copies) *)
Definition weights3 (f w0 w1 w2 w3 : R) : weights :=
  let b0 := between w0 f w1 in let b1 := between w1 f w2 in let b2 := between w2 f w3 in
  let f := num f in let w0 := num w0 in let w1 := num w1 in let w2 := num w2 in let w3 := num w3 in
  (if b0 then
    Some (num 3 * ((f - w0) * (f - w0)) / (w1 - w0) / (w2 - w0) / (w3 - w0),
          [num (1 / 3) * ((f - w1) / (w0 - w1) + (f - w2) / (w0 - w2) + (f - w3) / (w0 - w3));
           num (1 / 3) * (f - w0) / (w1 - w0);
           num (1 / 3) * (f - w0) / (w2 - w0);
           num (1 / 3) * (f - w0) / (w3 - w0)])
  else if b1 then
    let g := num 3 / (w3 - w0) * ((f - w1) * (f - w3) / ((w2 - w1) * (w1 - w3)) + (f - w0) * (f - w2) / ((w2 - w0) * (w1 - w2))) in
    Some (g,
          [num (1 / 3) * (f - w3) / (w0 - w3)
             + (f - w2) / (w0 - w2) * (f - w0) / (w2 - w0) * (f - w2) / (w1 - w2) / g / (w3 - w0);
           num (1 / 3) * (f - w2) / (w1 - w2)
             + (f - w3) / (w1 - w3) * (f - w3) / (w1 - w3) * (f - w1) / (w2 - w1) / g / (w3 - w0);
           num (1 / 3) * (f - w1) / (w2 - w1)
             + (f - w0) / (w2 - w0) * (f - w0) / (w2 - w0) * (f - w2) / (w1 - w2) / g / (w3 - w0);
           num (1 / 3) * (f - w0) / (w3 - w0)
             + (f - w1) / (w3 - w1) * (f - w3) / (w1 - w3) * (f - w1) / (w2 - w1) / g / (w3 - w0)])
  else if b2 then
    Some (num 3 * ((w3 - f) * (w3 - f)) / (w3 - w0) / (w3 - w1) / (w3 - w2),
          [num (1 / 3) * (f - w3) / (w0 - w3);
           num (1 / 3) * (f - w3) / (w1 - w3);
           num (1 / 3) * (f - w3) / (w2 - w3);
           num (1 / 3) * ((f - w0) / (w3 - w0) + (f - w1) / (w3 - w1) + (f - w2) / (w3 - w2))])
  else None)%opt.

(** I0 * F0 + I1 * F1 + ..., left to right *)
(** linear_tetrahedron_method.py 72-73: the weighted sum of the corner values. *)
Fixpoint mix (acc : option R) (ws : list (option R)) (F : list R) : option R :=
  match ws, F with i :: ws', x :: F' => mix (acc + i * num x)%opt ws' F' | _, _ => acc end.
(** linear_tetrahedron_method.py 72-73: the weighted sum of the corner values. *)
Definition mix0 (ws : list (option R)) (F : list R) : option R :=
  match ws, F with i :: ws', x :: F' => mix (i * num x)%opt ws' F' | _, _ => num 0 end.
(** linear_tetrahedron_method.py 66-78, 157-183, 328-389: by the number of corners. *)
Definition weights_of (f : R) (ws : list R) : weights :=
  match ws with
  | [w0; w1] => weights1 f w0 w1
  | [w0; w1; w2] => weights2 f w0 w1 w2
  | [w0; w1; w2; w3] => weights3 f w0 w1 w2 w3
  | _ => None
  end.
(** One simplex, e.g. 153-178: both arrays are re-ordered, F by argsort of the frequencies that
    have just been sorted.  The result is what is added to _pdos[m, ind_x]. *)
(** linear_tetrahedron_method.py 63-73, 154-183: contribution of one simplex. *)
Definition simplex (vol f : R) (ws : list R) (Fs : list (nat -> R)) (m : nat) : option R :=
  let ws' := take 0%R ws (argsort ws) in
  let Fs' := take (fun _ => 0%R) Fs (argsort ws') in
  match weights_of f ws' with
  | None => num 0
  | Some (g, wts) => (num (vol / 1) * g * mix0 wts (map (fun F => F m) Fs'))%opt
  end.

(** w_q[i, b] and abs(v_q[i, b, :]) ** 2 *)
(** linear_tetrahedron_method.py 58-61: frequency and squared components at one k-point. *)
Definition corner (p : proc) (b i : nat) : result (R * (nat -> R)) :=
  let! m := py_nth (p_modes p) i in
  let! w := py_nth (fst m) b in
  Ok (w, fun j => abs2 (snd m b j)).
(** a column of _pdos: projection per degree of freedom *)
(** dos.py 35: one column of _pdos. *)
Definition column : Type := nat -> option R.
(** linear_tetrahedron_method.py 55-78: the loop over the simplices. *)
Fixpoint add_cells (p : proc) (vol f : R) (b : nat) (cells : list (list nat)) (col : column) : result column :=
  match cells with
  | [] => Ok col
  | ix :: r =>
      let! cs := mapM (corner p b) ix in
      add_cells p vol f b r (fun m => oadd (col m) (simplex vol f (map fst cs) (map snd cs) m))
  end.
(** linear_tetrahedron_method.py 52-78: the loop over the bands. *)
Fixpoint add_bands (p : proc) (vol f : R) (cells : list (list nat)) (bands : list nat) (col : column) : result column :=
  match bands with
  | [] => Ok col
  | b :: r => let! col' := add_cells p vol f b cells col in add_bands p vol f cells r col'
  end.

(** The simplices as lists of k-point indices, in loop order.
    62-64; 136-152 and 178-194; 288-320 and its copies. *)
(** linear_tetrahedron_method.py 55-61: the corners of each segment. *)
Definition cells1 (n1 : nat) : list (list nat) := map (fun i => [i; (i + 1) mod n1]) (seq 0 n1).
(** linear_tetrahedron_method.py 138-152, 180-193: the corners of each triangle. *)
Definition cells2 (n1 n2 : nat) : list (list nat) :=
  flat_map (fun i => flat_map (fun j =>
    let at_ di dj := ((i + di) mod n1) * n2 + (j + dj) mod n2 in
    [[i * n2 + j; i * n2 + (j + 1) mod n2; at_ 1 1]; [i * n2 + j; ((i + 1) mod n1) * n2 + j; at_ 1 1]])
  (seq 0 n2)) (seq 0 n1).
(** linear_tetrahedron_method.py 289-313 and the five following blocks: the corners of each tetrahedron. *)
Definition cells3 (n1 n2 n3 : nat) : list (list nat) :=
  flat_map (fun i => flat_map (fun j => flat_map (fun k =>
    let c a b d := (if a : bool then (i + 1) mod n1 else i) * n2 * n3 + (if b : bool then (j + 1) mod n2 else j) * n3 + (if d : bool then (k + 1) mod n3 else k) in
    let c0 := c false false false in let c1 := c false false true in let c2 := c false true false in let c3 := c false true true in
    let c4 := c true false false in let c5 := c true false true in let c6 := c true true false in let c7 := c true true true in
    [[c0; c1; c5; c7]; [c0; c1; c3; c7]; [c0; c2; c3; c7]; [c0; c4; c5; c7]; [c0; c4; c6; c7]; [c0; c2; c6; c7]])
  (seq 0 n3)) (seq 0 n2)) (seq 0 n1).

(** _ind_pbc = periodicity.nonzero()[0] *)
(** dos.py 56: periodicity.nonzero()[0]. *)
Definition ind_pbc (pbc : list Z) : list nat :=
  map fst (filter (fun x => negb (Z.eqb (snd x) 0)) (combine (seq 0 (length pbc)) pbc)).
(** num_k_points[_ind_pbc[i]]; without grid (line paths) auto_k_points is empty: IndexError.
    A count that is not positive has no k-points: IndexError at k_points[0]
    (ZeroDivisionError for 1 % 0). *)
(** linear_tetrahedron_method.py 47, 120-121, 270-272: grid divisions. *)
Definition count (p : proc) (i : nat) : result nat :=
  let! z := py_nth (p_auto p) i in
  if Z.leb z 0 then Err EIndex else Ok (Z.to_nat z).

(** 47-49: the simplex volume and the simplices *)
(** linear_tetrahedron_method.py 47-49. *)
Definition setup1 (p : proc) (a : nat) : result (R * list (list nat)) :=
  let! n1 := count p a in
  let! k1 := py_nth (p_k p) (1 mod n1) in
  let! k0 := py_nth (p_k p) 0 in
  let d := vsub k1 k0 in
  Ok (sqrt (vdot d d), cells1 n1).
(** 120-131 *)
(** linear_tetrahedron_method.py 120-126. *)
Definition setup2 (p : proc) (a b : nat) : result (R * list (list nat)) :=
  let! n1 := count p a in
  let! n2 := count p b in
  let! k1 := py_nth (p_k p) (1 mod n2) in
  let! k0 := py_nth (p_k p) 0 in
  let! k2 := py_nth (p_k p) n2 in
  let tmp i := if (Nat.eqb i a || Nat.eqb i b)%bool then 0%R else 1%R in
  Ok ((1 / 2 * Rabs (vdot (V3 (tmp 0%nat) (tmp 1%nat) (tmp 2%nat)) (vcross (vsub k1 k0) (vsub k2 k0))))%R, cells2 n1 n2).
(** 270-279 *)
(** linear_tetrahedron_method.py 270-278. *)
Definition setup3 (p : proc) (a b c : nat) : result (R * list (list nat)) :=
  let! n1 := count p a in
  let! n2 := count p b in
  let! n3 := count p c in
  let! k1 := py_nth (p_k p) (1 mod n2) in
  let! k0 := py_nth (p_k p) 0 in
  let! k2 := py_nth (p_k p) n2 in
  let! k3 := py_nth (p_k p) (n2 * n3) in
  Ok ((1 / 6 * Rabs (vdot (vsub k1 k0) (vcross (vsub k2 k0) (vsub k3 k0))))%R, cells3 n1 n2 n3).

(** dos.py 26-36: the object. *)
Record dos := mkDos { d_sigma : R; d_freq : list R; d_pdos : list column; d_tdos : list (option R) }.
(** np.min and np.max of w_q *)
(** dos.py 30-31: np.min / np.max; raises on an empty array. *)
Definition fold_minmax (pick : R -> R -> R) (l : list R) : result R :=
  match l with [] => Err EValue | x :: r => Ok (fold_left pick r x) end.
(** dos.py 26-36; num_dos is positive.  numpy.arange(a, b, (b - a) / num_dos) has num_dos
    points in exact arithmetic. *)
Definition dos_init (p : proc) (sigma : R) (num_dos : nat) : result dos :=
  let ws := concat (map fst (p_modes p)) in
  let! mn := fold_minmax Rmin ws in
  let! mx := fold_minmax Rmax ws in
  let step := ((mx - mn + 4) / INR num_dos)%R in
  let freq := map (fun i => (mn - 2 + INR i * step)%R) (seq 0 num_dos) in
  Ok (mkDos sigma freq (map (fun _ _ => num 0) freq) []).

(** _pdos.sum(axis=0) *)
(** dos.py 69: sum over the components. *)
Fixpoint osum (n : nat) (f : nat -> option R) : option R := match n with 0 => num 0 | S m => oadd (osum m f) (f m) end.
(** dos.py 69, 79, 89, 102. *)
Definition totals (p : proc) (cols : list column) : list (option R) := map (osum (p_n p)) cols.

(** the loop over _freq of a tetrahedron_*d function: columns are updated in place *)
(** linear_tetrahedron_method.py 51-78: the loop over the frequencies. *)
Fixpoint tetra (p : proc) (vol : R) (cells : list (list nat)) (freq : list R) (cols : list column) : result (list column) :=
  match freq, cols with
  | f :: fr, c :: cr =>
      let! c' := add_bands p vol f cells (seq 0 (p_n p)) c in
      let! r := tetra p vol cells fr cr in
      Ok (c' :: r)
  | _, _ => Ok []
  end.

(** dos.py 92-100, gaussian smearing *)
Definition gaussian (sigma f e : R) : R := (1 / (sigma * sqrt (2 * PI)) * exp (- (f - e) ^ 2 / (2 * sigma ^ 2)))%R.
(** dos.py 95-100. *)
Definition smear_mode (p : proc) (sigma f : R) (v : cmat) (c : column) (be : nat * R) : column :=
  fun m => oadd (c m) (num (gaussian sigma f (snd be) / INR (length (p_k p)) * abs2 (v (fst be) m))%R).
(** dos.py 93-100 at one frequency. *)
Definition smear_column (p : proc) (sigma f : R) (c : column) : column :=
  fold_left (fun c wv => fold_left (smear_mode p sigma f (snd wv)) (combine (seq 0 (length (fst wv))) (fst wv)) c) (p_modes p) c.
(** dos.py 96-100: the array operation runs over the frequencies. *)
Fixpoint map2 {A B D} (f : A -> B -> D) (l : list A) (r : list B) : list D :=
  match l, r with a :: l', b :: r' => f a b :: map2 f l' r' | _, _ => [] end.

(** DOS.set, dos.py 50-102 *)
Definition dos_set (p : proc) (d : dos) : result dos :=
  if Req_EM_T (d_sigma d) 0 then
    match ind_pbc (p_pbc p) with
    | [] =>
        let! r := py_nth (p_modes p) 0 in
        Ok (mkDos (d_sigma d) (fst r) (d_pdos d) (map (fun _ => num 1) (fst r)))
    | [a] =>
        let! s := setup1 p a in
        let! cols := tetra p (fst s) (snd s) (d_freq d) (d_pdos d) in
        Ok (mkDos (d_sigma d) (d_freq d) cols (totals p cols))
    | [a; b] =>
        let! s := setup2 p a b in
        let! cols := tetra p (fst s) (snd s) (d_freq d) (d_pdos d) in
        Ok (mkDos (d_sigma d) (d_freq d) cols (totals p cols))
    | [a; b; c] =>
        let! s := setup3 p a b c in
        let! cols := tetra p (fst s) (snd s) (d_freq d) (d_pdos d) in
        Ok (mkDos (d_sigma d) (d_freq d) cols (totals p cols))
    | _ => Ok d
    end
  else
    let cols := map2 (smear_column p (d_sigma d)) (d_freq d) (d_pdos d) in
    Ok (mkDos (d_sigma d) (d_freq d) cols (totals p cols)).

(** The numbers DOS.write puts into total_dos.dat (dos.py 124-126: zip) and projected_dos.dat
    (142-146: _pdos[ind, x_ind] indexed by the position in _freq). *)
Definition total_rows (d : dos) : list (R * option R) := combine (d_freq d) (d_tdos d).
(** dos.py 142-146: the numbers of each line. *)
Definition projected_rows (p : proc) (d : dos) : result (list (R * list (option R))) :=
  mapM (fun x => let! c := py_nth (d_pdos d) (fst x) in Ok (snd x, map c (seq 0 (p_n p))))
       (combine (seq 0 (length (d_freq d))) (d_freq d)).
