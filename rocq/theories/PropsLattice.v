(** Property theorems: lattice point-group candidates and their classes (C40, C41).
    Model: Sym.v. *)
From Coq Require Import String ZArith Bool Lia Lra Psatz Arith Reals List.
From Verif Require Import Base Field Force Sym Order SymFacts.
Import ListNotations.
Local Open Scope list_scope.
Local Open Scope nat_scope.

(** * C40 *)
(** The enumerated matrices are exactly those with entries -1, 0, 1 and determinant +-1, each once. *)
Theorem candidates_exact :
  (forall a b c d : Z, In (M2 a b c d) W_candidate <->
     (-1 <= a <= 1 /\ -1 <= b <= 1 /\ -1 <= c <= 1 /\ -1 <= d <= 1 /\ (a * d - b * c = 1 \/ a * d - b * c = -1))%Z) /\
  NoDup W_candidate /\ length W_candidate = 40.
Proof.
  split; [|split; [|reflexivity]].
  - intros a b c d. split.
    + intros H. unfold W_candidate in H. cbn [In] in H.
      repeat (destruct H as [H|H]; [inversion H; subst; lia|]). contradiction.
    + intros (Ha & Hb & Hc & Hd & H).
      assert (Ea : (a = -1 \/ a = 0 \/ a = 1)%Z) by lia. assert (Eb : (b = -1 \/ b = 0 \/ b = 1)%Z) by lia.
      assert (Ec : (c = -1 \/ c = 0 \/ c = 1)%Z) by lia. assert (Ed : (d = -1 \/ d = 0 \/ d = 1)%Z) by lia.
      clear Ha Hb Hc Hd.
      destruct Ea as [ -> | [ -> | -> ] ], Eb as [ -> | [ -> | -> ] ], Ec as [ -> | [ -> | -> ] ], Ed as [ -> | [ -> | -> ] ]; try lia;
        unfold W_candidate; cbn [In]; tauto.
  - unfold W_candidate. repeat (constructor; [cbn [In]; intros H; repeat (destruct H as [H|H]; [discriminate H|]); contradiction|]). constructor.
Qed.
Print Assumptions candidates_exact.

(** The two periodic lattice vectors, and the specification: an integer matrix W is a
    symmetry of the planar lattice when replacing coefficients (x, y) by W (x, y)
    preserves the length of x a + y b. *)
Definition axis (L : m3 R) (p : nat) : v3 R := match p with 0 => r1 L | 1 => r2 L | _ => r3 L end.
Definition comb (L : m3 R) (p q : nat) (x y : Z) : v3 R := vadd (vscale (IZR x) (axis L p)) (vscale (IZR y) (axis L q)).
Definition len2 (v : v3 R) : R := vdot v v.
Definition lattice_symmetry (L : m3 R) (p q : nat) (W : mat2) : Prop :=
  forall x y : Z, len2 (comb L p q (m11 W * x + m12 W * y) (m21 W * x + m22 W * y)) = len2 (comb L p q x y).
(** The periodic vectors lie in the coordinate plane of the periodic directions. *)
Definition planar (L : m3 R) (p q r : nat) : Prop :=
  In (p, q, r) [(0, 1, 2); (0, 2, 1); (1, 2, 0)] /\ vget (axis L p) r = 0%R /\ vget (axis L q) r = 0%R.
Definition reduced (L : m3 R) (p q : nat) : Prop :=
  let a := axis L p in let b := axis L q in
  (0 < len2 a /\ 0 < len2 b /\ 2 * Rabs (vdot a b) <= len2 a /\ 2 * Rabs (vdot a b) <= len2 b)%R.

Lemma metric_is L p q r : planar L p q r ->
  metric L p q = (len2 (axis L p), vdot (axis L p) (axis L q), len2 (axis L q)).
Proof.
  intros (Hin & Z1 & Z2). unfold metric, len2. cbn [In] in Hin.
  destruct L as [[a1 a2 a3] [b1 b2 b3] [c1 c2 c3]].
  repeat (destruct Hin as [Hin|Hin]; [injection Hin as <- <- <-; cbn in *; rewrite Z1, ?Z2; f_equal; [f_equal|]; ring|]). contradiction.
Qed.
Lemma sym_metric L p q W g11 g12 g22 : g11 = len2 (axis L p) -> g12 = vdot (axis L p) (axis L q) -> g22 = len2 (axis L q) ->
  lattice_symmetry L p q W -> rotate_metric (g11, g12, g22) W = (g11, g12, g22).
Proof.
  intros -> -> -> H. pose proof (H 1%Z 0%Z) as H1. pose proof (H 0%Z 1%Z) as H2. pose proof (H 1%Z 1%Z) as H3.
  unfold comb, len2 in *. cbn [rotate_metric]. rewrite !plus_IZR, !mult_IZR in *.
  change (@fofZ R Fld_R) with IZR.
  generalize dependent (axis L p). generalize dependent (axis L q). intros [b1 b2 b3] [a1 a2 a3].
  destruct W as [w1 w2 w3 w4]. cbn [m11 m12 m21 m22]. cbn. generalize (IZR w1) (IZR w2) (IZR w3) (IZR w4). clear. intros k1 k2 k3 k4 H1 H2 H3.
  f_equal; [f_equal|]; nra.
Qed.

Lemma IZR_sq_bound x : (IZR x * IZR x <= 1)%R -> (-1 <= x <= 1)%Z.
Proof. intros H. rewrite <- mult_IZR in H. apply le_IZR in H. nia. Qed.
Lemma IZR_abs_sq x : (IZR x * IZR x >= Rabs (IZR x))%R.
Proof. rewrite <- abs_IZR, <- mult_IZR. apply Rle_ge, IZR_le. nia. Qed.

Lemma reduced_entries g11 g12 g22 W :
  (0 < g11 -> 0 < g22 -> 2 * Rabs g12 <= g11 -> 2 * Rabs g12 <= g22 ->
   rotate_metric (g11, g12, g22) W = (g11, g12, g22) -> In W W_candidate)%R.
Proof.
  intros P1 P2 B1 B2 H. destruct W as [a b c d]. apply candidates_exact. cbn [rotate_metric m11 m12 m21 m22] in H. change (@fofZ R Fld_R) with IZR in H. cbn in H.
  injection H as H1 H2 H3.
  assert (AB : (- g11 <= 2 * g12 <= g11 /\ - g22 <= 2 * g12 <= g22)%R) by (revert B1 B2; unfold Rabs; destruct (Rcase_abs g12); lra).
  clear B1 B2. destruct AB as ((B1 & B2) & B3 & B4).
  (* determinant *)
  assert (DG : (0 < g11 * g22 - g12 * g12)%R) by nra.
  assert (DD : ((IZR a * IZR d - IZR b * IZR c) * (IZR a * IZR d - IZR b * IZR c) = 1)%R).
  { apply Rmult_eq_reg_r with (g11 * g22 - g12 * g12)%R; [|lra]. rewrite Rmult_1_l.
    match type of H1 with ?h11 = _ => match type of H2 with ?h12 = _ => match type of H3 with ?h22 = _ => transitivity (h11 * h22 - h12 * h12)%R; [ring|] end end end.
    rewrite H1, H2, H3. reflexivity. }
  assert (DZ : (a * d - b * c = 1 \/ a * d - b * c = -1)%Z).
  { rewrite <- !mult_IZR, <- minus_IZR, <- mult_IZR in DD. apply eq_IZR in DD. nia. }
  (* a vector of squared length <= max(g11, g22) has small coordinates *)
  assert (Q : forall x y : Z, (IZR x * IZR x * g11 + (IZR x * IZR y + IZR y * IZR x) * g12 + IZR y * IZR y * g22 <= g11 \/
                               IZR x * IZR x * g11 + (IZR x * IZR y + IZR y * IZR x) * g12 + IZR y * IZR y * g22 <= g22)%R ->
              ((-1 <= x <= 1 /\ -1 <= y <= 1) \/ x = 0 \/ y = 0)%Z).
  { intros x y HQ. destruct (Z.eq_dec x 0) as [|Nx]; [tauto|]. destruct (Z.eq_dec y 0) as [|Ny]; [tauto|]. left.
    assert (X1 : (1 <= Rabs (IZR x))%R) by (rewrite <- abs_IZR; apply IZR_le; lia).
    assert (Y1 : (1 <= Rabs (IZR y))%R) by (rewrite <- abs_IZR; apply IZR_le; lia).
    assert (SX : (IZR x * IZR x = Rabs (IZR x) * Rabs (IZR x))%R) by (unfold Rabs; destruct (Rcase_abs _); ring).
    assert (SY : (IZR y * IZR y = Rabs (IZR y) * Rabs (IZR y))%R) by (unfold Rabs; destruct (Rcase_abs _); ring).
    assert (XY : (- (Rabs (IZR x) * Rabs (IZR y)) <= IZR x * IZR y <= Rabs (IZR x) * Rabs (IZR y))%R) by (unfold Rabs; destruct (Rcase_abs (IZR x)), (Rcase_abs (IZR y)); nra).
    assert (RX : (Rabs (IZR x) <= 1 \/ 2 <= Rabs (IZR x))%R) by (rewrite <- abs_IZR; destruct (Z_le_gt_dec (Z.abs x) 1); [left|right]; apply IZR_le; lia).
    assert (RY : (Rabs (IZR y) <= 1 \/ 2 <= Rabs (IZR y))%R) by (rewrite <- abs_IZR; destruct (Z_le_gt_dec (Z.abs y) 1); [left|right]; apply IZR_le; lia).
    set (X := Rabs (IZR x)) in *. set (Y := Rabs (IZR y)) in *. set (xy := (IZR x * IZR y)%R) in *.
    replace (IZR y * IZR x)%R with xy in HQ by (unfold xy; ring). rewrite SX, SY in HQ.
    assert (M : (2 * xy * g12 >= - (X * Y * g11) /\ 2 * xy * g12 >= - (X * Y * g22))%R).
    { assert (- (X * Y) <= xy <= X * Y)%R by exact XY. assert (0 <= X * Y)%R by nra. split; nra. }
    destruct M as (M1 & M2).
    clearbody X Y xy. clear XY.
    assert (F1 : (X * X * g11 - X * Y * g11 + Y * Y * g22 <= g11 \/ X * X * g11 - X * Y * g11 + Y * Y * g22 <= g22)%R) by (destruct HQ; [left|right]; lra).
    assert (F2 : (X * X * g11 - X * Y * g22 + Y * Y * g22 <= g11 \/ X * X * g11 - X * Y * g22 + Y * Y * g22 <= g22)%R) by (destruct HQ; [left|right]; lra).
    clear HQ M1 M2 B1 B2 B3 B4 DG H1 H2 H3 DD.
    assert (CUT : (X <= 1 /\ Y <= 1)%R).
    { clear SX SY. destruct RX as [RX|RX], RY as [RY|RY].
      - split; assumption.
      - exfalso. assert (X = 1)%R by lra. subst X. assert (Y * Y >= 2 * Y)%R by nra. destruct F2; nra.
      - exfalso. assert (Y = 1)%R by lra. subst Y. assert (X * X >= 2 * X)%R by nra. destruct F1; nra.
      - exfalso. destruct (Rle_dec g11 g22) as [G|G].
        + assert (T : (X * X - X * Y + Y * Y / 4 >= 0)%R) by (pose proof (Rle_0_sqr (X - Y / 2)) as S; unfold Rsqr in S; lra). assert (Y4 : (Y * Y >= 4)%R) by nra. assert (T2 : ((X * X - X * Y + Y * Y / 4) * g11 >= 0)%R) by nra. assert (T3 : (Y * Y / 4 * (g22 - g11) >= 0)%R) by nra. assert (T4 : ((Y * Y - 4) * g22 >= 0)%R) by nra. destruct F1; nra.
        + assert (T : (Y * Y - X * Y + X * X / 4 >= 0)%R) by (pose proof (Rle_0_sqr (Y - X / 2)) as S; unfold Rsqr in S; lra). assert (Y4 : (X * X >= 4)%R) by nra. assert (T2 : ((Y * Y - X * Y + X * X / 4) * g22 >= 0)%R) by nra. assert (T3 : (X * X / 4 * (g11 - g22) >= 0)%R) by nra. assert (T4 : ((X * X - 4) * g11 >= 0)%R) by nra. destruct F2; nra. }
    destruct CUT as (E1 & E2).
    clear F1 F2. split; apply IZR_sq_bound; [rewrite SX|rewrite SY]; nra. }
  assert (U : forall x y : Z, (x * y = 1 \/ x * y = -1 -> -1 <= x <= 1 /\ -1 <= y <= 1)%Z).
  { intros x y [E|E]; [apply Z.mul_eq_1 in E as E'|assert (E2 : (x * (- y) = 1)%Z) by lia; apply Z.mul_eq_1 in E2 as E']; destruct E'; subst x; lia. }
  assert (Qa := Q a c (or_introl (Req_le _ _ H1))). assert (Qb := Q b d (or_intror (Req_le _ _ H3))). clear - Qa Qb DZ U.
  destruct Qa as [(A1 & A2)|[A0|C0]]; destruct Qb as [(B1 & B2)|[B0|D0]]; subst.
  - lia.
  - destruct (U a d) as (U1 & U2); lia.
  - destruct (U b c) as (U1 & U2); lia.
  - destruct (U b c) as (U1 & U2); lia.
  - lia.
  - destruct (U b c) as (U1 & U2); lia.
  - destruct (U a d) as (U1 & U2); lia.
  - destruct (U a d) as (U1 & U2); lia.
  - lia.
Qed.

Lemma isclose_same (t x : R) : (0 <= t)%R -> isclose t x x = true.
Proof.
  intros Ht. unfold isclose. change (@fleb R _ Num_R) with (fun x y : R => if Rle_dec x y then true else false). cbv beta.
  destruct (Rle_dec _ _) as [|H]; [reflexivity|exfalso]. apply H. unfold fabs. 
  change (@fleb R _ Num_R) with (fun x y : R => if Rle_dec x y then true else false). cbv beta. change (@fofZ R Fld_R) with IZR. cbn -[Z.pow].
  replace (x - x)%R with 0%R by ring. destruct (Rle_dec 0 0) as [_|]; [|lra].
  assert (0 < 1 / IZR (10 ^ 5))%R by (apply Rdiv_lt_0_compat; [lra|apply IZR_lt; reflexivity]).
  destruct (Rle_dec 0 x) as [Hx|Hx]; nra.
Qed.
Lemma dec6_pos : (0 <= dec6 1)%R.
Proof. unfold dec6. change (@fofZ R Fld_R) with IZR. cbn -[Z.pow]. apply Rlt_le, Rdiv_lt_0_compat; [lra|apply IZR_lt; reflexivity]. Qed.

(** On a reduced cell no lattice symmetry is missed. *)
Theorem reduced_cell_symmetries_found : forall L p q r W,
  planar L p q r -> reduced L p q -> lattice_symmetry L p q W -> In W (lattice_ops L p q).
Proof.
  intros L p q r W HP (R1 & R2 & R3 & R4) HS. apply in_lattice_ops. rewrite (metric_is L p q r HP).
  pose proof (sym_metric L p q W _ _ _ eq_refl eq_refl eq_refl HS) as E. split.
  - exact (reduced_entries _ _ _ W R1 R2 R3 R4 E).
  - unfold metric_ok. rewrite E. rewrite !isclose_same by apply dec6_pos. reflexivity.
Qed.
Print Assumptions reduced_cell_symmetries_found.

Lemma len2_comb L p q x y : len2 (comb L p q x y) =
  (IZR x * IZR x * vdot (axis L p) (axis L p) + 2 * (IZR x * IZR y) * vdot (axis L p) (axis L q) + IZR y * IZR y * vdot (axis L q) (axis L q))%R.
Proof. unfold comb, len2. generalize (axis L p) (axis L q) (IZR x) (IZR y). intros [a1 a2 a3] [b1 b2 b3] s t. unfold vdot, vadd, vscale. cbn. ring. Qed.
Lemma vdot_R a1 a2 a3 b1 b2 b3 : vdot (V3 a1 a2 a3) (V3 b1 b2 b3) = (a1 * b1 + a2 * b2 + a3 * b3)%R.
Proof. reflexivity. Qed.
(** On a skewed cell (the square lattice spanned by (1,0) and (5,1)) one is. *)
Theorem skewed_cell_symmetry_missed : exists (L : m3 R) (W : mat2),
  planar L 0 1 2 /\ lattice_symmetry L 0 1 W /\ ~ In W (lattice_ops L 0 1).
Proof.
  exists (M3 (V3 1 0 0) (V3 5 1 0) (V3 0 0 1))%R, (M2 (-5) (-26) 1 5)%Z. split; [|split].
  - split; [left; reflexivity|]. cbn. split; reflexivity.
  - intros x y. rewrite !len2_comb. cbn [m11 m12 m21 m22 axis r1 r2]. rewrite !vdot_R, !plus_IZR, !mult_IZR. ring.
  - intros H. apply in_lattice_ops in H. destruct H as (H & _). apply candidates_exact in H. lia.
Qed.
Print Assumptions skewed_cell_symmetry_missed.

(** * C41 *)
(** k-fold product of W with itself. *)
Fixpoint pow2 (W : mat2) (k : nat) : mat2 := match k with 0 => id2 | S k' => mul2 (pow2 W k') W end.
(** W has a rotation/reflection class, finite order n, and the order loop ends with the list of
    its n different powers. *)
Definition crystallographic (W : mat2) : Prop :=
  (exists c, op_class W = Some c) /\
  exists n, In n [1; 2; 3; 4; 6] /\ pow2 W n = id2 /\ NoDup (map (pow2 W) (seq 0 n)) /\
    forall fuel, 5 <= fuel -> powers fuel W = Some (map (pow2 W) (seq 0 n)).

Ltac nodup_tac := repeat (constructor; [cbn; intros HH; repeat (destruct HH as [HH|HH]; [discriminate HH|]); contradiction|]); constructor.
Ltac crystal n c := split; [exists c; reflexivity|]; exists n; split; [cbn; tauto|]; split; [reflexivity|]; split; [vm_compute; nodup_tac|];
  let f := fresh "f" in intros f Hf; do 5 (destruct f as [|f]; [lia|]); destruct f; reflexivity.
Ltac crystal_any := first [crystal 1 1 | crystal 2 2 | crystal 3 3 | crystal 4 4 | crystal 6 5 | crystal 2 0].

Lemma dec6_val : dec6 1 = (IZR 1 / IZR 1000000)%R.
Proof. unfold dec6. change (10 ^ 6)%Z with 1000000%Z. cbn [fofZ fdiv Fld_R]. reflexivity. Qed.
Lemma fabs_R (x : R) : fabs x = Rabs x.
Proof.
  unfold fabs. change (@fleb R _ Num_R) with (fun x y : R => if Rle_dec x y then true else false). cbv beta. cbn. destruct (Rle_dec 0 x); unfold Rabs; destruct (Rcase_abs x); lra.
Qed.
Lemma isclose_R (a b : R) : isclose (dec6 1) a b = true <-> (Rabs (a - b) <= IZR 1 / IZR 1000000 + IZR 1 / IZR 100000 * Rabs b)%R.
Proof.
  unfold isclose. rewrite !fabs_R, dec6_val. change (10 ^ 5)%Z with 100000%Z. cbn [fofZ fdiv fadd fmul fsub Fld_R].
  change (@fleb R _ Num_R) with (fun x y : R => if Rle_dec x y then true else false). cbv beta.
  destruct (Rle_dec _ _) as [H|H]; split; intros H'; try assumption; try reflexivity; [discriminate|contradiction].
Qed.
(** The quadratic form of W at coefficient vectors. *)
Definition form (g11 g12 g22 : R) (x1 y1 x2 y2 : Z) : R := (IZR x1 * IZR x2 * g11 + (IZR x1 * IZR y2 + IZR y1 * IZR x2) * g12 + IZR y1 * IZR y2 * g22)%R.
Lemma rotate_form (g11 g12 g22 : R) a b c d : rotate_metric (g11, g12, g22) (M2 a b c d) =
  (form g11 g12 g22 a c a c, form g11 g12 g22 a c b d, form g11 g12 g22 b d b d).
Proof. reflexivity. Qed.
Lemma metric_ok_R (g11 g12 g22 : R) a b c d : metric_ok (g11, g12, g22) (M2 a b c d) = true <->
  (Rabs (g11 - form g11 g12 g22 a c a c) <= IZR 1 / IZR 1000000 + IZR 1 / IZR 100000 * Rabs (form g11 g12 g22 a c a c) /\
   Rabs (g12 - form g11 g12 g22 a c b d) <= IZR 1 / IZR 1000000 + IZR 1 / IZR 100000 * Rabs (form g11 g12 g22 a c b d) /\
   Rabs (g22 - form g11 g12 g22 b d b d) <= IZR 1 / IZR 1000000 + IZR 1 / IZR 100000 * Rabs (form g11 g12 g22 b d b d))%R.
Proof. unfold metric_ok. rewrite rotate_form. rewrite !andb_true_iff, !isclose_R. tauto. Qed.

(** Every operation accepted by the tolerance test on a reduced cell with vectors of at
    least 1 Angstrom is crystallographic. *)
Theorem accepted_operations_crystallographic : forall L p q r W,
  planar L p q r -> reduced L p q -> (1 <= len2 (axis L p))%R -> (1 <= len2 (axis L q))%R ->
  In W (lattice_ops L p q) -> crystallographic W.
Proof.
  intros L p q r W HP (R1 & R2 & R3 & R4) P1 P2 HIn. apply in_lattice_ops in HIn as (HW & HM). rewrite (metric_is L p q r HP) in HM.
  set (g11 := len2 (axis L p)) in *. set (g22 := len2 (axis L q)) in *. set (g12 := vdot (axis L p) (axis L q)) in *. clearbody g11 g12 g22.
  assert (AB : (- g11 <= 2 * g12 <= g11 /\ - g22 <= 2 * g12 <= g22)%R) by (revert R3 R4; unfold Rabs; destruct (Rcase_abs g12); lra). clear R1 R2 R3 R4 HP L p q r.
  unfold W_candidate in HW. cbn [In] in HW.
  repeat (destruct HW as [HW|HW]; [subst W; first [solve [crystal_any] | exfalso; apply metric_ok_R in HM;
    destruct HM as (H1 & H2 & H3); unfold form in H1, H2, H3; revert H1 H2 H3; unfold Rabs; repeat destruct (Rcase_abs _); intros; lra]|]).
  contradiction.
Qed.
Print Assumptions accepted_operations_crystallographic.

(** The same without any restriction on the cell for operations that preserve the lattice exactly. *)
Theorem exact_symmetries_crystallographic : forall L p q r W,
  planar L p q r -> (0 < len2 (vcross (axis L p) (axis L q)))%R -> lattice_symmetry L p q W -> In W W_candidate -> crystallographic W.
Proof.
  intros L p q r W HP HD HS HW. pose proof (sym_metric L p q W _ _ _ eq_refl eq_refl eq_refl HS) as E. clear HS HP.
  assert (D : (0 < len2 (axis L p) * len2 (axis L q) - vdot (axis L p) (axis L q) * vdot (axis L p) (axis L q))%R).
  { replace (_ - _)%R with (len2 (vcross (axis L p) (axis L q))); [exact HD|]. generalize (axis L p) (axis L q). intros [a1 a2 a3] [b1 b2 b3]. unfold len2, vdot, vcross. cbn. ring. }
  assert (P1 : (0 <= len2 (axis L p))%R) by (generalize (axis L p); intros [a1 a2 a3]; unfold len2, vdot; cbn; nra).
  assert (P2 : (0 <= len2 (axis L q))%R) by (generalize (axis L q); intros [a1 a2 a3]; unfold len2, vdot; cbn; nra).
  set (g11 := len2 (axis L p)) in *. set (g22 := len2 (axis L q)) in *. set (g12 := vdot (axis L p) (axis L q)) in *. clearbody g11 g12 g22. clear HD L p q r.
  assert (P3 : (0 < g11)%R) by nra. assert (P4 : (0 < g22)%R) by nra.
  unfold W_candidate in HW. cbn [In] in HW.
  repeat (destruct HW as [HW|HW]; [subst W; first [solve [crystal_any] | exfalso; rewrite rotate_form in E; unfold form in E; injection E as H1 H2 H3; nra]|]).
  contradiction.
Qed.
Print Assumptions exact_symmetries_crystallographic.

(** On a cell of 1e-4 Angstrom every candidate passes the absolute tolerance, so the
    search meets an operation without a class. *)
Theorem tiny_cell_unclassified : exists (L : m3 R) (W : mat2),
  planar L 0 1 2 /\ reduced L 0 1 /\ In W (lattice_ops L 0 1) /\ op_class W = None.
Proof.
  exists (M3 (V3 (/10000) 0 0) (V3 0 (/10000) 0) (V3 0 0 1))%R, (M2 0 1 1 1)%Z. split; [|split; [|split; [|reflexivity]]].
  - split; [left; reflexivity|]. cbn. split; reflexivity.
  - unfold reduced, len2. cbn. replace (/ 10000 * 0 + 0 * / 10000 + 0 * 0)%R with 0%R by ring. rewrite Rabs_R0. lra.
  - apply in_lattice_ops. split; [unfold W_candidate; cbn; tauto|]. unfold metric_ok, metric, mget, vget. cbn [r1 r2 r3 vx vy vz]. 
    apply metric_ok_R. unfold form. change (@fmul R Fld_R) with Rmult. change (@fadd R Fld_R) with Rplus. unfold Rabs. repeat destruct (Rcase_abs _); lra.
Qed.
Print Assumptions tiny_cell_unclassified.

(** The order loop never ends for a candidate that is not crystallographic. *)
Lemma powers_parabolic_grow k : pow2 (M2 1 1 0 1) k = M2 1 (Z.of_nat k) 0 1.
Proof. induction k as [|k IH]; [reflexivity|]. cbn [pow2]. rewrite IH. unfold mul2. cbn [m11 m12 m21 m22]. f_equal; lia. Qed.
Theorem order_loop_diverges : forall fuel, powers fuel (M2 1 1 0 1)%Z = None.
Proof.
  assert (G : forall fuel z, (0 < z)%Z -> powers_from fuel (M2 1 1 0 1)%Z (M2 1 z 0 1)%Z = None).
  { induction fuel as [|f IH]; intros z Hz; cbn [powers_from]; unfold mat2_eqb; cbn [m11 m12 m21 m22 id2];
      (replace (z =? 0)%Z with false by (symmetry; apply Z.eqb_neq; lia)); cbn [andb]; rewrite ?andb_false_r; cbn [andb Z.eqb Pos.eqb]; [reflexivity|].
    unfold mul2. cbn [m11 m12 m21 m22]. 
    replace (1 * 1 + z * 0)%Z with 1%Z by lia. replace (0 * 1 + 1 * 0)%Z with 0%Z by lia. replace (0 * 1 + 1 * 1)%Z with 1%Z by lia. rewrite IH by lia. reflexivity. }
  intros fuel. unfold powers. rewrite G by lia. reflexivity.
Qed.
Print Assumptions order_loop_diverges.

(** * Witness *)
Example hexagonal_witness : let L := (M3 (V3 2 0 0) (V3 (-1) (sqrt 3) 0) (V3 0 0 15))%R in
  planar L 0 1 2 /\ reduced L 0 1 /\ (1 <= len2 (axis L 0))%R /\ (1 <= len2 (axis L 1))%R /\ (0 < len2 (vcross (axis L 0) (axis L 1)))%R /\
  lattice_symmetry L 0 1 (M2 1 (-1) 1 0)%Z.
Proof.
  cbn zeta. assert (S : (sqrt 3 * sqrt 3 = 3)%R) by (apply sqrt_def; lra). unfold planar, reduced, len2. cbn.
  split; [split; [tauto|split; reflexivity]|]. split; [|split; [lra|split; [lra|split; [nra|]]]].
  - replace (2 * -1 + 0 * sqrt 3 + 0 * 0)%R with (-2)%R by ring. rewrite Rabs_left by lra. nra.
  - intros x y. rewrite !len2_comb. cbn [m11 m12 m21 m22 axis r1 r2]. rewrite !vdot_R, !plus_IZR, !mult_IZR. generalize dependent (sqrt 3). intros k S. ring [S].
Qed.
