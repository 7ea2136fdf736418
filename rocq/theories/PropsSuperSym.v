(** Property theorems: where the operations send the atoms of the supercell (C61).  Model: Sym.v. *)
From Coq Require Import String ZArith QArith Qcanon Bool Lia Lqa Psatz Arith Permutation setoid_ring.Field List.
From Verif Require Import Base Field Args Cell Super SuperFacts PropsCell Force ForceFacts Sym Order SymFacts PropsLattice PropsForce PropsSym.
Import ListNotations.
Local Open Scope list_scope.
Local Open Scope nat_scope.

Section SuperSym.
  Context {A : Type} {F : Fld A} {N : Num A F} {NL : NumLaws A F N}.
  Add Field fld_ssym : f_theory.

  (** * Specification *)
  (** direct position, in the supercell, of the copy (x, y, z) of the atom at direct position u of the unit cell *)
  Definition copy_direct (N1 N2 N3 : nat) (u : v3 A) (x y z : nat) : v3 A :=
    V3 (fdiv (fadd (vx u) (fofZ (Z.of_nat x))) (fofZ (Z.of_nat N1)))
       (fdiv (fadd (vy u) (fofZ (Z.of_nat y))) (fofZ (Z.of_nat N2)))
       (fdiv (fadd (vz u) (fofZ (Z.of_nat z))) (fofZ (Z.of_nat N3))).
  (** the copies of each atom are adjacent, z fastest *)
  Definition enlarged (N1 N2 N3 : nat) (sel ssel : list (atom A)) : Prop :=
    length ssel = length sel * (N1 * N2 * N3) /\
    forall i t u x y z, nth_error sel i = Some (t, u) -> x < N1 -> y < N2 -> z < N3 ->
      nth_error ssel ((N1 * N2 * N3) * i + ((x * N2 + y) * N3 + z)) = Some (t, copy_direct N1 N2 N3 u x y z).
  Definition super_lattice (N1 N2 N3 : nat) (L : m3 A) : m3 A :=
    M3 (vscale (fofZ (Z.of_nat N1)) (r1 L)) (vscale (fofZ (Z.of_nat N2)) (r2 L)) (vscale (fofZ (Z.of_nat N3)) (r3 L)).
  (** any two atoms of one type of the whole crystal are more than sqrt(12) * 1e-4 apart *)
  Definition crystal_apart (L : m3 A) (sel : list (atom A)) : Prop :=
    forall i j t x y n1 n2 n3, i <> j \/ (n1, n2, n3) <> (0, 0, 0)%Z -> nth_error sel i = Some (t, x) -> nth_error sel j = Some (t, y) ->
      ~ le (vdot (gap L x y (ivec n1 n2 n3)) (gap L x y (ivec n1 n2 n3))) (fdiv (fofZ 12) (fofZ (10 ^ 8))).
  (** (W, w) carries every selected atom exactly onto the atom given by the map, up to a lattice translation *)
  Definition exact_operation (p q : nat) (W : mat2) (w : v3 A) (same : list nat) (sel : list (atom A)) : Prop :=
    length same = length sel /\
    forall i t u, nth_error sel i = Some (t, u) -> exists j u' n1 n2 n3, nth_error same i = Some j /\ nth_error sel j = Some (t, u') /\
      image p q W w u = vadd u' (ivec n1 n2 n3).
  Definition enl_of (N1 N2 N3 k : nat) : nat := match k with 0 => N1 | 1 => N2 | _ => N3 end.

  (** * Lemmas *)
  Lemma crystal_far L sel : crystal_apart L sel -> far_apart L sel.
  Proof. intros H i j t x y n1 n2 n3 Hne. apply H. now left. Qed.
  Lemma natZ_ne n : 0 < n -> (fofZ (Z.of_nat n) : A) <> f0.
  Proof. intros H. apply ForceFacts.fofZ_ne. lia. Qed.
  Lemma copy_bound N1 N2 N3 x y z : x < N1 -> y < N2 -> z < N3 -> (x * N2 + y) * N3 + z < N1 * N2 * N3.
  Proof. intros H1 H2 H3. assert (x * N2 + y < N1 * N2) by nia. nia. Qed.
  Lemma copy_index' N1 N2 N3 k : k < N1 * N2 * N3 -> exists x y z, x < N1 /\ y < N2 /\ z < N3 /\ k = (x * N2 + y) * N3 + z.
  Proof.
    intros H. assert (0 < N3) by (destruct N3; [rewrite Nat.mul_0_r in H; lia|lia]). assert (0 < N2) by (destruct N2; [rewrite Nat.mul_0_r in H; cbn in H; lia|lia]).
    exists (k / N3 / N2), ((k / N3) mod N2), (k mod N3).
    pose proof (Nat.div_mod k N3 ltac:(lia)) as D1. pose proof (Nat.div_mod (k / N3) N2 ltac:(lia)) as D2.
    pose proof (Nat.mod_upper_bound k N3 ltac:(lia)). pose proof (Nat.mod_upper_bound (k / N3) N2 ltac:(lia)).
    split; [|split; [assumption|split; [assumption|]]].
    - apply Nat.div_lt_upper_bound; [lia|]. apply Nat.div_lt_upper_bound; [lia|]. replace (N3 * (N2 * N1)) with (N1 * N2 * N3) by ring. exact H.
    - rewrite (Nat.mul_comm (k / N3 / N2) N2), <- D2, (Nat.mul_comm (k / N3) N3). exact D1.
  Qed.
  (** positions in the supercell back in unit-cell coordinates *)
  Definition unfold_ (N1 N2 N3 : nat) (v : v3 A) : v3 A :=
    V3 (fmul (fofZ (Z.of_nat N1)) (vx v)) (fmul (fofZ (Z.of_nat N2)) (vy v)) (fmul (fofZ (Z.of_nat N3)) (vz v)).
  Lemma unfold_copy N1 N2 N3 u x y z : 0 < N1 -> 0 < N2 -> 0 < N3 ->
    unfold_ N1 N2 N3 (copy_direct N1 N2 N3 u x y z) = vadd u (ivec (Z.of_nat x) (Z.of_nat y) (Z.of_nat z)).
  Proof.
    intros H1 H2 H3. apply natZ_ne in H1, H2, H3. unfold unfold_, copy_direct, ivec, vadd. cbn [vx vy vz]. f_equal; field; assumption.
  Qed.
  Lemma unfold_inj N1 N2 N3 u v : 0 < N1 -> 0 < N2 -> 0 < N3 -> unfold_ N1 N2 N3 u = unfold_ N1 N2 N3 v -> u = v.
  Proof.
    intros H1 H2 H3 E. apply natZ_ne in H1, H2, H3. destruct u as [u1 u2 u3], v as [w1 w2 w3]. unfold unfold_ in E. cbn [vx vy vz] in E. injection E as E1 E2 E3.
    assert (K : forall a x y : A, a <> f0 -> fmul a x = fmul a y -> x = y).
    { intros a x y Ha H. replace x with (fmul (finv a) (fmul a x)) by (field; exact Ha). rewrite H. field. exact Ha. }
    f_equal; [exact (K _ _ _ H1 E1)|exact (K _ _ _ H2 E2)|exact (K _ _ _ H3 E3)].
  Qed.
  Lemma unfold_add N1 N2 N3 u v : unfold_ N1 N2 N3 (vadd u v) = vadd (unfold_ N1 N2 N3 u) (unfold_ N1 N2 N3 v).
  Proof. unfold unfold_, vadd. cbn [vx vy vz]. f_equal; ring. Qed.
  Lemma unfold_sub N1 N2 N3 u v : unfold_ N1 N2 N3 (vsub u v) = vsub (unfold_ N1 N2 N3 u) (unfold_ N1 N2 N3 v).
  Proof. unfold unfold_, vsub. cbn [vx vy vz]. f_equal; ring. Qed.
  Lemma unfold_ivec N1 N2 N3 n1 n2 n3 : unfold_ N1 N2 N3 (ivec n1 n2 n3) = ivec (Z.of_nat N1 * n1) (Z.of_nat N2 * n2) (Z.of_nat N3 * n3).
  Proof. unfold unfold_, ivec. cbn [vx vy vz]. now rewrite !fofZ_mul. Qed.
  (** W commutes with the enlargement when the plane is enlarged equally *)
  Lemma unfold_rot N1 N2 N3 p q r W v : In (p, q, r) [(0, 1, 2); (0, 2, 1); (1, 2, 0)] -> enl_of N1 N2 N3 p = enl_of N1 N2 N3 q ->
    unfold_ N1 N2 N3 (mvmul (embed p q W) v) = mvmul (embed p q W) (unfold_ N1 N2 N3 v).
  Proof.
    intros HP HE. cbn [In] in HP. destruct v as [v1 v2 v3'], W as [a b c d].
    destruct HP as [E|[E|[E|[]]]]; injection E as <- <- <-; cbn [enl_of] in HE; subst; unfold unfold_, embed, mvmul, vdot;
      cbn [Nat.eqb andb r1 r2 r3 vx vy vz m11 m12 m21 m22]; f_equal; ring.
  Qed.
  Lemma vmul_super N1 N2 N3 L v : vmul v (super_lattice N1 N2 N3 L) = vmul (unfold_ N1 N2 N3 v) L.
  Proof.
    destruct v as [v1 v2 v3'], L as [[a1 a2 a3] [b1 b2 b3] [c1 c2 c3]]. unfold super_lattice, unfold_, vmul, vadd, vscale. cbn [vx vy vz r1 r2 r3]. f_equal; ring.
  Qed.
  Lemma rot_ivec p q r W n1 n2 n3 : In (p, q, r) [(0, 1, 2); (0, 2, 1); (1, 2, 0)] -> exists m1 m2 m3, mvmul (embed p q W) (ivec n1 n2 n3) = (ivec m1 m2 m3 : v3 A).
  Proof.
    intros HP. cbn [In] in HP. destruct W as [a b c d].
    assert (K : forall x y z w : Z, fadd (fmul (fofZ x) (fofZ y)) (fmul (fofZ z) (fofZ w)) = (fofZ (x * y + z * w) : A)) by (intros; now rewrite fofZ_add, !fofZ_mul).
    destruct HP as [E|[E|[E|[]]]]; injection E as <- <- <-; unfold embed, mvmul, vdot, ivec; cbn [Nat.eqb andb r1 r2 r3 vx vy vz m11 m12 m21 m22].
    - exists (a * n1 + b * n2)%Z, (c * n1 + d * n2)%Z, n3. f_equal; rewrite <- ?K; ring.
    - exists (a * n1 + b * n3)%Z, n2, (c * n1 + d * n3)%Z. f_equal; rewrite <- ?K; ring.
    - exists n1, (a * n2 + b * n3)%Z, (c * n2 + d * n3)%Z. f_equal; rewrite <- ?K; ring.
  Qed.
  Lemma rot_preimage p q r W k1 k2 k3 : In (p, q, r) [(0, 1, 2); (0, 2, 1); (1, 2, 0)] -> (det2 W = 1 \/ det2 W = -1)%Z ->
    forall v : v3 A, mvmul (embed p q W) v = ivec k1 k2 k3 -> exists l1 l2 l3, v = ivec l1 l2 l3.
  Proof.
    intros HP HD v HV. cbn [In] in HP. destruct W as [a b c d]. unfold det2 in HD. cbn [m11 m12 m21 m22] in HD. destruct v as [v1 v2 v3'].
    assert (S : forall s t x y : A, fadd (fmul (fofZ a) x) (fmul (fofZ b) y) = s -> fadd (fmul (fofZ c) x) (fmul (fofZ d) y) = t ->
      fmul (fofZ (a * d - b * c)) x = fsub (fmul (fofZ d) s) (fmul (fofZ b) t) /\ fmul (fofZ (a * d - b * c)) y = fsub (fmul (fofZ a) t) (fmul (fofZ c) s)).
    { intros s t x y <- <-. rewrite fofZ_sub, !fofZ_mul. split; ring. }
    assert (T : forall k l x y, fadd (fmul (fofZ a) x) (fmul (fofZ b) y) = (fofZ k : A) -> fadd (fmul (fofZ c) x) (fmul (fofZ d) y) = (fofZ l : A) -> exists n m, x = fofZ n /\ y = fofZ m).
    { intros k l x y E1 E2. destruct (S _ _ _ _ E1 E2) as (S1 & S2). destruct HD as [HD|HD]; rewrite HD in S1, S2.
      - exists (d * k - b * l)%Z, (a * l - c * k)%Z. rewrite !fofZ_sub, !fofZ_mul, <- S1, <- S2, fofZ_1. split; ring.
      - exists (b * l - d * k)%Z, (c * k - a * l)%Z. rewrite !fofZ_sub, !fofZ_mul.
        assert (M1 : (fofZ (-1) : A) = fopp f1) by (change (-1)%Z with (0 - 1)%Z; rewrite fofZ_sub, fofZ_0, fofZ_1; ring). rewrite M1 in S1, S2.
        split; [replace x with (fopp (fmul (fopp f1) x)) by ring; rewrite S1; ring|replace y with (fopp (fmul (fopp f1) y)) by ring; rewrite S2; ring]. }
    clear S HD. destruct HP as [E|[E|[E|[]]]]; injection E as <- <- <-; unfold embed, mvmul, vdot, ivec in HV; cbn [Nat.eqb andb r1 r2 r3 vx vy vz m11 m12 m21 m22] in HV; injection HV as V1 V2 V3'.
    - destruct (T k1 k2 v1 v2) as (n & m & -> & ->); [rewrite <- V1; ring|rewrite <- V2; ring|]. exists n, m, k3. unfold ivec. f_equal. rewrite <- V3'. ring.
    - destruct (T k1 k3 v1 v3') as (n & m & -> & ->); [rewrite <- V1; ring|rewrite <- V3'; ring|]. exists n, k2, m. unfold ivec. f_equal. rewrite <- V2. ring.
    - destruct (T k2 k3 v2 v3') as (n & m & -> & ->); [rewrite <- V2; ring|rewrite <- V3'; ring|]. exists k1, n, m. unfold ivec. f_equal. rewrite <- V1. ring.
  Qed.
  Lemma ivec_add a b c a' b' c' : vadd (ivec a b c) (ivec a' b' c') = (ivec (a + a') (b + b') (c + c') : v3 A).
  Proof. unfold ivec, vadd. cbn [vx vy vz]. now rewrite !fofZ_add. Qed.
  Lemma ivec_sub a b c a' b' c' : vsub (ivec a b c) (ivec a' b' c') = (ivec (a - a') (b - b') (c - c') : v3 A).
  Proof. unfold ivec, vsub. cbn [vx vy vz]. now rewrite !fofZ_sub. Qed.

  (** every atom of the supercell is a copy *)
  Lemma enlarged_inv N1 N2 N3 sel ssel k t v : enlarged N1 N2 N3 sel ssel -> nth_error ssel k = Some (t, v) ->
    exists i u x y z, nth_error sel i = Some (t, u) /\ x < N1 /\ y < N2 /\ z < N3 /\ k = (N1 * N2 * N3) * i + ((x * N2 + y) * N3 + z) /\ v = copy_direct N1 N2 N3 u x y z.
  Proof.
    intros (HL & HV) Hk. assert (Hlt : k < length ssel) by (apply nth_error_Some; congruence). rewrite HL in Hlt. set (E := N1 * N2 * N3) in *.
    assert (HE : 0 < E) by (destruct E; [rewrite Nat.mul_0_r in Hlt; lia|lia]).
    pose proof (Nat.div_mod k E ltac:(lia)) as D. pose proof (Nat.mod_upper_bound k E ltac:(lia)) as M.
    destruct (copy_index' N1 N2 N3 (k mod E) M) as (x & y & z & Hx & Hy & Hz & Ek).
    assert (Hi : k / E < length sel) by (apply Nat.div_lt_upper_bound; [lia|]; rewrite Nat.mul_comm; exact Hlt).
    destruct (nth_error sel (k / E)) as [[t' u]|] eqn:Es; [|apply nth_error_None in Es; lia].
    pose proof (HV _ _ _ x y z Es Hx Hy Hz) as V. rewrite <- Ek, <- D, Hk in V. injection V as <- ->.
    exists (k / E), u, x, y, z. repeat (split; [assumption|]). split; [|reflexivity]. rewrite <- Ek. exact D.
  Qed.

  Lemma same_residue (x x' n : nat) (k : Z) : x < n -> x' < n -> (Z.of_nat x' - Z.of_nat x + Z.of_nat n * k = 0)%Z -> x = x'.
  Proof. intros H1 H2 E. assert (k = 0%Z) by nia. subst k. lia. Qed.
  Lemma crystal_far_super N1 N2 N3 L sel ssel : 0 < N1 -> 0 < N2 -> 0 < N3 -> enlarged N1 N2 N3 sel ssel -> crystal_apart L sel ->
    far_apart (super_lattice N1 N2 N3 L) ssel.
  Proof.
    intros P1 P2 P3 HE HA i j t v v' n1 n2 n3 Hne Hi Hj.
    destruct (enlarged_inv _ _ _ _ _ _ _ _ HE Hi) as (a & u & x & y & z & Sa & Hx & Hy & Hz & Ei & ->).
    destruct (enlarged_inv _ _ _ _ _ _ _ _ HE Hj) as (b & u' & x' & y' & z' & Sb & Hx' & Hy' & Hz' & Ej & ->).
    set (k1 := (Z.of_nat x' - Z.of_nat x + Z.of_nat N1 * n1)%Z). set (k2 := (Z.of_nat y' - Z.of_nat y + Z.of_nat N2 * n2)%Z). set (k3 := (Z.of_nat z' - Z.of_nat z + Z.of_nat N3 * n3)%Z).
    assert (EG : gap (super_lattice N1 N2 N3 L) (copy_direct N1 N2 N3 u x y z) (copy_direct N1 N2 N3 u' x' y' z') (ivec n1 n2 n3) = gap L u u' (ivec k1 k2 k3)).
    { unfold gap. rewrite vmul_super. f_equal. rewrite !unfold_sub, !unfold_copy, unfold_ivec by assumption. unfold k1, k2, k3.
      unfold ivec, vadd, vsub. cbn [vx vy vz]. rewrite !fofZ_add, !fofZ_sub. f_equal; ring. }
    rewrite EG. apply (HA a b t u u'); [|exact Sa|exact Sb].
    destruct (Nat.eq_dec a b) as [->|]; [right|now left]. intros K. injection K as K1 K2 K3. apply Hne. subst i j k1 k2 k3.
    now rewrite (same_residue _ _ _ _ Hx Hx' K1), (same_residue _ _ _ _ Hy Hy' K2), (same_residue _ _ _ _ Hz Hz' K3).
  Qed.

  (** image of one supercell atom *)
  Lemma copy_image N1 N2 N3 p q r W w sel same i ti ui ii t'' ui' nn1 nn2 nn3 j tj uj x y z :
    0 < N1 -> 0 < N2 -> 0 < N3 -> In (p, q, r) [(0, 1, 2); (0, 2, 1); (1, 2, 0)] -> enl_of N1 N2 N3 p = enl_of N1 N2 N3 q ->
    exact_operation p q W w same sel ->
    nth_error sel i = Some (ti, ui) -> nth_error same i = Some ii -> nth_error sel ii = Some (t'', ui') -> image p q W w ui = vadd ui' (ivec nn1 nn2 nn3) ->
    nth_error sel j = Some (tj, uj) ->
    exists jj uj' x' y' z' k1 k2 k3, nth_error same j = Some jj /\ nth_error sel jj = Some (tj, uj') /\ x' < N1 /\ y' < N2 /\ z' < N3 /\
      vadd (copy_direct N1 N2 N3 ui' 0 0 0) (mvmul (embed p q W) (vsub (copy_direct N1 N2 N3 uj x y z) (copy_direct N1 N2 N3 ui 0 0 0))) =
      vadd (copy_direct N1 N2 N3 uj' x' y' z') (ivec k1 k2 k3).
  Proof.
    intros P1 P2 P3 HP HE (_ & HX) Hi Hsi Hii Himg Hj.
    destruct (HX j tj uj Hj) as (jj & uj' & m1 & m2 & m3' & B1 & B2 & B3).
    destruct (rot_ivec p q r W (Z.of_nat x) (Z.of_nat y) (Z.of_nat z) HP) as (q1 & q2 & q3 & RQ).
    set (h1 := (m1 - nn1 + q1)%Z). set (h2 := (m2 - nn2 + q2)%Z). set (h3 := (m3' - nn3 + q3)%Z).
    assert (B : forall n (h : Z), 0 < n -> exists x' k, x' < n /\ h = (Z.of_nat x' + Z.of_nat n * k)%Z).
    { intros n h Hn. exists (Z.to_nat (h mod Z.of_nat n)), (h / Z.of_nat n)%Z. pose proof (Z.mod_pos_bound h (Z.of_nat n) ltac:(lia)). pose proof (Z.div_mod h (Z.of_nat n) ltac:(lia)). lia. }
    destruct (B N1 h1 P1) as (x' & k1 & Hx' & E1). destruct (B N2 h2 P2) as (y' & k2 & Hy' & E2). destruct (B N3 h3 P3) as (z' & k3 & Hz' & E3).
    exists jj, uj', x', y', z', k1, k2, k3. repeat (split; [assumption|]).
    apply (unfold_inj N1 N2 N3); try assumption. rewrite !unfold_add, (unfold_rot N1 N2 N3 p q r W _ HP HE), unfold_sub, !unfold_copy, unfold_ivec by assumption.
    unfold image in *. 
    assert (RS : mvmul (embed p q W) (vsub (vadd uj (ivec (Z.of_nat x) (Z.of_nat y) (Z.of_nat z))) (vadd ui (ivec (Z.of_nat 0) (Z.of_nat 0) (Z.of_nat 0)))) =
                 vsub (vadd (vadd (mvmul (embed p q W) uj) w) (mvmul (embed p q W) (ivec (Z.of_nat x) (Z.of_nat y) (Z.of_nat z)))) (vadd (mvmul (embed p q W) ui) w)).
    { generalize (embed p q W : m3 A) (ivec (Z.of_nat x) (Z.of_nat y) (Z.of_nat z) : v3 A). intros M v. unfold ivec. change (Z.of_nat 0) with 0%Z. rewrite !fofZ_0. clear.
      destruct M as [[a1 a2 a3] [b1 b2 b3] [c1 c2 c3]], uj as [u1 u2 u3], ui as [w1 w2 w3], w as [t1 t2 t3], v as [v1 v2 v3'].
      unfold mvmul, vsub, vadd, vdot. cbn [vx vy vz r1 r2 r3]. f_equal; ring. }
    rewrite RS, RQ, B3, Himg.
    assert (EH : (ivec h1 h2 h3 : v3 A) = vadd (ivec (Z.of_nat x') (Z.of_nat y') (Z.of_nat z')) (ivec (Z.of_nat N1 * k1) (Z.of_nat N2 * k2) (Z.of_nat N3 * k3))).
    { rewrite ivec_add. congruence. }
    transitivity (vadd uj' (ivec h1 h2 h3)).
    - unfold h1, h2, h3. rewrite <- ivec_add, <- ivec_sub. change (Z.of_nat 0) with 0%Z. clear. unfold ivec. rewrite fofZ_0.
      destruct ui' as [a1 a2 a3], uj' as [b1 b2 b3]. unfold vadd, vsub. cbn [vx vy vz]. f_equal; ring.
    - rewrite EH. clear. unfold vadd. cbn [vx vy vz]. f_equal; ring.
  Qed.
  Lemma find_op_at (ops : list (op A)) k o : NoDup (map (@op_W A) ops) -> nth_error ops k = Some o -> forall b, find_op (op_W o) b ops = Ok (b + k).
  Proof.
    revert k. induction ops as [|a ops IH]; intros k ND Hk b; [destruct k; discriminate|]. cbn [find_op]. inversion ND as [|? ? N1 N2]; subst.
    destruct k as [|k]; cbn in Hk.
    - injection Hk as ->. rewrite (proj2 (mat2_eqb_eq _ _) eq_refl). now rewrite Nat.add_0_r.
    - destruct (mat2_eqb (op_W a) (op_W o)) eqn:E; [apply mat2_eqb_eq in E; exfalso; apply N1; rewrite E; apply in_map; eapply nth_error_In; eassumption|].
      rewrite (IH k N2 Hk (S b)). f_equal. lia.
  Qed.
  Lemma accepted_one (L : m3 A) sel (ys : list (atom A)) js : (forall ty y, length (matches L sel ty y) <= 1) -> Forall2 (fun a j => matches L sel (fst a) (snd a) = [j]) ys js ->
    ys <> [] -> length ys = length sel -> accepted L sel ys = [js].
  Proof.
    intros HU HF Hne HL. pose proof (accepted_total L sel ys js HF Hne HL) as H. unfold accepted in *. destruct (match_loop L sel ys [] 0) as [s h] eqn:E.
    apply (match_loop_spec L sel HU) in E; [|cbn; change (length ys <= length sel); lia]. destruct E as [->|(-> & _)]; [destruct H|]. cbn in H |- *. destruct H as [->|[]]. reflexivity.
  Qed.
  Lemma mapM_enum {B C} (g : nat * B -> result C) (l : list B) (out : list C) : length out = length l ->
    (forall i x y, nth_error l i = Some x -> nth_error out i = Some y -> g (i, x) = Ok y) -> mapM g (enumerate l) = Ok out.
  Proof.
    unfold enumerate. intros HL HG. assert (H : forall i x y, nth_error l i = Some x -> nth_error out i = Some y -> g (0 + i, x) = Ok y) by exact HG. clear HG. revert H. generalize 0.
    revert out HL. induction l as [|a l IH]; intros [|b out] HL k H; try discriminate; [reflexivity|]. cbn [enumerate_from mapM].
    pose proof (H 0 a b eq_refl eq_refl) as H0. rewrite Nat.add_0_r in H0. rewrite H0. cbn [bind]. rewrite (IH out ltac:(now injection HL) (S k)); [reflexivity|].
    intros i x y Hx Hy. replace (S k + i) with (k + S i) by lia. now apply (H (S i)).
  Qed.

  (** * C61 *)
  (** Every reported row is the map of one selected atom i of the unit cell: the supercell
      position of each selected atom, rotated about the first copy of i in the supercell's
      own direct coordinates and attached to the first copy of the image of i, coincides with the listed atom. *)
  Theorem supercell_rows_meaning : forall (ops : list (op A)) p q E SL ssel W rows,
    far_apart SL ssel -> search_cell_image_index ops p q E SL ssel W = Ok rows ->
    exists k o same, nth_error ops k = Some o /\ op_W o = W /\ first_map o = Ok same /\ length rows <= length same /\
    (length rows = length same -> forall i row, nth_error rows i = Some row -> exists ii, nth_error same i = Some ii /\
       exists t0 x0 t1 x1, nth_error ssel (i * E) = Some (t0, x0) /\ nth_error ssel (ii * E) = Some (t1, x1) /\
       length row = length ssel /\
       forall s t x, nth_error ssel s = Some (t, x) -> exists s' x', nth_error row s = Some s' /\ nth_error ssel s' = Some (t, x') /\
         coincide SL (vadd x1 (mvmul (embed p q W) (vsub x x0))) x').
  Proof.
    intros ops p q E SL ssel W rows HF H. unfold search_cell_image_index in H. apply bind_ok in H as (k & Hk & H). apply bind_ok in H as (o & Ho & H). apply bind_ok in H as (m & Hm & H). apply bind_ok in H as (ls & Hls & H).
    injection H as <-. unfold py_nth in Ho. destruct (nth_error ops k) as [o'|] eqn:Eo; [cbn in Ho; injection Ho as ->|discriminate].
    exists k, o, m. split; [exact Eo|]. split.
    { assert (G : forall (l : list (op A)) b k, find_op W b l = Ok k -> b <= k /\ exists o, nth_error l (k - b) = Some o /\ op_W o = W).
      { clear. induction l as [|a l IH]; intros b k H; [discriminate|]. cbn [find_op] in H. destruct (mat2_eqb (op_W a) W) eqn:E.
        - injection H as <-. split; [lia|]. exists a. rewrite Nat.sub_diag. split; [reflexivity|]. now apply mat2_eqb_eq.
        - apply IH in H as (H1 & o & H2 & H3). split; [lia|]. exists o. split; [|exact H3]. replace (k - b) with (S (k - S b)) by lia. exact H2. }
      destruct (G _ _ _ Hk) as (_ & o2 & G2 & G3). rewrite Nat.sub_0_r in G2. congruence. }
    split; [exact Hm|].
    set (g := fun '(ai, ii) => bind (py_nth ssel (ai * E)) (fun a0 => bind (py_nth ssel (ii * E)) (fun a1 =>
        Ok (accepted SL ssel (map (fun '(ty, x) => (ty, vadd (snd a1) (mvmul (embed p q W) (vsub x (snd a0))))) ssel))))) in *.
    assert (SH : forall i l, nth_error ls i = Some l -> length l <= 1 /\ forall row, In row l -> exists ii, nth_error m i = Some ii /\
       exists t0 x0 t1 x1, nth_error ssel (i * E) = Some (t0, x0) /\ nth_error ssel (ii * E) = Some (t1, x1) /\
       length row = length ssel /\
       forall s t x, nth_error ssel s = Some (t, x) -> exists s' x', nth_error row s = Some s' /\ nth_error ssel s' = Some (t, x') /\
         coincide SL (vadd x1 (mvmul (embed p q W) (vsub x x0))) x').
    { intros i l Hl. apply mapM_ok_Forall2 in Hls.
      assert (Hg : exists ii, nth_error m i = Some ii /\ g (i, ii) = Ok l).
      { unfold enumerate in Hls. assert (K : forall (m : list nat) b i, Forall2 (fun a b => g a = Ok b) (enumerate_from b m) ls -> nth_error ls i = Some l -> exists ii, nth_error m i = Some ii /\ g (b + i, ii) = Ok l).
        { clear. revert ls. intros ls m. revert ls. induction m as [|a m IH]; intros ls b i H Hl; inversion H as [|? ? ? ? H1 H2]; subst; [destruct i; discriminate|].
          destruct i as [|i]; cbn in Hl.
          - injection Hl as ->. exists a. split; [reflexivity|]. now rewrite Nat.add_0_r.
          - destruct (IH _ (S b) i H2 Hl) as (ii & A1 & A2). exists ii. split; [exact A1|]. replace (b + S i) with (S b + i) by lia. exact A2. }
        exact (K m 0 i Hls Hl). }
      destruct Hg as (ii & Hii & Hg). unfold g in Hg. apply bind_ok in Hg as ([t0 x0] & H0 & Hg). apply bind_ok in Hg as ([t1 x1] & H1 & Hg). injection Hg as <-.
      unfold py_nth in H0, H1. destruct (nth_error ssel (i * E)) as [a0|] eqn:E0; [cbn in H0; injection H0 as ->|discriminate]. destruct (nth_error ssel (ii * E)) as [a1|] eqn:E1; [cbn in H1; injection H1 as ->|discriminate].
      cbn [snd]. split.
      - unfold accepted. destruct (match_loop SL ssel _ [] 0) as [s h] eqn:EM. apply (match_loop_spec SL ssel (coincide_unique _ _ HF)) in EM; [|cbn; rewrite map_length; apply le_n]. rewrite repeat_length. destruct EM as [->|(-> & _)]; lia.
      - intros row Hrow. apply accepted_In in Hrow; [|apply coincide_unique; exact HF|now rewrite map_length]. exists ii. split; [exact Hii|]. exists t0, x0, t1, x1. split; [(exact E0 || reflexivity)|]. split; [(exact E1 || reflexivity)|].
        pose proof (Forall2_len Hrow) as HL. rewrite map_length in HL. split; [now symmetry|].
        intros s t x Hs.
        assert (Hy : nth_error (map (fun '(ty, x) => (ty, vadd x1 (mvmul (embed p q W) (vsub x x0)))) ssel) s = Some (t, vadd x1 (mvmul (embed p q W) (vsub x x0))))
          by exact (map_nth_error (fun '(ty, x) => (ty, vadd x1 (mvmul (embed p q W) (vsub x x0)))) s ssel Hs).
        clear HL Hl Hs. match type of Hrow with Forall2 _ ?l _ => remember l as zs eqn:Ez end. clear Ez. revert s Hy.
        induction Hrow as [|a j ys same HM Hm' IH]; intros s Hy; [destruct s; discriminate|].
        destruct s as [|s]; [|exact (IH s Hy)]. cbn in Hy. injection Hy as ->. cbn [fst snd] in HM.
        assert (Hj : In j (matches SL ssel t (vadd x1 (mvmul (embed p q W) (vsub x x0))))) by (rewrite HM; now left). apply matches_In in Hj as (x' & S1 & S2).
        exists j, x'. split; [reflexivity|]. split; [exact S1|]. now apply same_place_coincide. }
    assert (LL : length ls = length m) by (apply mapM_ok_Forall2 in Hls; apply Forall2_len in Hls; unfold enumerate in Hls; rewrite enumerate_from_length in Hls; lia).
    assert (CC : forall (ls : list (list (list nat))), (forall i l, nth_error ls i = Some l -> length l <= 1) -> length (concat ls) <= length ls /\
        (length (concat ls) = length ls -> forall i row, nth_error (concat ls) i = Some row -> nth_error ls i = Some [row])).
    { clear. induction ls as [|l ls IH]; intros H; [split; [reflexivity|intros _ i row Hr; destruct i; discriminate]|].
      destruct (IH (fun i => H (S i))) as (I1 & I2). specialize (H 0 l eq_refl) as H0. cbn [concat]. rewrite app_length. cbn [length]. split; [lia|]. intros HL.
      destruct l as [|a [|? ?]]; cbn [length] in *; try lia. intros [|i] row Hr; cbn in *; [congruence|]. apply I2; [lia|exact Hr]. }
    destruct (CC ls (fun i l Hl => proj1 (SH i l Hl))) as (C1 & C2). rewrite LL in C1, C2. split; [exact C1|].
    intros HL i row Hr. apply C2 in Hr; [|exact HL]. exact (proj2 (SH i _ Hr) row (or_introl eq_refl)).
  Qed.

  (** With equal enlargements in the periodic plane and an exactly symmetric crystal every row is there, is a permutation of
      the selected supercell atoms, and is the rigid motion of space that carries atom i to its image. *)
  Theorem supercell_images_complete : forall N1 N2 N3 L sel ssel p q r (ops : list (op A)) k o w same,
    0 < N1 -> 0 < N2 -> 0 < N3 -> In (p, q, r) [(0, 1, 2); (0, 2, 1); (1, 2, 0)] -> enl_of N1 N2 N3 p = enl_of N1 N2 N3 q ->
    enlarged N1 N2 N3 sel ssel -> crystal_apart L sel ->
    NoDup (map (@op_W A) ops) -> nth_error ops k = Some o -> (det2 (op_W o) = 1 \/ det2 (op_W o) = -1)%Z ->
    first_map o = Ok same -> exact_operation p q (op_W o) w same sel ->
    exists rows, search_cell_image_index ops p q (N1 * N2 * N3) (super_lattice N1 N2 N3 L) ssel (op_W o) = Ok rows /\ length rows = length sel /\
      forall i row, nth_error rows i = Some row ->
        Permutation row (seq 0 (length ssel)) /\
        exists ii t0 x0 x1, nth_error same i = Some ii /\
          nth_error ssel ((N1 * N2 * N3) * i) = Some (t0, x0) /\ nth_error ssel ((N1 * N2 * N3) * ii) = Some (t0, x1) /\
          forall s t x, nth_error ssel s = Some (t, x) -> exists s' x' n1 n2 n3, nth_error row s = Some s' /\ nth_error ssel s' = Some (t, x') /\
            forall M, represents L (embed p q (op_W o)) M ->
              let pos v := vmul v (super_lattice N1 N2 N3 L) in
              vadd (pos x1) (mvmul M (vsub (pos x) (pos x0))) = vadd (pos x') (pos (ivec n1 n2 n3)).
  Proof.
    intros N1 N2 N3 L sel ssel p q r ops k o w same P1 P2 P3 HP HE HS HA ND Ho HD Hm HX.
    set (E := N1 * N2 * N3). set (SL := super_lattice N1 N2 N3 L). set (W := op_W o) in *.
    assert (PE : 0 < E) by (unfold E; nia).
    assert (HF : far_apart SL ssel) by exact (crystal_far_super N1 N2 N3 L sel ssel P1 P2 P3 HS HA).
    pose proof (coincide_unique _ _ HF) as HU.
    assert (FC : forall i t u, nth_error sel i = Some (t, u) -> nth_error ssel (E * i) = Some (t, copy_direct N1 N2 N3 u 0 0 0)).
    { intros i t u Hi. pose proof (proj2 HS i t u 0 0 0 Hi P1 P2 P3) as V. replace ((0 * N2 + 0) * N3 + 0) with 0 in V by lia. rewrite Nat.add_0_r in V. exact V. }
    (* the row of atom i *)
    set (ys := fun (x0 x1 : v3 A) => map (fun '(ty, x) => (ty, vadd x1 (mvmul (embed p q W) (vsub x x0)))) ssel : list (atom A)).
    assert (ROW : forall i t u, nth_error sel i = Some (t, u) -> exists ii u' row,
      nth_error same i = Some ii /\ nth_error sel ii = Some (t, u') /\
      accepted SL ssel (ys (copy_direct N1 N2 N3 u 0 0 0) (copy_direct N1 N2 N3 u' 0 0 0)) = [row] /\ length row = length ssel /\
      forall s t x, nth_error ssel s = Some (t, x) -> exists s' x' n1 n2 n3, nth_error row s = Some s' /\ nth_error ssel s' = Some (t, x') /\
        vadd (copy_direct N1 N2 N3 u' 0 0 0) (mvmul (embed p q W) (vsub x (copy_direct N1 N2 N3 u 0 0 0))) = vadd x' (ivec n1 n2 n3)).
    { intros i ti ui Hi. destruct (proj2 HX i ti ui Hi) as (ii & ui' & nn1 & nn2 & nn3 & B1 & B2 & B3). exists ii, ui'.
      set (x0 := copy_direct N1 N2 N3 ui 0 0 0). set (x1 := copy_direct N1 N2 N3 ui' 0 0 0).
      assert (PT : forall s t x, nth_error ssel s = Some (t, x) -> exists s' x' n1 n2 n3, nth_error ssel s' = Some (t, x') /\
        vadd x1 (mvmul (embed p q W) (vsub x x0)) = vadd x' (ivec n1 n2 n3)).
      { intros s t x Hs. destruct (enlarged_inv _ _ _ _ _ _ _ _ HS Hs) as (j & uj & a & b & c & Sj & _ & _ & _ & _ & ->).
        destruct (copy_image N1 N2 N3 p q r W w sel same i ti ui ii ti ui' nn1 nn2 nn3 j t uj a b c P1 P2 P3 HP HE HX Hi B1 B2 B3 Sj)
          as (jj & uj' & a' & b' & c' & k1 & k2 & k3 & C1 & C2 & C3 & C4 & C5 & C6).
        pose proof (proj2 HS jj t uj' a' b' c' C2 C3 C4 C5) as V. eexists _, _, _, _, _. split; [exact V|exact C6]. }
      assert (MT : forall a, In a (ys x0 x1) -> exists j, matches SL ssel (fst a) (snd a) = [j]).
      { intros [t y] Ha. unfold ys in Ha. apply in_map_iff in Ha as ([t' x] & Ea & Hx). injection Ea as -> Ey. apply In_nth_error in Hx as (s & Hs).
        destruct (PT s t x Hs) as (s' & x' & n1 & n2 & n3 & D1 & D2). exists s'. cbn [fst snd].
        assert (Hin : In s' (matches SL ssel t y)) by (apply matches_In; exists x'; split; [exact D1|]; apply (exact_same_place SL y x' n1 n2 n3); congruence).
        specialize (HU t y). destruct (matches SL ssel t y) as [|j [|? ?]]; cbn in HU; try lia; [destruct Hin|]. destruct Hin as [->|[]]. reflexivity. }
      assert (RW : exists row, Forall2 (fun a j => matches SL ssel (fst a) (snd a) = [j]) (ys x0 x1) row).
      { revert MT. generalize (ys x0 x1). clear. induction l as [|a l IH]; intros MT; [exists []; constructor|].
        destruct (MT a (or_introl eq_refl)) as (j & Hj). destruct IH as (row & Hr); [intros b Hb; apply MT; now right|]. exists (j :: row). now constructor. }
      destruct RW as (row & Hrow). exists row. split; [exact B1|]. split; [exact B2|].
      assert (LY : length (ys x0 x1) = length ssel) by (unfold ys; apply map_length).
      split.
      { apply accepted_one; [exact HU|exact Hrow| |exact LY]. intros K. rewrite K in LY. pose proof (FC i ti ui Hi) as V. destruct ssel; [destruct (E * i); discriminate|discriminate LY]. }
      split; [rewrite <- LY; symmetry; exact (Forall2_len Hrow)|].
      intros s t x Hs. destruct (PT s t x Hs) as (s' & x' & n1 & n2 & n3 & D1 & D2). exists s', x', n1, n2, n3. split; [|split; [exact D1|exact D2]].
      assert (Hy : nth_error (ys x0 x1) s = Some (t, vadd x1 (mvmul (embed p q W) (vsub x x0)))) by (unfold ys; exact (map_nth_error (fun '(ty, x) => (ty, vadd x1 (mvmul (embed p q W) (vsub x x0)))) s ssel Hs)).
      assert (Hin : In s' (matches SL ssel t (vadd x1 (mvmul (embed p q W) (vsub x x0))))) by (apply matches_In; exists x'; split; [exact D1|]; exact (exact_same_place SL _ x' n1 n2 n3 D2)).
      clear - Hrow Hy Hin. revert s Hy. induction Hrow as [|a j l row Hj Hrow IH]; intros s Hy; [destruct s; discriminate|]. destruct s as [|s]; [|exact (IH s Hy)].
      cbn in Hy. injection Hy as ->. cbn [fst snd] in Hj. rewrite Hj in Hin. destruct Hin as [->|[]]. reflexivity. }
    (* assemble *)
    assert (RS : exists rows, length rows = length sel /\ forall i row t u, nth_error rows i = Some row -> nth_error sel i = Some (t, u) -> exists ii u',
      nth_error same i = Some ii /\ nth_error sel ii = Some (t, u') /\ accepted SL ssel (ys (copy_direct N1 N2 N3 u 0 0 0) (copy_direct N1 N2 N3 u' 0 0 0)) = [row] /\ length row = length ssel /\
      forall s t x, nth_error ssel s = Some (t, x) -> exists s' x' n1 n2 n3, nth_error row s = Some s' /\ nth_error ssel s' = Some (t, x') /\
        vadd (copy_direct N1 N2 N3 u' 0 0 0) (mvmul (embed p q W) (vsub x (copy_direct N1 N2 N3 u 0 0 0))) = vadd x' (ivec n1 n2 n3)).
    { assert (K : forall n, n <= length sel -> exists rows, length rows = n /\ forall i row t u, nth_error rows i = Some row -> nth_error sel i = Some (t, u) -> exists ii u',
        nth_error same i = Some ii /\ nth_error sel ii = Some (t, u') /\ accepted SL ssel (ys (copy_direct N1 N2 N3 u 0 0 0) (copy_direct N1 N2 N3 u' 0 0 0)) = [row] /\ length row = length ssel /\
        forall s t x, nth_error ssel s = Some (t, x) -> exists s' x' n1 n2 n3, nth_error row s = Some s' /\ nth_error ssel s' = Some (t, x') /\
          vadd (copy_direct N1 N2 N3 u' 0 0 0) (mvmul (embed p q W) (vsub x (copy_direct N1 N2 N3 u 0 0 0))) = vadd x' (ivec n1 n2 n3)).
      { induction n as [|n IH]; intros Hn; [exists []; split; [reflexivity|]; intros [|i]; discriminate|].
        destruct (IH ltac:(lia)) as (rows & HL & HV). destruct (nth_error sel n) as [[t u]|] eqn:En; [|apply nth_error_None in En; lia].
        destruct (ROW n t u En) as (ii & u' & row & R1 & R2 & R3 & R4 & R5). exists (rows ++ [row]). split; [rewrite app_length; cbn; lia|].
        intros i row' t' u'' Hi Hs. destruct (Nat.lt_ge_cases i n) as [Hlt|Hge].
        - rewrite nth_error_app1 in Hi by lia. eapply HV; eassumption.
        - rewrite nth_error_app2 in Hi by lia. destruct (i - length rows) as [|d] eqn:Ed; [|destruct d; discriminate]. cbn in Hi. injection Hi as <-. assert (i = n) by lia. subst i.
          assert (EQ : (t', u'') = (t, u)) by congruence. injection EQ as -> ->. exists ii, u'. repeat (split; [assumption|]). exact R5. }
      exact (K (length sel) (le_n _)). }
    destruct RS as (rows & HL & HV). exists rows.
    split.
    { unfold search_cell_image_index. rewrite (find_op_at ops k o ND Ho 0 : find_op W 0 ops = Ok (0 + k)). cbn [bind Nat.add]. unfold py_nth at 1. rewrite Ho. cbn [of_option bind]. rewrite Hm. cbn [bind].
      assert (MM : mapM (fun '(ai, ii) => bind (py_nth ssel (ai * E)) (fun a0 => bind (py_nth ssel (ii * E)) (fun a1 =>
          Ok (accepted SL ssel (map (fun '(ty, x) => (ty, vadd (snd a1) (mvmul (embed p q W) (vsub x (snd a0))))) ssel))))) (enumerate same) = Ok (map (fun r => [r]) rows)).
      { apply mapM_enum; [rewrite map_length, HL; symmetry; exact (proj1 HX)|]. intros i ii0 y Hi Hy. rewrite nth_error_map in Hy. destruct (nth_error rows i) as [row|] eqn:Er; [|discriminate]. cbn in Hy. injection Hy as <-.
        assert (Hil : i < length sel) by (rewrite <- HL; apply nth_error_Some; congruence). destruct (nth_error sel i) as [[t u]|] eqn:Es; [|apply nth_error_None in Es; lia].
        destruct (HV i row t u Er Es) as (ii & u' & R1 & R2 & R3 & _). assert (ii0 = ii) by congruence. subst ii0.
        unfold py_nth. rewrite !(Nat.mul_comm _ E), (FC i t u Es), (FC ii t u' R2). cbn [of_option bind snd]. f_equal. exact R3. }
      rewrite MM. cbn [bind]. f_equal. clear. induction rows as [|r rows IH]; [reflexivity|]. cbn. now rewrite IH. }
    split; [exact HL|]. intros i row Hr.
    assert (Hil : i < length sel) by (rewrite <- HL; apply nth_error_Some; congruence). destruct (nth_error sel i) as [[t u]|] eqn:Es; [|apply nth_error_None in Es; lia].
    destruct (HV i row t u Hr Es) as (ii & u' & R1 & R2 & R3 & R4 & R5). split.
    - assert (NDr : NoDup row).
      { apply (NoDup_nth_error row). intros a b Ha Eab. rewrite R4 in Ha.
        destruct (nth_error ssel a) as [[ta xa]|] eqn:Sa; [|apply nth_error_None in Sa; lia].
        destruct (R5 a ta xa Sa) as (s' & x' & n1 & n2 & n3 & T1 & T2 & T3).
        assert (Hb : b < length ssel) by (rewrite <- R4; apply nth_error_Some; rewrite <- Eab, T1; discriminate).
        destruct (nth_error ssel b) as [[tb xb]|] eqn:Sb; [|apply nth_error_None in Sb; lia].
        destruct (R5 b tb xb Sb) as (s'' & x'' & m1 & m2 & m3' & T1' & T2' & T3'). assert (s'' = s') by congruence. subst s''. assert (EQ : (tb, x'') = (ta, x')) by congruence. injection EQ as -> ->.
        destruct (Nat.eq_dec a b) as [|Ne]; [assumption|exfalso].
        assert (EI : mvmul (embed p q W) (vsub xa xb) = ivec (n1 - m1) (n2 - m2) (n3 - m3')).
        { rewrite <- ivec_sub. revert T3 T3'. generalize (embed p q W : m3 A) (ivec n1 n2 n3 : v3 A) (ivec m1 m2 m3' : v3 A) (copy_direct N1 N2 N3 u' 0 0 0) (copy_direct N1 N2 N3 u 0 0 0). clear.
          intros M n m c c' E1 E2. destruct M as [[a1 a2 a3] [b1 b2 b3] [c1 c2 c3]], xa as [p1 p2 p3], xb as [q1 q2 q3], c as [k1 k2 k3], c' as [l1 l2 l3], n as [n1 n2 n3], m as [m1 m2 m3], x' as [z1 z2 z3].
          unfold mvmul, vsub, vadd, vdot in *. cbn [vx vy vz r1 r2 r3] in *. injection E1 as E1 E2' E3. injection E2 as F1 F2 F3.
          assert (G : forall k z n m e f g : A, fadd k e = fadd z n -> fadd k f = fadd z m -> g = fsub e f -> g = fsub n m).
          { intros k z n m e f g H1 H2 ->. replace e with (fsub (fadd k e) k) by ring. replace f with (fsub (fadd k f) k) by ring. rewrite H1, H2. ring. }
          f_equal; [eapply (G _ _ _ _ _ _ _ E1 F1)|eapply (G _ _ _ _ _ _ _ E2' F2)|eapply (G _ _ _ _ _ _ _ E3 F3)]; ring. }
        destruct (rot_preimage p q r W _ _ _ HP HD _ EI) as (l1 & l2 & l3 & EV).
        apply (HF a b ta xa xb l1 l2 l3 Ne Sa Sb). unfold gap. rewrite EV.
        assert (Z0 : vmul (vsub (ivec l1 l2 l3) (ivec l1 l2 l3)) SL = v3z).
        { generalize (ivec l1 l2 l3 : v3 A). generalize SL. clear. intros [[a1 a2 a3] [b1 b2 b3] [c1 c2 c3]] [p1 p2 p3]. unfold vmul, vsub, vadd, vscale, v3z. cbn [vx vy vz r1 r2 r3]. f_equal; ring. }
        fold SL. rewrite Z0. unfold vdot, v3z. cbn [vx vy vz]. replace (fadd (fadd (fmul f0 f0) (fmul f0 f0)) (fmul f0 f0)) with (f0 : A) by ring.
        apply div_pos; [rewrite <- fofZ_0; apply fofZ_le; lia|reflexivity]. }
      apply NoDup_Permutation_bis; [exact NDr|rewrite seq_length; lia|].
      intros v Hv. apply In_nth_error in Hv as (a & Ha). assert (Hal : a < length ssel) by (rewrite <- R4; apply nth_error_Some; congruence).
      destruct (nth_error ssel a) as [[ta xa]|] eqn:Sa; [|apply nth_error_None in Sa; lia]. destruct (R5 a ta xa Sa) as (s' & x' & n1 & n2 & n3 & T1 & T2 & _).
      assert (v = s') by congruence. subst v. apply in_seq. assert (s' < length ssel) by (apply nth_error_Some; congruence). lia.
    - exists ii, t, (copy_direct N1 N2 N3 u 0 0 0), (copy_direct N1 N2 N3 u' 0 0 0). split; [exact R1|]. split; [exact (FC i t u Es)|]. split; [exact (FC ii t u' R2)|].
      intros s ts x Hs. destruct (R5 s ts x Hs) as (s' & x' & n1 & n2 & n3 & T1 & T2 & T3). exists s', x', n1, n2, n3. split; [exact T1|]. split; [exact T2|].
      intros M HM. cbv beta zeta. unfold SL. rewrite !vmul_super.
      assert (LIN : forall a b : v3 A, vsub (vmul a L) (vmul b L) = vmul (vsub a b) L).
      { clear. intros [a1 a2 a3] [b1 b2 b3]. destruct L as [[l1 l2 l3] [l4 l5 l6] [l7 l8 l9]]. unfold vmul, vsub, vadd, vscale. cbn [vx vy vz r1 r2 r3]. f_equal; ring. }
      assert (LIA : forall a b : v3 A, vadd (vmul a L) (vmul b L) = vmul (vadd a b) L).
      { clear. intros [a1 a2 a3] [b1 b2 b3]. destruct L as [[l1 l2 l3] [l4 l5 l6] [l7 l8 l9]]. unfold vmul, vadd, vscale. cbn [vx vy vz r1 r2 r3]. f_equal; ring. }
      rewrite LIN, HM, !LIA, <- unfold_sub, <- (unfold_rot N1 N2 N3 p q r W _ HP HE), <- !unfold_add, T3. reflexivity.
  Qed.

  Lemma found_ops L p q r atoms tr (ops : list (op A)) g : search_point_group L (p, q, r) atoms tr = Ok (ops, g) ->
    NoDup (map (@op_W A) ops) /\ forall o, In o ops -> (det2 (op_W o) = 1 \/ det2 (op_W o) = -1)%Z.
  Proof.
    intros H. split.
    - unfold search_point_group in H. destruct atoms as [|a atoms]; [discriminate|].
      apply bind_ok in H as (sel & Hs & H). apply bind_ok in H as (t & Ht & H). apply bind_ok in H as (g' & Hg & H). injection H as <- <-.
      clear Ht Hg. assert (ND : NoDup (lattice_ops L p q)).
      { rewrite lattice_ops_def. apply NoDup_filter. exact (proj1 (proj2 candidates_exact)). }
      revert ND. generalize (lattice_ops L p q). induction l as [|W l IH]; intros ND; [constructor|]. inversion ND as [|? ? N1 N2]; subst. cbn [map filter].
      destruct (nonempty_op _); [|exact (IH N2)]. cbn [map]. constructor; [|exact (IH N2)].
      intros K. apply in_map_iff in K as (o & E & Ho). apply filter_In in Ho as (Ho & _). apply in_map_iff in Ho as (W' & <- & HW'). cbn [op_W space_op] in E. subst W'. contradiction.
    - intros o Ho. destruct (search_ops_In _ _ _ _ _ _ _ _ _ H Ho) as (sel & W & _ & HW & -> & _). cbn [op_W space_op].
      apply in_lattice_ops in HW as (HW & _). destruct W as [a b c d]. apply (proj1 candidates_exact) in HW as (_ & _ & _ & _ & HD). exact HD.
  Qed.
  (** the rigid motions of the supercell atoms described by [rows] for an operation with first map [same] *)
  Definition rigid_maps (N1 N2 N3 : nat) (L : m3 A) (p q : nat) (W : mat2) (ssel : list (atom A)) (same : list nat) (rows : list (list nat)) : Prop :=
    length rows = length same /\
    forall i row, nth_error rows i = Some row ->
      Permutation row (seq 0 (length ssel)) /\
      exists ii t0 x0 x1, nth_error same i = Some ii /\
        nth_error ssel ((N1 * N2 * N3) * i) = Some (t0, x0) /\ nth_error ssel ((N1 * N2 * N3) * ii) = Some (t0, x1) /\
        forall s t x, nth_error ssel s = Some (t, x) -> exists s' x' n1 n2 n3, nth_error row s = Some s' /\ nth_error ssel s' = Some (t, x') /\
          forall M, represents L (embed p q W) M ->
            let pos v := vmul v (super_lattice N1 N2 N3 L) in
            vadd (pos x1) (mvmul M (vsub (pos x) (pos x0))) = vadd (pos x') (pos (ivec n1 n2 n3)).

  (** The whole search: all rows of all operations. *)
  Theorem supercell_images_of_search : forall N1 N2 N3 L p q r atoms tr sel ssel (ops : list (op A)) g,
    0 < N1 -> 0 < N2 -> 0 < N3 -> In (p, q, r) [(0, 1, 2); (0, 2, 1); (1, 2, 0)] -> enl_of N1 N2 N3 p = enl_of N1 N2 N3 q ->
    selection atoms tr sel -> crystal_apart L sel -> search_point_group L (p, q, r) atoms tr = Ok (ops, g) ->
    enlarged N1 N2 N3 sel ssel ->
    (forall o w same rest, In o ops -> op_maps o = (w, same) :: rest -> exact_operation p q (op_W o) w same sel) ->
    exists ss, same_super ops p q (N1 * N2 * N3) (super_lattice N1 N2 N3 L) ssel = Ok ss /\
      Forall2 (fun o rows => exists w same rest, op_maps o = (w, same) :: rest /\ rigid_maps N1 N2 N3 L p q (op_W o) ssel same rows) ops ss.
  Proof.
    intros N1 N2 N3 L p q r atoms tr sel ssel ops g P1 P2 P3 HP HE HS HA H HZ HX.
    destruct (found_ops _ _ _ _ _ _ _ _ H) as (ND & HD).
    assert (K : forall l, (forall o, In o l -> In o ops) -> exists ss, mapM (fun o => search_cell_image_index ops p q (N1 * N2 * N3) (super_lattice N1 N2 N3 L) ssel (op_W o)) l = Ok ss /\
      Forall2 (fun o rows => exists w same rest, op_maps o = (w, same) :: rest /\ rigid_maps N1 N2 N3 L p q (op_W o) ssel same rows) l ss).
    { induction l as [|o l IH]; intros Hl; [exists []; split; [reflexivity|constructor]|]. destruct IH as (ss & E1 & E2); [intros o' Ho'; apply Hl; now right|].
      specialize (Hl o (or_introl eq_refl)) as Ho. destruct (search_ops_In _ _ _ _ _ _ _ _ _ H Ho) as (_ & _ & _ & _ & _ & Hne & _).
      destruct (op_maps o) as [|[w same] rest] eqn:EM; [congruence|]. pose proof (HX o w same rest Ho EM) as HXo. apply In_nth_error in Ho as (k & Hk).
      destruct (supercell_images_complete N1 N2 N3 L sel ssel p q r ops k o w same P1 P2 P3 HP HE HZ HA ND Hk (HD o (nth_error_In _ _ Hk))) as (rows & R1 & R2 & R3).
      { unfold first_map. rewrite EM. reflexivity. } { exact HXo. }
      exists (rows :: ss). split; [cbn [mapM]; rewrite R1; cbn [bind]; rewrite E1; reflexivity|]. constructor; [|exact E2].
      exists w, same, rest. split; [exact EM|]. split; [rewrite R2; symmetry; exact (proj1 HXo)|exact R3]. }
    exact (K ops (fun o h => h)).
  Qed.
End SuperSym.
(** The supercell built by the program lists its atoms this way. *)
Section Built.
Context {A : Type} {F : Fld A}.
Add Field fld_built : f_theory.
Theorem built_supercell_is_enlarged : forall (u : cell A) (ar : args) (L : m3 A) ty num k pos N1 N2 N3 p1 p2 p3 (tr : list Z) atoms sel,
  complete u L ty num k pos -> valid_args ar (Z.of_nat N1) (Z.of_nat N2) (Z.of_nat N3) p1 p2 p3 -> 0 < N1 -> 0 < N2 -> 0 < N3 ->
  c_true u = Some tr -> Forall (fun a => 0 <= a)%Z tr -> atoms_of u = Ok atoms -> selection atoms (map Z.to_nat tr) sel ->
  exists s ts satoms ssel, build_super u ar = Ok s /\ c_true s = Some ts /\ c_lat s = Some (super_lattice N1 N2 N3 L) /\
    atoms_of s = Ok satoms /\ selection satoms (map Z.to_nat ts) ssel /\ enlarged N1 N2 N3 sel ssel /\ length satoms = length atoms * (N1 * N2 * N3).
Proof.
  intros u ar L ty num k pos N1 N2 N3 p1 p2 p3 tr atoms sel HC HV P1 P2 P3 Htr HNN HA HS.
  destruct (supercell_content u ar L ty num k pos N1 N2 N3 p1 p2 p3 HC HV P1 P2 P3) as (s & ts & ps & ES & Ety & Eps & Lts & Lps & V).
  destruct (supercell_lattice_and_counts u ar L ty num k pos N1 N2 N3 p1 p2 p3 HC HV P1 P2 P3) as (s2 & nums & ES2 & EL & _). assert (s2 = s) by congruence. subst s2.
  destruct (supercell_selection_correct u s ar tr N1 N2 N3 p1 p2 p3 HV Htr) as (s' & tt & ET & _ & Ett & Ec' & Et' & El' & _ & Ltt & Vtt & _).
  destruct HC as (HL & HTy & _ & _ & HP & Hlen).
  unfold atoms_of in HA. rewrite HTy in HA. cbn [of_option bind] in HA. apply bind_ok in HA as (q & Hq & HA). injection HA as <-.
  unfold get_atom_direct in Hq. rewrite HP, HL in Hq. destruct (f_dec (det L) f0) as [|DL]; [discriminate|]. injection Hq as <-.
  set (SL := super_lattice N1 N2 N3 L) in *.
  assert (NZ : forall n, 0 < n -> (fofZ (Z.of_nat n) : A) <> f0) by (intros n Hn; apply ForceFacts.fofZ_ne; lia).
  assert (DS : det SL <> f0).
  { assert (E : det SL = fmul (fmul (fmul (fofZ (Z.of_nat N1)) (fofZ (Z.of_nat N2))) (fofZ (Z.of_nat N3))) (det L)).
    { unfold SL, super_lattice. destruct L as [[a1 a2 a3] [b1 b2 b3] [c1 c2 c3]]. cbv beta iota zeta delta [det vdot vcross vscale vx vy vz r1 r2 r3]. ring. }
    rewrite E. intros K. apply f_integral in K. destruct K as [K|K]; [|contradiction]. apply f_integral in K. destruct K as [K|K]; [|exact (NZ _ P3 K)]. apply f_integral in K. destruct K as [K|K]; [exact (NZ _ P1 K)|exact (NZ _ P2 K)]. }
  set (E := N1 * N2 * N3) in *. assert (PE : 0 < E) by (unfold E; nia).
  set (satoms := combine ts (map (fun v => vmul v (minv_raw SL)) ps)).
  assert (LS : length satoms = length pos * E) by (unfold satoms; rewrite combine_length, map_length, Lts, Lps, Hlen; apply Nat.min_id).
  assert (AT : forall i t v x y z, nth_error (combine ty (map (fun v => vmul v (minv_raw L)) pos)) i = Some (t, v) -> x < N1 -> y < N2 -> z < N3 ->
     nth_error satoms (E * i + ((x * N2 + y) * N3 + z)) = Some (t, copy_direct N1 N2 N3 v x y z)).
  { intros i t v x y z Hi Hx Hy Hz.
    assert (CB : forall {B C} (l : list B) (l' : list C) i a b, nth_error (combine l l') i = Some (a, b) <-> nth_error l i = Some a /\ nth_error l' i = Some b).
    { clear. induction l as [|p l IH]; intros [|p' l'] [|i] a b; cbn; try (split; [discriminate|intros (? & ?); discriminate]); [split; [intros H; injection H as -> ->; auto|intros (H1 & H2); congruence]|apply IH]. }
    apply CB in Hi as (Ht & Hv). rewrite nth_error_map in Hv. destruct (nth_error pos i) as [r|] eqn:Er; [|discriminate]. cbn in Hv. injection Hv as <-.
    destruct (V i t r x y z Ht Er Hx Hy Hz) as (V1 & V2). cbv zeta in V1, V2. unfold satoms. apply CB. split; [exact V1|]. rewrite nth_error_map, V2. cbn [option_map]. f_equal.
    set (v := vmul r (minv_raw L)). assert (Ev : r = vmul v L) by (unfold v; rewrite vmul_assoc, minv_l by exact DL; now rewrite vmul_id).
    assert (EE : vmul (copy_direct N1 N2 N3 v x y z) SL = vadd r (vadd (vadd (vscale (fofZ (Z.of_nat x)) (r1 L)) (vscale (fofZ (Z.of_nat y)) (r2 L))) (vscale (fofZ (Z.of_nat z)) (r3 L)))).
    { unfold SL. rewrite vmul_super, unfold_copy by assumption. rewrite Ev. generalize v. clear. intros [v1 v2 v3']. unfold ivec. destruct L as [[a1 a2 a3] [b1 b2 b3] [c1 c2 c3]].
      unfold vmul, vadd, vscale. cbn [vx vy vz r1 r2 r3]. f_equal; ring. }
    rewrite <- EE, vmul_assoc, minv_r by exact DS. apply vmul_id. }
  assert (SLn : length sel = length tr) by (pose proof (Forall2_len HS) as X; rewrite map_length in X; now symmetry).
  set (dflt := (EmptyString, v3z) : atom A). set (ssel := map (fun z => nth (Z.to_nat z) satoms dflt) tt).
  assert (ENL : forall i t v x y z, nth_error sel i = Some (t, v) -> x < N1 -> y < N2 -> z < N3 ->
     exists a, nth_error tt (E * i + ((x * N2 + y) * N3 + z)) = Some a /\ nth_error satoms (Z.to_nat a) = Some (t, copy_direct N1 N2 N3 v x y z)).
  { intros i t v x y z Hi Hx Hy Hz. assert (Hlt : i < length tr) by (rewrite <- SLn; apply nth_error_Some; congruence).
    destruct (nth_error tr i) as [a|] eqn:Ea; [|apply nth_error_None in Ea; lia].
    assert (Ha : (0 <= a)%Z) by (rewrite Forall_forall in HNN; apply HNN; eapply nth_error_In; eassumption).
    assert (Hat : nth_error (combine ty (map (fun v => vmul v (minv_raw L)) pos)) (Z.to_nat a) = Some (t, v)).
    { clear - HS Hi Ea. unfold selection in HS. revert i Hi Ea. remember (map Z.to_nat tr) as ks eqn:Ek. revert tr Ek. induction HS as [|k0 a0 ks sel H1 H2 IH]; intros tr Ek i Hi Ea; [destruct i; discriminate|].
      destruct tr as [|z0 tr]; [discriminate|]. injection Ek as -> Ek. destruct i as [|i]; cbn in Hi, Ea; [injection Ea as <-; injection Hi as ->; exact H1|]. exact (IH tr Ek i Hi Ea). }
    assert (Hc : (x * N2 + y) * N3 + z < E) by exact (copy_bound _ _ _ _ _ _ Hx Hy Hz).
    exists (a * Z.of_nat E + Z.of_nat ((x * N2 + y) * N3 + z))%Z. split; [apply Vtt; assumption|].
    replace (Z.to_nat (a * Z.of_nat E + Z.of_nat ((x * N2 + y) * N3 + z))) with (E * Z.to_nat a + ((x * N2 + y) * N3 + z)) by nia. now apply AT. }
  exists s', tt, satoms, ssel. split; [unfold build_super; rewrite ES; exact ET|]. split; [exact Ett|]. split; [rewrite El', EL; reflexivity|].
  split.
  { unfold atoms_of. rewrite Et', Ety. cbn [of_option bind]. unfold get_atom_direct. rewrite Ec', Eps, El', EL. fold (super_lattice N1 N2 N3 L). fold SL.
    destruct (f_dec (det SL) f0) as [|_]; [contradiction|]. reflexivity. }
  assert (IDX : forall j a, nth_error tt j = Some a -> exists b, nth_error satoms (Z.to_nat a) = Some b).
  { intros j a Hj. assert (Hjl : j < length tr * E) by (rewrite <- Ltt; apply nth_error_Some; congruence).
    pose proof (Nat.div_mod j E ltac:(lia)) as D. pose proof (Nat.mod_upper_bound j E ltac:(lia)) as M.
    destruct (copy_index' N1 N2 N3 (j mod E) M) as (x & y & z & Hx & Hy & Hz & Ej).
    assert (Hi : j / E < length sel) by (rewrite SLn; apply Nat.div_lt_upper_bound; [lia|]; rewrite Nat.mul_comm; exact Hjl).
    destruct (nth_error sel (j / E)) as [[t v]|] eqn:Es; [|apply nth_error_None in Es; lia].
    destruct (ENL _ t v x y z Es Hx Hy Hz) as (a' & A1 & A2). rewrite <- Ej, <- D in A1. assert (a' = a) by congruence. subst a'. eauto. }
  split.
  { unfold selection, ssel. clear - IDX. induction tt as [|a tt IH]; cbn [map]; constructor.
    - destruct (IDX 0 a eq_refl) as (b & Hb). exact (eq_trans Hb (f_equal Some (eq_sym (nth_error_nth _ _ dflt Hb)))).
    - apply IH. intros j a' Hj. exact (IDX (S j) a' Hj). }
  assert (LA : length (combine ty (map (fun v => vmul v (minv_raw L)) pos)) = length pos) by (rewrite combine_length, map_length, Hlen; apply Nat.min_id).
  split; [|exact (eq_trans LS (f_equal (fun n => n * E) (eq_sym LA)))].
  split; [exact (eq_trans (map_length _ _) (eq_trans Ltt (f_equal (fun n => n * E) (eq_sym SLn))))|].
  intros i t v x y z Hi Hx Hy Hz. destruct (ENL i t v x y z Hi Hx Hy Hz) as (a & A1 & A2). exact (eq_trans (map_nth_error _ _ _ A1) (f_equal Some (nth_error_nth _ _ dflt A2))).
Qed.
End Built.
Print Assumptions built_supercell_is_enlarged.
Print Assumptions supercell_rows_meaning.
Print Assumptions supercell_images_complete.
Print Assumptions supercell_images_of_search.

(** * A square crystal with one atom *)
Definition one_cu : list (atom Qc) := [at_ "Cu" (qq 0 1) (qq 0 1) (qq 1 2)].
Definition copies (N1 N2 : nat) : list (atom Qc) :=
  flat_map (fun x => map (fun y => ("Cu"%string, copy_direct N1 N2 1 (V3 (qq 0 1) (qq 0 1) (qq 1 2)) x y 0)) (seq 0 N2)) (seq 0 N1).
Lemma one_cu_selected : selection one_cu [0] one_cu.
Proof. unfold selection, one_cu. repeat constructor. Qed.
Lemma one_cu_apart : crystal_apart square one_cu.
Proof.
  intros i j t x y n1 n2 n3 Hne Hi Hj HL. destruct i as [|i]; [|destruct i; discriminate]. destruct j as [|j]; [|destruct j; discriminate].
  cbn in Hi, Hj. injection Hi as <- <-. injection Hj as <-. destruct Hne as [K|Hne]; [congruence|].
  set (u := V3 (qq 0 1) (qq 0 1) (qq 1 2)) in *.
  assert (EG : vdot (gap square u u (ivec n1 n2 n3)) (gap square u u (ivec n1 n2 n3)) = (fofZ (16 * (n1 * n1) + 16 * (n2 * n2) + 225 * (n3 * n3)) : Qc)).
  { rewrite !fofZ_add, !fofZ_mul. assert (S4 : square = M3 (V3 (fofZ 4) f0 f0) (V3 f0 (fofZ 4) f0) (V3 f0 f0 (fofZ 15))).
    { unfold square. repeat first [apply m3_ext | apply v3_ext]; cbn [r1 r2 r3 vx vy vz]; apply Qc_is_canon; vm_compute; reflexivity. }
    rewrite S4. change (fofZ 16 : Qc) with (fofZ (4 * 4) : Qc). change (fofZ 225 : Qc) with (fofZ (15 * 15) : Qc). rewrite !fofZ_mul.
    generalize u (fofZ 4 : Qc) (fofZ 15 : Qc). intros [u1 u2 u3] a b. unfold gap, ivec. generalize (fofZ n1 : Qc) (fofZ n2 : Qc) (fofZ n3 : Qc). intros x1 x2 x3.
    unfold vdot, vmul, vsub, vadd, vscale. cbn. ring. }
  rewrite EG in HL. assert (P : (1 <= 16 * (n1 * n1) + 16 * (n2 * n2) + 225 * (n3 * n3))%Z).
  { destruct (Z.eq_dec n1 0) as [->|]; [|nia]. destruct (Z.eq_dec n2 0) as [->|]; [|nia]. destruct (Z.eq_dec n3 0) as [->|]; [congruence|nia]. }
  pose proof (fofZ_le (A := Qc) _ _ P) as K. unfold le in *. pose proof (le_trans _ _ _ K HL) as T. vm_compute in T. discriminate.
Qed.
Lemma copies_enlarged : enlarged 2 2 1 one_cu (copies 2 2) /\ enlarged 2 1 1 one_cu (copies 2 1).
Proof.
  split; (split; [reflexivity|]); intros i t u x y z Hi Hx Hy Hz; (destruct i as [|i]; [|destruct i; discriminate]); cbn in Hi; injection Hi as <- <-;
    (destruct x as [|[|x]]; [| |lia]); (destruct y as [|[|y]]; try lia); (destruct z as [|z]; [|lia]); reflexivity.
Qed.
(** every operation fixes the atom *)
Lemma one_cu_exact ops g : search_point_group square (0, 1, 2) one_cu [0] = Ok (ops, g) ->
  forall o w same rest, In o ops -> op_maps o = (w, same) :: rest -> exact_operation 0 1 (op_W o) w same one_cu.
Proof.
  intros H o w same rest Ho EM.
  destruct (accepted_operations_map_atoms square 0 1 2 one_cu [0] one_cu ops g one_cu_selected (crystal_far _ _ one_cu_apart) H o w same Ho) as (HL & HV); [rewrite EM; now left|].
  split; [exact HL|]. intros i t u Hi. destruct i as [|i]; [|destruct i; discriminate]. destruct (HV 0 t u Hi) as (j & x' & V1 & V2 & _).
  destruct j as [|j]; [|destruct j; discriminate]. exists 0, x', 0%Z, 0%Z, 0%Z. split; [exact V1|]. split; [exact V2|]. cbn in Hi, V2. injection Hi as <- <-. injection V2 as <-.
  destruct (search_ops_In _ _ _ _ _ _ _ _ _ H Ho) as (sel' & W & _ & _ & -> & _). assert (Hm : In (w, same) (op_maps (space_op square 0 1 2 one_cu [0] sel' W))) by (rewrite EM; now left).
  apply space_op_map in Hm as (Hw & _). change (w_candidates 2 one_cu [0] (embed 0 1 W)) with [v3z : v3 Qc] in Hw. destruct Hw as [<-|[]]. cbn [op_W space_op].
  destruct W as [a b c d]. unfold image, embed, mvmul, vadd, vdot, ivec, v3z. cbn [Nat.eqb andb r1 r2 r3 vx vy vz m11 m12 m21 m22].
  assert (Z0 : qq 0 1 = 0%Qc) by (apply Qc_is_canon; vm_compute; reflexivity). rewrite Z0. rewrite !fofZ_0.
  generalize (fofZ a : Qc) (fofZ b : Qc) (fofZ c : Qc) (fofZ d : Qc) (qq 1 2). intros. cbn. apply v3_ext; cbn [vx vy vz]; ring.
Qed.

(** the hypotheses of the theorems above are met by the 2 x 2 supercell *)
Example square_supercell_witness : exists ops g, search_point_group square (0, 1, 2) one_cu [0] = Ok (ops, g) /\ g = "4mm"%string /\
  selection one_cu [0] one_cu /\ crystal_apart square one_cu /\ enl_of 2 2 1 0 = enl_of 2 2 1 1 /\ enlarged 2 2 1 one_cu (copies 2 2) /\
  (forall o w same rest, In o ops -> op_maps o = (w, same) :: rest -> exact_operation 0 1 (op_W o) w same one_cu) /\
  same_super ops 0 1 4 (super_lattice 2 2 1 square) (copies 2 2) = Ok (map (fun r => [r])
    [[0; 2; 1; 3]; [0; 2; 1; 3]; [0; 2; 1; 3]; [0; 2; 1; 3]; [0; 1; 2; 3]; [0; 1; 2; 3]; [0; 1; 2; 3]; [0; 1; 2; 3]]).
Proof.
  pose proof square_found as SF. fold one_cu in SF. destruct (search_point_group square (0, 1, 2) one_cu [0]) as [[ops g]|e] eqn:E; [|discriminate SF].
  exists ops, g. cbn [found] in SF. injection SF as SF ->. split; [reflexivity|]. split; [reflexivity|]. split; [exact one_cu_selected|]. split; [exact one_cu_apart|].
  split; [reflexivity|]. split; [exact (proj1 copies_enlarged)|]. split; [exact (one_cu_exact _ _ E)|].
  assert (X : match search_point_group square (0, 1, 2) one_cu [0] with Ok (ops, _) => same_super ops 0 1 4 (super_lattice 2 2 1 square) (copies 2 2) | Err e => Err e end = Ok (map (fun r => [r])
    [[0; 2; 1; 3]; [0; 2; 1; 3]; [0; 2; 1; 3]; [0; 2; 1; 3]; [0; 1; 2; 3]; [0; 1; 2; 3]; [0; 1; 2; 3]; [0; 1; 2; 3]])) by (vm_compute; reflexivity).
  rewrite E in X. exact X.
Qed.

(** Equal enlargements are needed: in the 2 x 1 supercell of the same crystal the operations that exchange
    the axes get no row at all, although the crystal has them and one atom is selected. *)
Theorem unequal_enlargement_loses_images : exists (L : m3 Qc) atoms sel tr ops g ssel o same ss,
  selection atoms tr sel /\ crystal_apart L sel /\ search_point_group L (0, 1, 2) atoms tr = Ok (ops, g) /\ enlarged 2 1 1 sel ssel /\
  (forall o w same rest, In o ops -> op_maps o = (w, same) :: rest -> exact_operation 0 1 (op_W o) w same sel) /\
  nth_error ops 0 = Some o /\ op_W o = M2 0 1 1 0 /\ first_map o = Ok same /\ length same = 1 /\
  same_super ops 0 1 2 (super_lattice 2 1 1 L) ssel = Ok ss /\ nth_error ss 0 = Some [].
Proof.
  pose proof square_found as SF. fold one_cu in SF. destruct (search_point_group square (0, 1, 2) one_cu [0]) as [[ops g]|e] eqn:E; [|discriminate SF].
  cbn [found] in SF. injection SF as SF ->.
  assert (X : match search_point_group square (0, 1, 2) one_cu [0] with Ok (ops, _) => same_super ops 0 1 2 (super_lattice 2 1 1 square) (copies 2 1) | Err e => Err e end =
    Ok [[]; []; []; []; [[0; 1]]; [[0; 1]]; [[0; 1]]; [[0; 1]]]) by (vm_compute; reflexivity). rewrite E in X.
  destruct ops as [|o ops]; [discriminate SF|]. cbn [map] in SF. injection SF as SW SM _. destruct (op_maps o) as [|[w same] rest] eqn:EM; [discriminate SM|]. cbn in SM. injection SM as -> _.
  exists square, one_cu, one_cu, [0], (o :: ops), "4mm"%string, (copies 2 1), o, [0]. eexists.
  split; [exact one_cu_selected|]. split; [exact one_cu_apart|]. split; [exact E|]. split; [exact (proj2 copies_enlarged)|]. split; [exact (one_cu_exact _ _ E)|].
  split; [reflexivity|]. split; [exact SW|]. split; [unfold first_map; rewrite EM; reflexivity|]. split; [reflexivity|]. split; [exact X|reflexivity].
Qed.
Print Assumptions unequal_enlargement_loses_images.
