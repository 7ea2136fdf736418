(** Property theorems: a whole run with symmetry (C72).  Model: SymRun.v. *)
From Coq Require Import String ZArith QArith Qcanon Bool Lia Lra Psatz Arith Reals Permutation setoid_ring.Field List.
From Verif Require Import Base Field Args Cell Super SuperFacts Displace DisplaceFacts PropsCell Force ForceFacts Sym Order SymFacts PropsLattice PropsForce PropsSym PropsSuperSym PropsDisp SymRun.
Import ListNotations.
Local Open Scope list_scope.
Local Open Scope nat_scope.

Section Prim.
  Context {A : Type} {F : Fld A} {N : Num A F} {NL : NumLaws A F N}.
  Add Field fld_prim : f_theory.

  (** * Specification *)
  (** The unit cell is primitive: a translation that carries every selected atom to a selected
      atom of the same type (up to lattice translations) is a lattice translation. *)
  Definition primitive (sel : list (atom A)) : Prop :=
    forall tau, (forall i t u, nth_error sel i = Some (t, u) -> exists j u' n1 n2 n3, nth_error sel j = Some (t, u') /\ vadd u tau = vadd u' (ivec n1 n2 n3)) ->
      exists m1 m2 m3, tau = ivec m1 m2 m3.
  (** The force constants [Phi] between supercell atoms (numbers; st = numbers of the selected
      atoms, ssel = types and direct positions) have every symmetry of the selected atoms:
      whenever an isometry v -> tau + M v carries each selected atom to one of its type, up to
      translations of the supercell, it carries force constants to force constants. *)
  Definition isometry (M : m3 A) : Prop := forall v, vdot (mvmul M v) (mvmul M v) = vdot v v.
  Definition carries (SL : m3 A) (ssel : list (atom A)) (M : m3 A) (tau : v3 A) (perm : list nat) : Prop :=
    Permutation perm (seq 0 (length ssel)) /\
    forall s t x, nth_error ssel s = Some (t, x) -> exists s' x' n1 n2 n3, nth_error perm s = Some s' /\ nth_error ssel s' = Some (t, x') /\
      vadd tau (mvmul M (vmul x SL)) = vadd (vmul x' SL) (vmul (ivec n1 n2 n3) SL).
  Definition invariant_forces (SL : m3 A) (ssel : list (atom A)) (st : list nat) (Phi : nat -> nat -> m3 A) : Prop :=
    forall M tau perm, isometry M -> carries SL ssel M tau perm ->
      forall a b a' b' s s' t t', nth_error perm a = Some a' -> nth_error perm b = Some b' ->
        nth_error st a = Some s -> nth_error st a' = Some s' -> nth_error st b = Some t -> nth_error st b' = Some t' ->
        mmul M (Phi s t) = mmul (Phi s' t') M.

  (** * Composition of operations *)
  Lemma embed_mul a b : embed 0 1 (mul2 a b) = mmul (embed 0 1 a) (embed 0 1 b) :> m3 A.
  Proof.
    destruct a as [a1 a2 a3 a4], b as [b1 b2 b3 b4]. unfold embed, mul2. cbn [Nat.eqb andb m11 m12 m21 m22].
    rewrite !fofZ_add, !fofZ_mul. unfold mmul, vmul, vadd, vscale, transpose. cbn [r1 r2 r3 vx vy vz]. repeat first [apply m3_ext | apply v3_ext]; cbn [r1 r2 r3 vx vy vz]; ring.
  Qed.
  Lemma mvmul_add (M : m3 A) u v : mvmul M (vadd u v) = vadd (mvmul M u) (mvmul M v).
  Proof. destruct M as [[a1 a2 a3] [b1 b2 b3] [c1 c2 c3]], u as [x y z], v as [x' y' z']. unfold mvmul, vadd, vdot. cbn [r1 r2 r3 vx vy vz]. f_equal; ring. Qed.
  Lemma mvmul_mmul (M P : m3 A) u : mvmul (mmul M P) u = mvmul M (mvmul P u).
  Proof. destruct M as [[a1 a2 a3] [b1 b2 b3] [c1 c2 c3]], P as [[p1 p2 p3] [q1 q2 q3] [s1 s2 s3]], u as [x y z]. unfold mvmul, mmul, vmul, vadd, vscale, vdot. cbn [r1 r2 r3 vx vy vz]. f_equal; ring. Qed.
  Lemma vadd_assoc (u v w : v3 A) : vadd (vadd u v) w = vadd u (vadd v w).
  Proof. destruct u as [x y z], v as [x' y' z'], w as [a b c]. unfold vadd. cbn [vx vy vz]. f_equal; ring. Qed.
  Lemma vadd_comm (u v : v3 A) : vadd u v = vadd v u.
  Proof. destruct u as [x y z], v as [x' y' z']. unfold vadd. cbn [vx vy vz]. f_equal; ring. Qed.
  Lemma exact_compose W1 w1 s1 W2 w2 s2 (sel : list (atom A)) :
    exact_operation 0 1 W1 w1 s1 sel -> exact_operation 0 1 W2 w2 s2 sel ->
    exact_operation 0 1 (mul2 W1 W2) (vadd (mvmul (embed 0 1 W1) w2) w1) (map (fun j => nth j s1 0) s2) sel.
  Proof.
    intros (L1 & H1) (L2 & H2). split; [rewrite map_length; exact L2|]. intros i t u Hi.
    destruct (H2 i t u Hi) as (j & u' & n1 & n2 & n3 & E1 & E2 & E3). destruct (H1 j t u' E2) as (k & u'' & k1 & k2 & k3 & G1 & G2 & G3).
    destruct (rot_ivec 0 1 2 W1 n1 n2 n3 ltac:(left; reflexivity)) as (l1 & l2 & l3 & El).
    exists k, u'', (k1 + l1)%Z, (k2 + l2)%Z, (k3 + l3)%Z. split; [rewrite (map_nth_error _ _ _ E1); f_equal; apply nth_error_nth; exact G1|]. split; [exact G2|].
    unfold image in *. rewrite embed_mul, mvmul_mmul. rewrite <- vadd_assoc, <- mvmul_add, E3, mvmul_add, El. rewrite <- ivec_add, <- vadd_assoc, <- G3.
    rewrite !vadd_assoc. f_equal. apply vadd_comm.
  Qed.
  Lemma exact_identity (sel : list (atom A)) : exact_operation 0 1 id2 v3z (seq 0 (length sel)) sel.
  Proof.
    split; [apply seq_length|]. intros i t u Hi. exists i, u, 0%Z, 0%Z, 0%Z. assert (i < length sel) by (apply nth_error_Some; congruence).
    split; [rewrite (nth_error_nth' _ 0) by (rewrite seq_length; exact H); rewrite seq_nth by exact H; reflexivity|]. split; [exact Hi|].
    unfold image, ivec, embed, id2, v3z, vadd, mvmul, vdot. cbn [Nat.eqb andb m11 m12 m21 m22 r1 r2 r3 vx vy vz]. rewrite !fofZ_0, !fofZ_1. destruct u as [x y z]. cbn [vx vy vz]. f_equal; ring.
  Qed.
  Lemma powers_exact W w same r (sel : list (atom A)) : exact_operation 0 1 W w same sel -> nth_error same r = Some r ->
    forall fuel tmp l, (exists w' s', exact_operation 0 1 tmp w' s' sel /\ nth_error s' r = Some r) -> powers_from fuel W tmp = Some l ->
    forall V, In V l -> exists w' s', exact_operation 0 1 V w' s' sel /\ nth_error s' r = Some r.
  Proof.
    intros HX Hr. induction fuel as [|fuel IH]; intros tmp l (w' & s' & HT & Hs) H V HV; cbn [powers_from] in H; destruct (mat2_eqb tmp id2); try discriminate; try (injection H as <-; destruct HV).
    destruct (powers_from fuel W (mul2 tmp W)) as [l'|] eqn:E; [|discriminate]. injection H as <-. destruct HV as [<-|HV]; [eauto|].
    refine (IH _ _ _ E V HV). eexists _, _. split; [exact (exact_compose _ _ _ _ _ _ _ HT HX)|].
    rewrite (map_nth_error _ _ _ Hr). f_equal. apply nth_error_nth. exact Hs.
  Qed.

  Lemma gap_zero L (x : v3 A) n : vdot (gap L (vadd x n) x n) (gap L (vadd x n) x n) = f0.
  Proof. assert (E : gap L (vadd x n) x n = v3z).
    { unfold gap. replace (vsub (vsub (vadd x n) x) n) with (v3z : v3 A) by (destruct x as [a b c], n as [a' b' c']; unfold vsub, vadd, v3z; cbn [vx vy vz]; f_equal; ring).
      destruct L as [[a1 a2 a3] [b1 b2 b3] [c1 c2 c3]]. unfold vmul, v3z, vadd, vscale. cbn [r1 r2 r3 vx vy vz]. f_equal; ring. }
    rewrite E. unfold vdot, v3z. cbn [vx vy vz]. ring.
  Qed.
  Lemma apart_same L (sel : list (atom A)) i j t x y n1 n2 n3 : crystal_apart L sel -> nth_error sel i = Some (t, x) -> nth_error sel j = Some (t, y) -> x = vadd y (ivec n1 n2 n3) -> i = j.
  Proof.
    intros HA Hi Hj E. destruct (Nat.eq_dec i j) as [K|K]; [exact K|]. exfalso. apply (HA i j t x y n1 n2 n3 (or_introl K) Hi Hj). rewrite E.
    rewrite gap_zero. apply div_pos; [rewrite <- fofZ_0; apply fofZ_le; lia|]. lia.
  Qed.
  (** In a primitive cell the rotation determines the operation: its map fixes an atom as soon as
      some operation with this rotation does. *)
  Lemma primitive_fixes L (sel : list (atom A)) V w1 s1 w2 s2 r : primitive sel -> crystal_apart L sel ->
    exact_operation 0 1 V w1 s1 sel -> exact_operation 0 1 V w2 s2 sel -> Permutation s2 (seq 0 (length sel)) ->
    r < length sel -> nth_error s1 r = Some r -> nth_error s2 r = Some r.
  Proof.
    intros HPr HA (L1 & H1) (L2 & H2) HP Hr Hf.
    assert (T : exists m1 m2 m3, vsub w1 w2 = ivec m1 m2 m3).
    { apply HPr. intros i t u Hi. assert (Hlt : i < length sel) by (apply nth_error_Some; congruence).
      assert (Hin : In i s2) by (apply (Permutation_in _ (Permutation_sym HP)), in_seq; lia). apply In_nth_error in Hin as (j & Hj).
      assert (Hjl : j < length sel) by (rewrite <- L2; apply nth_error_Some; congruence).
      destruct (nth_error sel j) as [[tj uj]|] eqn:Ej; [|apply nth_error_None in Ej; lia].
      destruct (H2 j tj uj Ej) as (i' & u' & n1 & n2 & n3 & E1 & E2 & E3). assert (i' = i) by congruence. subst i'. assert (X : (tj, u') = (t, u)) by congruence. injection X as -> ->.
      destruct (H1 j t uj Ej) as (k & u'' & k1 & k2 & k3 & G1 & G2 & G3). exists k, u'', (k1 - n1)%Z, (k2 - n2)%Z, (k3 - n3)%Z. split; [exact G2|].
      unfold image in E3, G3. rewrite <- ivec_sub. revert E3 G3. generalize (mvmul (embed 0 1 V) uj). intros v E3 G3.
      assert (Eu : u = vsub (vadd v w2) (ivec n1 n2 n3)). { rewrite E3. generalize (ivec n1 n2 n3 : v3 A). intros n. destruct u as [x y z], n as [a b c]. unfold vsub, vadd. cbn [vx vy vz]. f_equal; ring. }
      assert (Eu' : u'' = vsub (vadd v w1) (ivec k1 k2 k3)). { rewrite G3. generalize (ivec k1 k2 k3 : v3 A). intros n. destruct u'' as [x y z], n as [a b c]. unfold vsub, vadd. cbn [vx vy vz]. f_equal; ring. }
      rewrite Eu, Eu'. generalize (ivec n1 n2 n3 : v3 A) (ivec k1 k2 k3 : v3 A). intros n k0. destruct v as [x y z], w1 as [x1 y1 z1], w2 as [x2 y2 z2], n as [a b c], k0 as [a' b' c']. unfold vsub, vadd. cbn [vx vy vz]. f_equal; ring. }
    destruct T as (m1 & m2 & m3 & ET). destruct (nth_error sel r) as [[t u]|] eqn:Er; [|apply nth_error_None in Er; lia].
    destruct (H1 r t u Er) as (r' & u' & n1 & n2 & n3 & E1 & E2 & E3). assert (r' = r) by congruence. subst r'. assert (u' = u) by congruence. subst u'.
    destruct (H2 r t u Er) as (k & u'' & k1 & k2 & k3 & G1 & G2 & G3). rewrite G1. f_equal.
    apply (apart_same L sel k r t u'' u (n1 - m1 - k1) (n2 - m2 - k2) (n3 - m3 - k3) HA G2 Er).
    rewrite <- !ivec_sub, <- ET. unfold image in E3, G3. revert E3 G3. generalize (mvmul (embed 0 1 V) u). intros v E3 G3.
    assert (Eu' : u'' = vsub (vadd v w2) (ivec k1 k2 k3)). { rewrite G3. generalize (ivec k1 k2 k3 : v3 A). intros n. destruct u'' as [x y z], n as [a b c]. unfold vsub, vadd. cbn [vx vy vz]. f_equal; ring. }
    assert (Ev : v = vsub (vadd u (ivec n1 n2 n3)) w1). { rewrite <- E3. destruct v as [x y z], w1 as [a b c]. unfold vsub, vadd. cbn [vx vy vz]. f_equal; ring. }
    rewrite Eu', Ev. generalize (ivec n1 n2 n3 : v3 A) (ivec k1 k2 k3 : v3 A). intros n k0. destruct u as [x y z], w1 as [x1 y1 z1], w2 as [x2 y2 z2], n as [a b c], k0 as [a' b' c']. unfold vsub, vadd. cbn [vx vy vz]. f_equal; ring.
  Qed.

  (** * One row of the supercell maps *)
  Lemma vsub_self (x : v3 A) : vsub x x = v3z.
  Proof. destruct x as [a b c]. unfold vsub, v3z. cbn [vx vy vz]. f_equal; ring. Qed.
  Lemma mvmul_z (M : m3 A) : mvmul M v3z = v3z.
  Proof. destruct M as [[a1 a2 a3] [b1 b2 b3] [c1 c2 c3]]. unfold mvmul, vdot, v3z. cbn [r1 r2 r3 vx vy vz]. f_equal; ring. Qed.
  Lemma vadd_z (x : v3 A) : vadd x v3z = x.
  Proof. destruct x as [a b c]. unfold vadd, v3z. cbn [vx vy vz]. f_equal; ring. Qed.
  Lemma vmul_vadd (x y : v3 A) L : vmul (vadd x y) L = vadd (vmul x L) (vmul y L).
  Proof. destruct L as [[a1 a2 a3] [b1 b2 b3] [c1 c2 c3]], x as [x1 x2 x3], y as [y1 y2 y3]. unfold vmul, vadd, vscale. cbn [r1 r2 r3 vx vy vz]. f_equal; ring. Qed.
  Lemma row_symmetric N1 N2 N3 L W (ssel : list (atom A)) same rows i ii row st tr M PhiS :
    far_apart (super_lattice N1 N2 N3 L) ssel -> det (super_lattice N1 N2 N3 L) <> f0 ->
    rigid_maps N1 N2 N3 L 0 1 W ssel same rows -> nth_error rows i = Some row -> nth_error same i = Some ii ->
    isometry M -> represents L (embed 0 1 W) M -> length st = length ssel -> invariant_forces (super_lattice N1 N2 N3 L) ssel st PhiS ->
    nth_error st (N1 * N2 * N3 * i) = Some (N1 * N2 * N3 * Z.to_nat (nth i tr 0%Z)) ->
    nth_error st (N1 * N2 * N3 * ii) = Some (N1 * N2 * N3 * Z.to_nat (nth ii tr 0%Z)) ->
    symmetric_under st row M (fun t r => PhiS t (N1 * N2 * N3 * Z.to_nat (nth r tr 0%Z))) i ii.
  Proof.
    intros HF HD (LR & HR) Hrow Hii HM HRep Lst HInv S1 S2. set (SL := super_lattice N1 N2 N3 L) in *. set (E := N1 * N2 * N3) in *.
    destruct (HR i row Hrow) as (HP & ii' & t0 & x0 & x1 & E1 & E2 & E3 & HV). assert (ii' = ii) by congruence. subst ii'.
    assert (LP : length row = length ssel) by (rewrite (Permutation_length HP); apply seq_length).
    split; [congruence|]. split; [apply (Permutation_NoDup (Permutation_sym HP)), seq_NoDup|].
    split; [apply Forall_forall; intros v Hv; apply (Permutation_in _ HP), in_seq in Hv; lia|].
    assert (HC : carries SL ssel M (vsub (vmul x1 SL) (mvmul M (vmul x0 SL))) row).
    { split; [exact HP|]. intros s t x Hs. destruct (HV s t x Hs) as (s' & x' & n1 & n2 & n3 & V1 & V2 & V3). exists s', x', n1, n2, n3. split; [exact V1|]. split; [exact V2|].
      specialize (V3 M HRep). cbv zeta in V3. fold SL in V3. rewrite <- V3. clear. generalize (vmul x1 SL) (vmul x0 SL) (vmul x SL). intros a b c.
      destruct M as [[a1 a2 a3] [b1 b2 b3] [c1 c2 c3]], a as [p1 p2 p3], b as [q1 q2 q3], c as [s1 s2 s3]. unfold mvmul, vadd, vsub, vdot. cbn [r1 r2 r3 vx vy vz]. f_equal; ring. }
    assert (HE : nth_error row (E * i) = Some (E * ii)).
    { destruct (HV (E * i) t0 x0 E2) as (s' & x' & n1 & n2 & n3 & V1 & V2 & V3). rewrite V1. f_equal. destruct (Nat.eq_dec s' (E * ii)) as [K|K]; [exact K|exfalso].
      specialize (V3 M HRep). cbv zeta in V3. fold SL in V3. rewrite vsub_self, mvmul_z, vadd_z, <- vmul_vadd in V3.
      assert (EX : x1 = vadd x' (ivec n1 n2 n3)).
      { apply (f_equal (fun v => vmul v (minv_raw SL))) in V3. rewrite !vmul_assoc, !minv_r, !vmul_id in V3 by exact HD. exact V3. }
      apply (HF (E * ii) s' t0 x1 x' n1 n2 n3 (fun q => K (eq_sym q)) E3 V2). rewrite EX, gap_zero. apply div_pos; [rewrite <- fofZ_0; apply fofZ_le; lia|lia]. }
    intros k v s t Hk Hs Ht. exact (HInv M _ row HM HC k (E * i) v (E * ii) s t _ _ Hk HE Hs Ht S1 S2).
  Qed.
End Prim.

(** * The parts of the search *)
Lemma search_parts {A} {F : Fld A} {N : Num A F} fuel (L SL : m3 A) norms hs p q r (atoms : list (atom A)) tr E ssel sd :
  symmetry_search fuel L SL norms hs (p, q, r) atoms tr E ssel = Ok sd ->
  exists ops g pgi req nreq ss selfs ind,
    search_point_group L (p, q, r) atoms tr = Ok (ops, g) /\ search_image_atom ops (length tr) = Ok (pgi, req, nreq) /\
    same_super ops p q E SL ssel = Ok ss /\ mapM (self_ops ops) req = Ok selfs /\ mapM (independent_one L norms hs fuel ops p q) selfs = Ok ind /\
    sd = mkSym (map (fun o => embed p q (op_W o)) ops) (map (fun o => map snd (op_maps o)) ops) pgi req nreq ss
          (map (fun x => fst (fst x)) ind) (map (fun x => snd (fst x)) ind) (map snd ind) (map (additional hs) (map snd ind)).
Proof.
  intros H. unfold symmetry_search in H. apply bind_ok in H as ((ops & g) & H1 & H). apply bind_ok in H as (((pgi & req) & nreq) & H2 & H).
  apply bind_ok in H as (ss & H3 & H). apply bind_ok in H as (selfs & H4 & H). apply bind_ok in H as (ind & H5 & H). injection H as <-.
  exists ops, g, pgi, req, nreq, ss, selfs, ind. repeat (split; [assumption|]). reflexivity.
Qed.
Lemma isometry_det (M : m3 R) : isometry M -> det M <> 0%R.
Proof.
  intros H. destruct M as [[a1 a2 a3] [b1 b2 b3] [c1 c2 c3]].
  pose proof (H (V3 1 0 0)%R) as H1. pose proof (H (V3 0 1 0)%R) as H2. pose proof (H (V3 0 0 1)%R) as H3.
  pose proof (H (V3 1 1 0)%R) as H4. pose proof (H (V3 1 0 1)%R) as H5. pose proof (H (V3 0 1 1)%R) as H6. clear H.
  unfold mvmul in *. cbn [r1 r2 r3] in *. rewrite !vdot_R in *. rewrite det_R.
  set (d := (a1 * (b2 * c3 - b3 * c2) + a2 * (b3 * c1 - b1 * c3) + a3 * (b1 * c2 - b2 * c1))%R).
  set (g11 := (a1 * a1 + b1 * b1 + c1 * c1)%R). set (g22 := (a2 * a2 + b2 * b2 + c2 * c2)%R). set (g33 := (a3 * a3 + b3 * b3 + c3 * c3)%R).
  set (g12 := (a1 * a2 + b1 * b2 + c1 * c2)%R). set (g13 := (a1 * a3 + b1 * b3 + c1 * c3)%R). set (g23 := (a2 * a3 + b2 * b3 + c2 * c3)%R).
  assert (E1 : g11 = 1%R) by (unfold g11; lra). assert (E2 : g22 = 1%R) by (unfold g22; lra). assert (E3 : g33 = 1%R) by (unfold g33; lra).
  assert (E4 : g12 = 0%R) by (unfold g11, g22, g12 in *; lra). assert (E5 : g13 = 0%R) by (unfold g11, g33, g13 in *; lra). assert (E6 : g23 = 0%R) by (unfold g22, g33, g23 in *; lra).
  assert (D : (d * d = g11 * (g22 * g33 - g23 * g23) - g12 * (g12 * g33 - g23 * g13) + g13 * (g12 * g23 - g22 * g13))%R) by (unfold d, g11, g22, g33, g12, g13, g23; ring).
  rewrite E1, E2, E3, E4, E5, E6 in D. intros Z. rewrite Z in D. lra.
Qed.
Lemma cart_isometry L W : slab L -> proper_op L W -> isometry (cart_op L (lengths L) (embed 0 1 W)).
Proof. intros HL HW v. exact (proj2 (proj2 (proj2 (proper_cart L W HL HW) v))). Qed.
Lemma slab_lengths L : slab L -> det (to_cart L (lengths L)) <> 0%R.
Proof.
  intros (Z1 & Z2 & Z3 & Z4 & HD). rewrite to_cart_diag, det_mmul, det_transpose.
  destruct L as [[a1 a2 a3] [b1 b2 b3] [c1 c2 c3]]. cbn [r1 r2 r3 vx vy vz] in *. subst a3 b3 c1 c2.
  assert (DD : ((a1 * b2 - a2 * b1) * c3 <> 0)%R).
  { intros E. apply HD. rewrite det_R. transitivity ((a1 * b2 - a2 * b1) * c3)%R; [ring|exact E]. }
  assert (C3 : (c3 <> 0)%R) by nra. assert (AB : (a1 * b2 - a2 * b1 <> 0)%R) by nra.
  assert (P : forall v : v3 R, (0 < len2 v)%R -> (/ sqrt (len2 v) <> 0)%R) by (intros v Hv; apply Rinv_neq_0_compat, Rgt_not_eq, sqrt_lt_R0, Hv).
  set (L := M3 (V3 a1 a2 0%R) (V3 b1 b2 0%R) (V3 0%R 0%R c3)) in *.
  assert (LA : (0 < len2 (r1 L))%R).
  { unfold L, len2. cbn [r1]. rewrite vdot_R. assert (K : (0 < a1 * a1 + a2 * a2)%R) by (apply sq2_pos; intros X Y; apply AB; rewrite X, Y; ring). lra. }
  assert (LB : (0 < len2 (r2 L))%R).
  { unfold L, len2. cbn [r2]. rewrite vdot_R. assert (K : (0 < b1 * b1 + b2 * b2)%R) by (apply sq2_pos; intros X Y; apply AB; rewrite X, Y; ring). lra. }
  assert (LC : (0 < len2 (r3 L))%R) by (unfold L, len2; cbn [r3]; rewrite vdot_R; nra).
  unfold lengths. cbn [vx vy vz]. unfold diag3. cbn [vx vy vz].
  change (@fmul R Fld_R) with Rmult. change (@finv R Fld_R) with Rinv. change (@f0 R Fld_R) with 0%R. rewrite det_R.
  pose proof (P _ LA) as PA. pose proof (P _ LB) as PB. pose proof (P _ LC) as PC. revert PA PB PC. generalize (/ sqrt (len2 (r1 L)))%R (/ sqrt (len2 (r2 L)))%R (/ sqrt (len2 (r3 L)))%R. intros x y z PA PB PC.
  apply Rmult_integral_contrapositive_currified; [exact HD|]. replace (x * (y * z - 0 * 0) + 0 * (0 * 0 - 0 * z) + 0 * (0 * 0 - y * 0))%R with (x * y * z)%R by ring.
  repeat (apply Rmult_integral_contrapositive_currified; try assumption).
Qed.

(** * C72 *)
(** The tolerances of the search accept only exact symmetries of lattice and selected atoms,
    none of which mixes lattice vectors of different length. *)
Definition exact_search (L : m3 R) (atoms : list (atom R)) (tr : list nat) (sel : list (atom R)) : Prop :=
  forall ops g, search_point_group L (0, 1, 2) atoms tr = Ok (ops, g) -> forall o, In o ops ->
    proper_op L (op_W o) /\ forall w same rest, op_maps o = (w, same) :: rest -> exact_operation 0 1 (op_W o) w same sel.

Lemma selected_of (c : cell R) atoms tr sel : atoms_of c = Ok atoms -> c_true c = Some tr -> selection atoms (map Z.to_nat tr) sel -> selected c = Ok sel.
Proof.
  intros H1 H2 H3. unfold selected. rewrite H1. cbn [bind]. rewrite H2. cbn [of_option bind]. apply mapM_ok_Forall2.
  clear - H3. unfold selection in H3. revert sel H3. induction tr as [|z tr IH]; intros sel H3; inversion H3; subst; constructor; [|apply IH; assumption].
  unfold py_nth. match goal with H : nth_error _ _ = Some _ |- _ => rewrite H end. reflexivity.
Qed.
Lemma Forall2_nth {B C} (P : B -> C -> Prop) l l' : Forall2 P l l' -> forall i x, nth_error l i = Some x -> exists y, nth_error l' i = Some y /\ P x y.
Proof. induction 1; intros [|i] z Hz; try discriminate; cbn in *; [injection Hz as <-; eauto|eauto]. Qed.
Lemma Forall2_nth_r {B C} (P : B -> C -> Prop) l l' : Forall2 P l l' -> forall i y, nth_error l' i = Some y -> exists x, nth_error l i = Some x /\ P x y.
Proof. induction 1; intros [|i] z Hz; try discriminate; cbn in *; [injection Hz as <-; eauto|eauto]. Qed.
Lemma combine_nth_error {B C} (l : list B) (l' : list C) x y : In (x, y) (combine l l') -> exists i, nth_error l i = Some x /\ nth_error l' i = Some y.
Proof.
  revert l'. induction l as [|a l IH]; intros [|b l'] H; try destruct H as []; [injection H as -> ->; exists 0; auto|].
  destruct (IH l' H) as (i & H1 & H2). exists (S i). auto.
Qed.
Lemma find_op_ok (V : mat2) (ops : list (op R)) b k : find_op V b ops = Ok k -> b <= k /\ exists o, nth_error ops (k - b) = Some o /\ op_W o = V.
Proof.
  revert b. induction ops as [|o ops IH]; intros b H; cbn [find_op] in H; [discriminate|]. destruct (mat2_eqb (op_W o) V) eqn:E.
  - injection H as <-. split; [lia|]. exists o. rewrite Nat.sub_diag. split; [reflexivity|]. now apply mat2_eqb_eq.
  - destruct (IH _ H) as (H1 & o' & H2 & H3). split; [lia|]. exists o'. replace (k - b) with (S (k - S b)) by lia. auto.
Qed.

Theorem symmetry_run_exact : forall (u s : cell R) ar L ty num kc pos n N3 p1 p2 p3 tr atoms sel fuel sd d law PhiS SL ts ssel cur,
  complete u L ty num kc pos -> valid_args ar (Z.of_nat n) (Z.of_nat n) (Z.of_nat N3) p1 p2 p3 -> 0 < n -> 0 < N3 ->
  c_true u = Some tr -> Forall (fun a => 0 <= a)%Z tr -> NoDup tr -> atoms_of u = Ok atoms -> selected u = Ok sel ->
  slab L -> crystal_apart L sel -> primitive sel -> exact_search L atoms (map Z.to_nat tr) sel ->
  build_super u ar = Ok s -> c_lat s = Some SL -> c_true s = Some ts -> selected s = Ok ssel -> c_cart s = Some cur ->
  cell_symmetry fuel (lengths L) isq2 (0, 1, 2) u s = Ok sd ->
  d <> 0%R -> harmonic cur law PhiS -> invariant_forces SL ssel (map Z.to_nat ts) PhiS ->
  exists s' files m', preprocess_sym fuel (lengths L) isq2 (0, 1, 2) u s ar (Some d) = Ok (s', files) /\
    postprocess_sym (dft law) fuel (lengths L) isq2 (0, 1, 2) u s d empty_mat files = (m', None) /\
    forall r a t i j, nth_error tr r = Some a -> In t ts -> i < 3 -> j < 3 ->
      m' (3 * Z.to_nat t + i) (3 * r + j) = Some (fdiv (entry (PhiS (Z.to_nat t) (n * n * N3 * Z.to_nat a)) i j) (fdiv f1 (fofZ (10 ^ 10)))).
Proof.
  intros u s ar L ty num kc pos n N3 p1 p2 p3 tr atoms sel fuel sd d law PhiS SL ts ssel cur HC HV P1 P3 Htr HNN HND HA HSel HL HAp HPr HEx HB HSL Hts HSs Hcur HCS Hd HH HI.
  assert (HS : selection atoms (map Z.to_nat tr) sel).
  { unfold selected in HSel. rewrite HA in HSel. cbn [bind] in HSel. rewrite Htr in HSel. cbn [of_option bind] in HSel. apply mapM_ok_Forall2 in HSel. unfold selection.
    clear - HSel. induction HSel as [|z a tr sel H HSel IH]; cbn [map]; constructor; [|exact IH]. unfold py_nth in H. destruct (nth_error atoms (Z.to_nat z)); [cbn in H; congruence|discriminate]. }
  destruct (built_supercell_is_enlarged u ar L ty num kc pos n n N3 p1 p2 p3 tr atoms sel HC HV P1 P1 P3 Htr HNN HA HS) as (s1 & ts1 & satoms & ssel1 & B1 & B2 & B3 & B4 & B5 & B6 & B7).
  assert (s1 = s) by congruence. subst s1. assert (ts1 = ts) by congruence. subst ts1. assert (E0 : SL = super_lattice n n N3 L) by congruence. subst SL.
  pose proof (selected_of s satoms ts ssel1 B4 Hts B5) as B8. assert (ssel1 = ssel) by congruence. subst ssel1. clear B1 B2 B3 B8.
  destruct (built_supercell_is_ready u ar L ty num kc pos tr n n N3 p1 p2 p3 HC Htr HV P1 P1 P3) as (s1 & cur1 & R1 & HR). assert (s1 = s) by congruence. subst s1.
  assert (cur1 = cur) by (pose proof (rd_cart _ _ _ _ _ HR); congruence). subst cur1.
  assert (TS : length ts = length tr * (n * n * N3) /\ forall i a k, nth_error tr i = Some a -> k < n * n * N3 -> nth_error ts ((n * n * N3) * i + k) = Some (a * Z.of_nat (n * n * N3) + Z.of_nat k)%Z).
  { unfold build_super in HB. apply bind_ok in HB as (s0 & _ & HB). destruct (supercell_selection_correct u s0 ar tr n n N3 p1 p2 p3 HV Htr) as (s2 & ts2 & X1 & _ & X2 & _ & _ & _ & _ & X3 & X4 & _).
    assert (s2 = s) by congruence. subst s2. assert (ts2 = ts) by congruence. subst ts2. auto. }
  destruct TS as (LTS & VTS).
  assert (LS : length sel = length tr) by (pose proof (Forall2_len HS) as X; rewrite map_length in X; symmetry; exact X).
  assert (LSS : length ts = length ssel) by (pose proof (Forall2_len B5) as X; rewrite map_length in X; exact X).
  assert (PE : 0 < n * n * N3) by nia.
  assert (LAt : length atoms = length pos).
  { destruct HC as (C1 & C2 & _ & _ & C3 & C4). unfold atoms_of in HA. rewrite C2 in HA. cbn [of_option bind] in HA. apply bind_ok in HA as (q & Hq & HA). injection HA as <-.
    unfold get_atom_direct in Hq. rewrite C3, C1 in Hq. destruct (f_dec (det L) f0); [discriminate|]. injection Hq as <-. exact (eq_trans (combine_length _ _) (eq_trans (f_equal (Nat.min (length ty)) (map_length _ _)) (eq_trans (f_equal (fun x => Nat.min x (length pos)) C4) (Nat.min_id _)))). }
  assert (HNN' : Forall (fun a => 0 <= a < Z.of_nat (length pos))%Z tr).
  { apply Forall_forall. intros a Ha. rewrite Forall_forall in HNN. pose proof (HNN a Ha) as K. split; [exact K|]. apply In_nth_error in Ha as (i & Hi).
    destruct (Forall2_nth _ _ _ HS i (Z.to_nat a)) as (x & _ & X); [rewrite nth_error_map, Hi; reflexivity|]. assert (Z.to_nat a < length atoms) by (apply nth_error_Some; intros Y; rewrite Y in X; discriminate). lia. }
  (* the supercell atoms selected *)
  set (E := n * n * N3) in *. set (st := map Z.to_nat ts).
  assert (Lst : length st = length ssel) by (unfold st; rewrite map_length; exact LSS).
  assert (Vst : forall i a k, nth_error tr i = Some a -> k < E -> nth_error st (E * i + k) = Some (E * Z.to_nat a + k)).
  { intros i a k Hi Hk. unfold st. rewrite (map_nth_error _ _ _ (VTS i a k Hi Hk)). f_equal. rewrite Forall_forall in HNN. specialize (HNN a (nth_error_In _ _ Hi)). nia. }
  assert (Inv : forall x, In x st -> exists i a k, nth_error tr i = Some a /\ k < E /\ x = E * Z.to_nat a + k).
  { intros x Hx. apply In_nth_error in Hx as (j & Hj). assert (Hjl : j < length tr * E) by (rewrite <- LTS; unfold st in Hj; rewrite <- (map_length Z.to_nat ts); apply nth_error_Some; congruence).
    assert (Hi : j / E < length tr) by (apply Nat.div_lt_upper_bound; [lia|]; rewrite Nat.mul_comm; exact Hjl).
    destruct (nth_error tr (j / E)) as [a|] eqn:Ea; [|apply nth_error_None in Ea; lia]. pose proof (Nat.mod_upper_bound j E ltac:(lia)) as HM.
    pose proof (Vst _ a (j mod E) Ea HM) as V. rewrite <- (Nat.div_mod j E) in V by lia. exists (j / E), a, (j mod E). split; [exact Ea|]. split; [exact HM|]. congruence. }
  assert (NDst : NoDup st).
  { apply NoDup_nth_error. intros j j' Hj Ej. assert (Ex : exists x, nth_error st j = Some x) by (destruct (nth_error st j) eqn:X; [eauto|apply nth_error_None in X; lia]). destruct Ex as (x & Ex).
    rewrite Ex in Ej. symmetry in Ej.
    assert (D : forall j, nth_error st j = Some x -> exists a, nth_error tr (j / E) = Some a /\ x = E * Z.to_nat a + j mod E).
    { intros q Hq. assert (Hql : q < length tr * E) by (rewrite <- LTS; unfold st in Hq; rewrite <- (map_length Z.to_nat ts); apply nth_error_Some; congruence).
      assert (Hi : q / E < length tr) by (apply Nat.div_lt_upper_bound; [lia|]; rewrite Nat.mul_comm; exact Hql).
      destruct (nth_error tr (q / E)) as [a|] eqn:Ea; [|apply nth_error_None in Ea; lia]. pose proof (Nat.mod_upper_bound q E ltac:(lia)) as HM.
      pose proof (Vst _ a (q mod E) Ea HM) as V. rewrite <- (Nat.div_mod q E) in V by lia. exists a. split; [reflexivity|]. congruence. }
    destruct (D j Ex) as (a & A1 & A2). destruct (D j' Ej) as (a' & A1' & A2').
    pose proof (Nat.mod_upper_bound j E ltac:(lia)) as M1. pose proof (Nat.mod_upper_bound j' E ltac:(lia)) as M2.
    assert (Q : Z.to_nat a = Z.to_nat a' /\ j mod E = j' mod E).
    { rewrite A2 in A2'. clear - A2' M1 M2. revert M1 M2 A2'. generalize (Z.to_nat a) (Z.to_nat a') (j mod E) (j' mod E). intros x y k k' M1 M2 H. assert (x = y) by nia. subst y. split; [reflexivity|lia]. }
    destruct Q as (Q1 & Q2). rewrite Forall_forall in HNN. pose proof (HNN a (nth_error_In _ _ A1)) as N1. pose proof (HNN a' (nth_error_In _ _ A1')) as N2. assert (a = a') by lia. subst a'.
    assert (j / E = j' / E) by (apply (proj1 (NoDup_nth_error tr) HND); [apply nth_error_Some; congruence|congruence]).
    rewrite (Nat.div_mod j E), (Nat.div_mod j' E) by lia. congruence. }
  assert (Bst : Forall (fun t => t < length cur) st).
  { apply Forall_forall. intros x Hx. destruct (Inv x Hx) as (i & a & k & I1 & I2 & ->). rewrite (rd_len _ _ _ _ _ HR). rewrite Forall_forall in HNN'. pose proof (HNN' a (nth_error_In _ _ I1)). assert (Z.to_nat a < length pos) by lia. fold E. nia. }
  (* the search *)
  pose proof HCS as HCS0. unfold cell_symmetry in HCS. rewrite (proj1 HC) in HCS. cbn [of_option bind] in HCS. rewrite HA in HCS. cbn [bind] in HCS. rewrite Htr in HCS. cbn [of_option bind] in HCS.
  rewrite HSL in HCS. cbn [of_option bind] in HCS. rewrite B4 in HCS. cbn [bind] in HCS. rewrite HSs in HCS. cbn [bind] in HCS.
  assert (HE : length atoms <> 0 -> length satoms / length atoms = E) by (intros Z; rewrite B7, Nat.mul_comm; apply Nat.div_mul; exact Z).
  apply search_parts in HCS as (ops & g & pgi & req & nreq & ss & selfs & ind & G1 & G2 & G3 & G4 & G5 & G6).
  assert (NA : length atoms <> 0) by (intros Z; apply length_zero_iff_nil in Z; subst atoms; discriminate G1). rewrite (HE NA) in G3.
  rewrite map_length in G2. destruct (image_atoms_partition ops (length tr) pgi req nreq G2) as (Q1 & Q2 & Q3 & _).
  assert (HXo : forall o w same rest, In o ops -> op_maps o = (w, same) :: rest -> exact_operation 0 1 (op_W o) w same sel) by (intros o w same rest Ho; exact (proj2 (HEx ops g G1 o Ho) w same rest)).
  assert (HPo : forall o, In o ops -> proper_op L (op_W o)) by (intros o Ho; exact (proj1 (HEx ops g G1 o Ho))).
  destruct (supercell_images_of_search n n N3 L 0 1 2 atoms (map Z.to_nat tr) sel ssel ops g P1 P1 P3 ltac:(left; reflexivity) eq_refl HS HAp G1 B6 HXo) as (ss' & S1 & S2).
  fold E in S1. assert (ss' = ss) by congruence. subst ss'. clear S1.
  assert (HF : far_apart (super_lattice n n N3 L) ssel) by exact (crystal_far_super n n N3 L sel ssel P1 P1 P3 B6 HAp).
  assert (HDL : det L <> 0%R) by exact (proj2 (proj2 (proj2 (proj2 HL)))).
  assert (HDS : det (super_lattice n n N3 L) <> 0%R).
  { assert (NZ : forall n, 0 < n -> (fofZ (Z.of_nat n) : R) <> 0%R) by (intros n0 Hn; apply (not_0_IZR (Z.of_nat n0)); lia).
    assert (EE : det (super_lattice n n N3 L) = (fofZ (Z.of_nat n) * fofZ (Z.of_nat n) * fofZ (Z.of_nat N3) * det L)%R).
    { unfold super_lattice. destruct L as [[a1 a2 a3] [b1 b2 b3] [c1 c2 c3]]. cbv beta iota zeta delta [det vdot vcross vscale vx vy vz r1 r2 r3]. change (@fmul R Fld_R) with Rmult. change (@fadd R Fld_R) with Rplus. change (@fsub R Fld_R) with Rminus. ring. }
    rewrite EE. repeat apply Rmult_integral_contrapositive_currified; auto. }
  set (Phi := fun t r => PhiS t (E * Z.to_nat (nth r tr 0%Z))).
  (* any operation of the list that carries atom i to ii is a symmetry *)
  assert (SYM : forall k o w same rest i ii, nth_error ops k = Some o -> op_maps o = (w, same) :: rest -> nth_error same i = Some ii ->
    exists per img, nth_error ss k = Some per /\ nth_error per i = Some img /\ symmetric_under st img (cart_op L (lengths L) (embed 0 1 (op_W o))) Phi i ii).
  { intros k o w same rest i ii Ho Hm Hi. destruct (Forall2_nth _ _ _ S2 k o Ho) as (per & Hper & w' & same' & rest' & Hm' & HRM). assert (X : (w', same') :: rest' = (w, same) :: rest) by congruence. injection X as -> -> ->.
    pose proof (HXo o w same rest (nth_error_In _ _ Ho) Hm) as HX.
    assert (Hlt : i < length sel) by (rewrite <- (proj1 HX); apply nth_error_Some; congruence).
    destruct (nth_error per i) as [img|] eqn:Ei; [|apply nth_error_None in Ei; rewrite (proj1 HRM), (proj1 HX) in Ei; lia].
    exists per, img. split; [exact Hper|]. split; [exact Ei|].
    assert (Hii : ii < length sel).
    { destruct (nth_error sel i) as [[t0 u0]|] eqn:Es; [|apply nth_error_None in Es; lia]. destruct (proj2 HX i t0 u0 Es) as (j & u' & _ & _ & _ & J1 & J2 & _). assert (j = ii) by congruence. subst j. apply nth_error_Some. congruence. }
    assert (STN : forall j, j < length sel -> nth_error st (E * j) = Some (E * Z.to_nat (nth j tr 0%Z))).
    { intros j Hj. rewrite LS in Hj. destruct (nth_error tr j) as [a|] eqn:Ea; [|apply nth_error_None in Ea; lia]. rewrite (nth_error_nth _ _ _ Ea). pose proof (Vst j a 0 Ea PE) as V. rewrite !Nat.add_0_r in V. exact V. }
    pose proof (HPo o (nth_error_In _ _ Ho)) as HPO.
    exact (row_symmetric n n N3 L (op_W o) ssel same per i ii img st tr _ PhiS HF HDS HRM Ei Hi (cart_isometry L _ HL HPO) (proj1 (proper_cart L _ HL HPO)) Lst HI (STN i Hlt) (STN ii Hii)). }
  (* requests *)
  assert (HSL2 : length selfs = length req) by (apply mapM_ok_Forall2 in G4; symmetry; exact (Forall2_len G4)).
  assert (HIL : length ind = length req) by (apply mapM_ok_Forall2 in G5; rewrite <- HSL2; symmetry; exact (Forall2_len G5)).
  assert (IND : forall i r, nth_error req i = Some r -> exists self idx mats single, self_ops ops r = Ok self /\ nth_error ind i = Some (idx, mats, single) /\ independent_one L (lengths L) isq2 fuel ops 0 1 self = Ok (idx, mats, single)).
  { intros i r Hr. apply mapM_ok_Forall2 in G4, G5. destruct (Forall2_nth _ _ _ G4 i r Hr) as (self & Hs & H1). destruct (Forall2_nth _ _ _ G5 i self Hs) as ([[idx mats] single] & Hs2 & H2). exists self, idx, mats, single. auto. }
  assert (FIRST : forall idx mats single self, independent_one L (lengths L) isq2 fuel ops 0 1 self = Ok (idx, mats, single) -> nth_error single 0 = Some (seed isq2)).
  { intros idx mats single self H. apply independent_one_spec in H as (ks & -> & -> & _ & H0 & _). destruct ks as [|W0 ks]; [discriminate|]. cbn in H0. injection H0 as ->. cbn [map nth_error]. f_equal.
    destruct (proper_cart L id2 HL (proper_id L)) as (REP & P). destruct (P (seed isq2)) as ((x & Ex) & _). rewrite Ex, (REP x). f_equal. rewrite embed_id2. destruct x as [x1 x2 x3]. unfold mvmul. cbn [r1 r2 r3]. rewrite !vdot_R. f_equal; ring. }
  set (reqs := map (fun '(r, x) => (r, (seed isq2, additional isq2 (snd x)))) (combine req ind)).
  assert (RQ : requests sd = Ok reqs).
  { unfold requests. subst sd. cbn [sd_require sd_single sd_additional]. apply mapM_enum.
    - unfold reqs. rewrite map_length, combine_length, HIL. apply Nat.min_id.
    - intros i r y Hr Hy. unfold reqs in Hy. rewrite nth_error_map in Hy. destruct (nth_error (combine req ind) i) as [[r' x]|] eqn:Ec; [|discriminate]. cbn in Hy. injection Hy as <-.
      destruct (IND i r Hr) as (self & idx & mats & single & _ & I2 & I3).
      assert (X : nth_error (combine req ind) i = Some (r, (idx, mats, single))).
      { clear - Hr I2. revert i ind Hr I2. induction req as [|a req IH]; intros [|i] [|b ind] Hr I2; try discriminate; cbn in *; [congruence|]. now apply IH. }
      rewrite X in Ec. injection Ec as <- <-. unfold py_nth. rewrite (map_nth_error _ _ _ I2). cbn [snd of_option bind]. rewrite (FIRST _ _ _ _ I3). cbn [of_option bind].
      rewrite nth_error_map, (map_nth_error _ _ _ I2). reflexivity. }
  assert (RQn : forall i r u0 adds, nth_error reqs i = Some (r, (u0, adds)) -> nth_error req i = Some r /\ u0 = seed isq2 /\ exists idx mats single, nth_error ind i = Some (idx, mats, single) /\ adds = additional isq2 single).
  { intros i r u0 adds Hi. unfold reqs in Hi. rewrite nth_error_map in Hi. destruct (nth_error (combine req ind) i) as [[r' x]|] eqn:Ec; [|discriminate]. cbn in Hi. injection Hi as <- <- <-.
    assert (X : nth_error req i = Some r' /\ nth_error ind i = Some x).
    { clear - Ec. revert i ind Ec. induction req as [|a req IH]; intros [|i] [|b ind] Ec; try discriminate; cbn in *; [injection Ec as <- <-; auto|]. now apply IH. }
    destruct X as (X1 & X2). destruct x as [[idx mats] single]. split; [exact X1|]. split; [reflexivity|]. exists idx, mats, single. auto. }
  assert (RLT : forall r, In r (req ++ nreq) <-> r < length tr) by (intros r; split; [intros H; apply (Permutation_in _ Q1), in_seq in H; lia|intros H; apply (Permutation_in _ (Permutation_sym Q1)), in_seq; lia]).
  destruct (symmetry_pipeline_exact (A := R) (F := Fld_R) u s ar cur E (length pos) d tr law PhiS reqs sd st L (lengths L) HR Htr HNN' Hd HH (slab_lengths L HL) NDst Bst) as (s' & files & m' & O1 & O2 & O3).
  - subst sd. cbn [sd_require]. unfold reqs. rewrite map_map. clear - HIL. revert ind HIL. induction req as [|a req IH]; intros [|b ind] H; try discriminate; [reflexivity|]. cbn. f_equal. apply IH. now injection H.
  - intros i r u0 adds Hi. destruct (RQn i r u0 adds Hi) as (X1 & -> & idx & mats & single & X2 & ->).
    split; [apply RLT, in_or_app; left; exact (nth_error_In _ _ X1)|].
    destruct (IND i r X1) as (self & idx' & mats' & single' & I1 & I2 & I3). assert (Y : (idx', mats', single') = (idx, mats, single)) by congruence. injection Y as -> -> ->.
    destruct (displacements_independent L fuel ops self idx mats single HL (proj2 (Forall_forall _ _) HPo) I3) as (e1 & e2 & e3 & D1 & D2).
    pose proof I3 as I3'. apply independent_one_spec in I3' as (ks & K1 & K2 & K3 & K0 & K4 & _ & K5).
    exists idx, mats, e1, e2, e3. subst sd. cbn [sd_W_index sd_W_cart sd_single sd_additional sd_same_super].
    split; [rewrite (map_nth_error _ _ _ X2); reflexivity|]. split; [rewrite (map_nth_error _ _ _ X2); reflexivity|].
    split; [rewrite K1, map_length; symmetry; exact (Forall2_len K3)|]. split; [rewrite K1; destruct ks; [discriminate K0|discriminate]|].
    split; [rewrite (map_nth_error _ _ _ X2), <- K2; reflexivity|]. split; [rewrite nth_error_map, (map_nth_error _ _ _ X2); reflexivity|].
    split; [rewrite <- K2; exact D1|]. split; [exact D2|].
    intros w W HW. apply combine_nth_error in HW as (j & W1 & W2). rewrite K1, nth_error_map in W2. destruct (nth_error ks j) as [V|] eqn:EV; [|discriminate]. cbn in W2. injection W2 as <-.
    destruct (Forall2_nth _ _ _ K3 j V EV) as (w' & W1' & FO). assert (w' = w) by congruence. subst w'. destruct (find_op_ok V ops 0 w FO) as (_ & o & Ho & EW). rewrite Nat.sub_0_r in Ho. subst V.
    destruct (search_ops_In _ _ _ _ _ _ _ _ o G1 (nth_error_In _ _ Ho)) as (_ & _ & _ & _ & _ & Hne & _). destruct (op_maps o) as [|[ww same] rest] eqn:EM; [congruence|].
    apply (SYM w o ww same rest r r Ho EM).
    (* the operation found for the power fixes the atom *)
    destruct (K5 (op_W o) (nth_error_In _ _ EV)) as (k' & o' & l & F1 & F2 & F3 & F4).
    assert (FX : exists w' s', exact_operation 0 1 (op_W o) w' s' sel /\ nth_error s' r = Some r).
    { assert (Hself : exists w0 m0 rest0, op_maps o' = (w0, m0) :: rest0 /\ nth_error m0 r = Some r).
      { unfold self_ops in I1. apply bind_ok in I1 as (ll & Hll & I1). injection I1 as <-. apply in_concat in F1 as (x & Hx & F1). apply In_nth_error in Hx as (j' & Hx). apply mapM_ok_Forall2 in Hll.
        destruct (Forall2_nth_r _ _ _ Hll j' x Hx) as ((k0 & o0) & Hk0 & Hv). apply bind_ok in Hv as (m0 & Hm0 & Hv). apply bind_ok in Hv as (j0 & Hj0 & Hv). injection Hv as <-.
        apply nth_error_In, enumerate_In in Hk0. destruct (Nat.eqb_spec j0 r) as [Ej|]; [|destruct F1]. destruct F1 as [<-|[]]. assert (o0 = o') by congruence. subst o0 j0.
        unfold first_map in Hm0. apply bind_ok in Hm0 as ((w0 & m1) & Hp & Hm0). cbn [snd] in Hm0. injection Hm0 as ->. unfold py_nth in Hp, Hj0.
        destruct (op_maps o') as [|wm rest0]; [discriminate Hp|]. cbn in Hp. injection Hp as ->. exists w0, m0, rest0. split; [reflexivity|]. destruct (nth_error m0 r); [cbn in Hj0; congruence|discriminate]. }
      destruct Hself as (w0 & m0 & rest0 & M1 & M2). pose proof (HXo o' w0 m0 rest0 (nth_error_In _ _ F2) M1) as HX'.
      unfold powers in F3. destruct (powers_from fuel (op_W o') (op_W o')) as [l'|] eqn:EP; [|discriminate]. injection F3 as <-.
      destruct F4 as [F4|F4].
      - rewrite <- F4. exists v3z, (seq 0 (length sel)). split; [apply exact_identity|]. assert (r < length sel) by (rewrite LS; apply RLT, in_or_app; left; exact (nth_error_In _ _ X1)).
        rewrite (nth_error_nth' _ 0) by (rewrite seq_length; assumption). rewrite seq_nth by assumption. reflexivity.
      - exact (powers_exact _ _ _ _ _ HX' M2 _ _ _ (ex_intro _ w0 (ex_intro _ m0 (conj HX' M2))) EP _ F4). }
    destruct FX as (w' & s2 & FX1 & FX2). pose proof (HPo o (nth_error_In _ _ Ho)) as HPO.
    assert (HPm : Permutation same (seq 0 (length sel))).
    { apply (isometric_operations_permute_atoms L 0 1 2 atoms (map Z.to_nat tr) sel ops g ltac:(left; reflexivity) HS (crystal_far L sel HAp) G1 o ww same (nth_error_In _ _ Ho)).
      - rewrite EM. left. reflexivity.
      - intros v. destruct (proper_cart L _ HL HPO) as (REP & ISO). rewrite <- (REP v). exact (proj2 (proj2 (ISO (vmul v L)))). }
    apply (primitive_fixes L sel (op_W o) w' s2 ww same r HPr HAp FX1 (HXo o ww same rest (nth_error_In _ _ Ho) EM) HPm); [|exact FX2].
    rewrite LS. apply RLT, in_or_app. left. exact (nth_error_In _ _ X1).
  - apply Forall_forall. intros [k i] Hki. subst sd. cbn [sd_pgi sd_not_require] in Hki. destruct (Q3 k i Hki) as (o & mp & j & T1 & T2 & T3 & T4 & T5).
    unfold first_map in T2. apply bind_ok in T2 as ((ww & mp') & T2 & T2'). cbn [snd] in T2'. injection T2' as ->. unfold py_nth in T2. destruct (op_maps o) as [|wm rest] eqn:EM; [discriminate T2|]. cbn in T2. injection T2 as ->.
    assert (Hni : ~ In i req).
    { intros K. assert (NDr : NoDup (req ++ nreq)) by (apply (Permutation_NoDup (Permutation_sym Q1)), seq_NoDup). assert (Hin : In i nreq) by (apply in_combine_r in Hki; exact Hki). clear - NDr K Hin. induction req as [|a req IH]; [destruct K|].
      cbn in NDr. inversion NDr; subst. destruct K as [->|K]; [apply H1, in_or_app; right; exact Hin|]. exact (IH K H2). }
    destruct (SYM k o ww mp rest i j T1 EM T3) as (per & img & Y1 & Y2 & Y3).
    split; [cbn [sd_require]; exact Hni|]. cbn [sd_W sd_same_super sd_same_index sd_require].
    exists (embed 0 1 (op_W o)), per, img, (map snd (op_maps o)), mp, j.
    split; [rewrite (map_nth_error _ _ _ T1); reflexivity|]. split; [exact Y1|]. split; [exact Y2|]. split; [rewrite (map_nth_error _ _ _ T1); reflexivity|].
    split; [rewrite EM; reflexivity|]. split; [exact T3|]. split; [exact T4|]. split; [|exact Y3].
    exact (isometry_det _ (cart_isometry L _ HL (HPo o (nth_error_In _ _ T1)))).
  - subst sd. cbn [sd_pgi sd_not_require]. exact Q2.
  - exists s', files, m'. split; [unfold preprocess_sym; rewrite HCS0; cbn [bind]; rewrite RQ; cbn [bind]; exact O1|].
    split.
    + unfold postprocess_sym. rewrite HCS0. cbn [bind]. rewrite (proj1 HC), Htr, Hts. cbn [of_option bind].
      assert (Hty : exists ty', c_type s = Some ty') by (unfold atoms_of in B4; destruct (c_type s); [eauto|discriminate B4]). destruct Hty as (ty' & Hty). rewrite Hty. cbn [of_option bind].
      rewrite (rd_type _ _ _ _ _ HR ty' Hty), <- (rd_len _ _ _ _ _ HR). exact O2.
    + intros r a t i j Hr Ht Hi Hj. assert (Hlt : r < length tr) by (apply nth_error_Some; congruence). apply RLT, in_app_or in Hlt.
      rewrite (O3 r (Z.to_nat t) i j); [| |unfold st; apply in_map; exact Ht|exact Hi|exact Hj].
      * rewrite (nth_error_nth _ _ _ Hr). reflexivity.
      * subst sd. cbn [sd_require sd_not_require]. exact Hlt.
Qed.
Print Assumptions symmetry_run_exact.
