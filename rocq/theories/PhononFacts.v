(** Proof support for Phonon.v. *)
From Coq Require Import String Ascii ZArith Bool Lia Lra Arith Reals Permutation List.
From Coquelicot Require Import Complex.
From Verif Require Import Base Field Args Cell Super SuperFacts Displace DisplaceFacts Force Phonon.
Import ListNotations.
Local Open Scope list_scope.
Local Open Scope nat_scope.

(** * Finite complex sums *)
Fixpoint csum (n : nat) (f : nat -> C) : C := match n with 0 => RtoC 0 | S m => Cplus (csum m f) (f m) end.
Definition lsum {B} (f : B -> C) (l : list B) : C := fold_right (fun x z => Cplus (f x) z) (RtoC 0) l.

Lemma csum_ext n f g : (forall i, i < n -> f i = g i) -> csum n f = csum n g.
Proof. induction n as [|n IH]; intros H; cbn; [reflexivity|]. rewrite IH by (intros; apply H; lia). rewrite H by lia. reflexivity. Qed.
Lemma csum_zero n f : (forall i, i < n -> f i = RtoC 0) -> csum n f = RtoC 0.
Proof. induction n as [|n IH]; intros H; cbn; [reflexivity|]. rewrite IH by (intros; apply H; lia). rewrite H by lia. ring. Qed.
Lemma csum_plus n f g : csum n (fun i => Cplus (f i) (g i)) = Cplus (csum n f) (csum n g).
Proof. induction n as [|n IH]; cbn; [ring|]. rewrite IH. ring. Qed.
Lemma csum_scal n c f : csum n (fun i => Cmult c (f i)) = Cmult c (csum n f).
Proof. induction n as [|n IH]; cbn; [ring|]. rewrite IH. ring. Qed.
Lemma csum_scal_r n c f : csum n (fun i => Cmult (f i) c) = Cmult (csum n f) c.
Proof. induction n as [|n IH]; cbn; [ring|]. rewrite IH. ring. Qed.
Lemma Cconj_plus a b : Cconj (Cplus a b) = Cplus (Cconj a) (Cconj b).
Proof. destruct a as [a1 a2], b as [b1 b2]. unfold Cconj, Cplus. cbn. f_equal; ring. Qed.
Lemma Cconj_mult a b : Cconj (Cmult a b) = Cmult (Cconj a) (Cconj b).
Proof. destruct a as [a1 a2], b as [b1 b2]. unfold Cconj, Cmult. cbn. f_equal; ring. Qed.
Lemma Cconj_RtoC r : Cconj (RtoC r) = RtoC r.
Proof. unfold Cconj, RtoC. cbn. f_equal. ring. Qed.
Lemma Cconj_invol z : Cconj (Cconj z) = z.
Proof. destruct z as [x y]. unfold Cconj. cbn. f_equal. ring. Qed.
Lemma Cconj_div_R z r : Cconj (Cdiv z (RtoC r)) = Cdiv (Cconj z) (RtoC r).
Proof.
  unfold Cdiv. rewrite Cconj_mult. f_equal. unfold Cconj, Cinv, RtoC. cbn. f_equal. unfold Rdiv. ring.
Qed.
Lemma csum_conj n f : Cconj (csum n f) = csum n (fun i => Cconj (f i)).
Proof. induction n as [|n IH]; cbn [csum]; [apply Cconj_RtoC|]. rewrite Cconj_plus, IH. reflexivity. Qed.
Lemma csum_app a b f : csum (a + b) f = Cplus (csum a f) (csum b (fun i => f (a + i))).
Proof.
  induction b as [|b IH]; [rewrite Nat.add_0_r; cbn; ring|]. rewrite Nat.add_succ_r. cbn [csum]. rewrite IH. ring.
Qed.
Lemma csum_mul a b f : csum (a * b) f = csum a (fun i => csum b (fun j => f (b * i + j))).
Proof.
  induction a as [|a IH]; [reflexivity|]. cbn [csum]. rewrite <- IH. replace (S a * b) with (a * b + b) by lia. rewrite csum_app.
  f_equal. apply csum_ext. intros i _. f_equal. lia.
Qed.
Lemma csum_swap a b f : csum a (fun i => csum b (fun j => f i j)) = csum b (fun j => csum a (fun i => f i j)).
Proof.
  induction a as [|a IH]; [symmetry; apply csum_zero; reflexivity|]. cbn [csum]. rewrite IH, <- csum_plus. reflexivity.
Qed.
Lemma csum_single n k f : k < n -> (forall i, i < n -> i <> k -> f i = RtoC 0) -> csum n f = f k.
Proof.
  induction n as [|n IH]; [lia|]. intros Hk H. cbn [csum]. destruct (Nat.eq_dec k n) as [->|Hne].
  - rewrite csum_zero; [ring|]. intros i Hi. apply H; lia.
  - rewrite IH by (try lia; intros; apply H; lia). rewrite (H n) by lia. ring.
Qed.
Lemma csum_lsum n f : csum n f = lsum f (seq 0 n).
Proof.
  assert (G : forall {B} (g : B -> C) l x, lsum g (l ++ [x]) = Cplus (lsum g l) (g x)).
  { intros B g l x. unfold lsum. induction l as [|y l IH]; cbn; [ring|]. rewrite IH. ring. }
  induction n as [|n IH]; [reflexivity|]. rewrite seq_S, G, <- IH. reflexivity.
Qed.
Lemma lsum_perm {B} (f : B -> C) l l' : Permutation l l' -> lsum f l = lsum f l'.
Proof.
  unfold lsum. induction 1 as [|x l l' H IH|x y l|l l' l'' H1 IH1 H2 IH2]; cbn [fold_right]; [reflexivity|now rewrite IH|ring|congruence].
Qed.
Lemma lsum_map {B D} (f : D -> C) (g : B -> D) l : lsum f (map g l) = lsum (fun x => f (g x)) l.
Proof. unfold lsum in *. induction l as [|x l IH]; [reflexivity|]. cbn [map fold_right]. now rewrite IH. Qed.
Lemma NoDup_map_in {B D} (g : B -> D) l : (forall x y, In x l -> In y l -> g x = g y -> x = y) -> NoDup l -> NoDup (map g l).
Proof.
  intros H ND. induction ND as [|x l Hx ND IH]; [constructor|]. cbn. constructor.
  - rewrite in_map_iff. intros (y & E & Hy). apply Hx. rewrite (H x y); [exact Hy|now left|now right|congruence].
  - apply IH. intros a b Ha Hb. apply H; now right.
Qed.
Lemma csum_reindex n f g : (forall i, i < n -> g i < n) -> (forall i, i < n -> g (g i) = i) -> csum n f = csum n (fun i => f (g i)).
Proof.
  intros H1 H2. rewrite !csum_lsum, <- (lsum_map f g). apply lsum_perm. apply NoDup_Permutation.
  - apply seq_NoDup.
  - apply NoDup_map_in; [|apply seq_NoDup]. intros x y Hx Hy E. apply in_seq in Hx, Hy.
    rewrite <- (H2 x), <- (H2 y) by lia. now rewrite E.
  - intros x. rewrite in_map_iff. split.
    + intros Hx. exists (g x). apply in_seq in Hx. split; [apply H2; lia|]. apply in_seq. specialize (H1 x). lia.
    + intros (y & <- & Hy). apply in_seq in Hy. apply in_seq. specialize (H1 y). lia.
Qed.

Lemma cis_conj t : Cconj (cis t) = cis (- t).
Proof. unfold cis, Cconj. cbn. rewrite cos_neg, sin_neg. reflexivity. Qed.
Lemma cis_0 : cis 0 = RtoC 1.
Proof. unfold cis, RtoC. rewrite cos_0, sin_0. reflexivity. Qed.
Lemma cis_period t (m : Z) : cis (t + 2 * PI * IZR m) = cis t.
Proof.
  unfold cis. assert (G : forall x (k : nat), cos (x + 2 * INR k * PI) = cos x /\ sin (x + 2 * INR k * PI) = sin x) by (intros; split; [apply cos_period|apply sin_period]).
  destruct (Z_le_gt_dec 0 m) as [H|H].
  - destruct (G t (Z.to_nat m)) as (E1 & E2). rewrite INR_IZR_INZ, Z2Nat.id in E1, E2 by lia.
    replace (t + 2 * PI * IZR m)%R with (t + 2 * IZR m * PI)%R by ring. now rewrite E1, E2.
  - destruct (G (t + 2 * PI * IZR m)%R (Z.to_nat (- m))) as (E1 & E2). rewrite INR_IZR_INZ, Z2Nat.id, opp_IZR in E1, E2 by lia.
    replace (t + 2 * PI * IZR m + 2 * - IZR m * PI)%R with t in E1, E2 by ring. now rewrite <- E1, <- E2.
Qed.

(** * Minimum images *)
Inductive lattice_of (axes : list (v3 R)) : v3 R -> Prop :=
| lat_zero : lattice_of axes v3z
| lat_step a i v : In a axes -> lattice_of axes v -> lattice_of axes (vadd v (zscale i a)).

Lemma lattice_of_add axes u v : lattice_of axes u -> lattice_of axes v -> lattice_of axes (vadd u v).
Proof.
  intros Hu Hv. induction Hv as [|a i v Ha Hv IH]; [now rewrite vadd_0_r|]. rewrite vadd_assoc. now constructor.
Qed.
Lemma lattice_of_one axes a i : In a axes -> lattice_of axes (zscale i a).
Proof. intros H. rewrite <- (vadd_0_l (zscale i a)). constructor; [exact H|constructor]. Qed.
Lemma images_lattice axes sh : In sh (images axes) -> lattice_of axes sh.
Proof.
  unfold images. destruct axes as [|a [|b [|c [|d l]]]]; intros H; try (destruct H; fail).
  - apply in_map_iff in H as (i & <- & _). apply lattice_of_one. now left.
  - apply in_flat_map in H as (i & _ & H). apply in_map_iff in H as (j & <- & _).
    apply lattice_of_add; apply lattice_of_one; cbn; auto.
  - apply in_flat_map in H as (i & _ & H). apply in_flat_map in H as (j & _ & H). apply in_map_iff in H as (k & <- & _).
    apply lattice_of_add; [apply lattice_of_add|]; apply lattice_of_one; cbn; auto.
Qed.
Lemma closer_cases pos sh : (closer pos sh = vadd pos sh /\ (vdot (vadd pos sh) (vadd pos sh) < vdot pos pos)%R) \/ closer pos sh = pos.
Proof. unfold closer. destruct (Rlt_dec _ _) as [H|H]; [left; auto|right; reflexivity]. Qed.
Lemma closer_fold axes : forall l pos, (forall sh, In sh l -> lattice_of axes sh) ->
  exists t, lattice_of axes t /\ fold_left closer l pos = vadd pos t /\ (vdot (fold_left closer l pos) (fold_left closer l pos) <= vdot pos pos)%R.
Proof.
  induction l as [|sh l IH]; intros pos H.
  - exists v3z. split; [constructor|]. split; [now rewrite vadd_0_r|]. cbn. apply Rle_refl.
  - cbn [fold_left]. destruct (IH (closer pos sh) (fun s Hs => H s (or_intror Hs))) as (t & T1 & T2 & T3).
    destruct (closer_cases pos sh) as [[C1 C2]|C1]; rewrite C1 in T2, T3; rewrite C1.
    + exists (vadd sh t). split; [apply lattice_of_add; [apply H; now left|exact T1]|]. split; [rewrite T2; now rewrite vadd_assoc|].
      eapply Rle_trans; [exact T3|]. now apply Rlt_le.
    + exists t. split; [exact T1|]. split; [exact T2|exact T3].
Qed.

Lemma vdot_vadd_r (q u v : v3 R) : vdot q (vadd u v) = (vdot q u + vdot q v)%R.
Proof. destruct q as [q1 q2 q3], u as [u1 u2 u3], v as [w1 w2 w3]. cbn. ring. Qed.
Lemma vdot_zscale (q u : v3 R) i : vdot q (zscale i u) = (IZR i * vdot q u)%R.
Proof. destruct q as [q1 q2 q3], u as [u1 u2 u3]. unfold zscale. cbn. ring. Qed.
Lemma lattice_phase axes q t : (forall a, In a axes -> exists m, vdot q a = (2 * PI * IZR m)%R) -> lattice_of axes t ->
  exists m, vdot q t = (2 * PI * IZR m)%R.
Proof.
  intros H Ht. induction Ht as [|a i v Ha Hv (m & IH)].
  - exists 0%Z. unfold v3z, vdot. cbn. ring.
  - destruct (H a Ha) as (m' & E). exists (m + i * m')%Z. rewrite vdot_vadd_r, vdot_zscale, IH, E, plus_IZR, mult_IZR. ring.
Qed.
Lemma phase_min_image axes q pos : (forall a, In a axes -> exists m, vdot q a = (2 * PI * IZR m)%R) ->
  cis (vdot q (min_image axes pos)) = cis (vdot q pos).
Proof.
  intros H. destruct (closer_fold axes (images axes) pos (images_lattice axes)) as (t & T1 & T2 & _).
  unfold min_image. rewrite T2, vdot_vadd_r. destruct (lattice_phase axes q t H T1) as (m & ->). apply cis_period.
Qed.

(** * Value of the loops *)
Definition phase_term (axes : list (v3 R)) (q : v3 R) (scart ucart : list (v3 R)) (fc : nat -> nat -> R) (uxyz : list Z) (s : nat) (a : Z) (j : nat) : C :=
  Cmult (RtoC (fc (Z.to_nat a * 3 + s mod 3) j))
        (cis (vdot q (min_image axes (vsub (nth (Z.to_nat a) scart v3z) (nth (Z.to_nat (nth j uxyz 0%Z)) ucart v3z))))).

Lemma np_index_ok len a : (0 <= a < Z.of_nat len)%Z -> np_index len a = Ok (Z.to_nat a).
Proof. intros H. unfold np_index. destruct (Z.leb_spec 0 a); [|lia]. destruct (Z.ltb_spec a (Z.of_nat len)); [reflexivity|lia]. Qed.
Lemma py_nth_nth {B} (l : list B) k d : k < length l -> py_nth l k = Ok (nth k l d).
Proof. intros H. unfold py_nth. rewrite (nth_error_nth' l d H). reflexivity. Qed.

Lemma unit_loop_ok n ncol axes q ucart x row f : forall uxyz s2 D, row < n -> s2 + length uxyz <= ncol ->
  Forall (fun a => 0 <= a < Z.of_nat (length ucart))%Z uxyz ->
  exists D', unit_loop n ncol axes q ucart (Ok x) row (Ok f) s2 uxyz D = Ok D' /\
    forall i j, D' i j = Cplus (D i j)
      (if (Nat.eqb i row && (s2 <=? j) && (j <? s2 + length uxyz))%bool
       then Cmult (RtoC (f j)) (cis (vdot q (min_image axes (vsub x (nth (Z.to_nat (nth (j - s2) uxyz 0%Z)) ucart v3z))))) else RtoC 0).
Proof.
  induction uxyz as [|a l IH]; intros s2 D Hr Hc HF.
  - exists D. split; [reflexivity|]. intros i j. cbn [length]. replace (s2 + 0) with s2 by lia.
    destruct (Nat.leb_spec s2 j); destruct (Nat.ltb_spec j s2); try lia; rewrite ?andb_false_r; cbn; try ring.
  - inversion HF as [|? ? Ha HF']; subst. cbn [unit_loop]. cbn [bind]. rewrite (np_index_ok _ _ Ha). cbn [bind].
    rewrite (py_nth_nth _ _ v3z) by lia. cbn [bind]. destruct (Nat.leb_spec n row); [lia|].
    cbn [length] in Hc. destruct (Nat.leb_spec ncol s2); [lia|].
    destruct (IH (S s2) (add_at D row s2 (Cmult (RtoC (f s2)) (cis (vdot q (min_image axes (vsub x (nth (Z.to_nat a) ucart v3z))))))) Hr ltac:(lia) HF') as (D' & E & V).
    exists D'. split; [exact E|]. intros i j. rewrite V. unfold add_at. cbn [length].
    destruct (Nat.eqb_spec i row) as [->|Hi]; cbn [andb]; [|ring].
    destruct (Nat.eqb_spec j s2) as [->|Hj].
    + rewrite Nat.sub_diag. cbn [nth]. destruct (Nat.leb_spec (S s2) s2); [lia|]. destruct (Nat.leb_spec s2 s2); [|lia]. destruct (Nat.ltb_spec s2 (s2 + S (length l))); [|lia]. cbn [andb]. ring.
    + destruct (Nat.leb_spec (S s2) j); destruct (Nat.leb_spec s2 j); try lia; destruct (Nat.ltb_spec j (S s2 + length l)); destruct (Nat.ltb_spec j (s2 + S (length l))); try lia; cbn [andb]; try ring.
      replace (j - s2) with (S (j - S s2)) by lia. reflexivity.
Qed.

Lemma super_loop_ok n nrow ncol E axes q scart ucart fc uxyz : n = length uxyz -> n <= ncol -> Forall (fun a => 0 <= a < Z.of_nat (length ucart))%Z uxyz ->
  forall sxyz s1 D,
  Forall (fun a => 0 <= a < Z.of_nat (length scart))%Z sxyz -> Forall (fun a => 3 * a + 3 <= Z.of_nat nrow)%Z sxyz ->
  (forall t, t < length sxyz -> ((s1 + t) / (E * 3)) * 3 + (s1 + t) mod 3 < n) ->
  exists D', super_loop n nrow ncol E axes q scart ucart fc uxyz s1 sxyz D = Ok D' /\
    forall i j, j < n -> D' i j = Cplus (D i j)
      (csum (length sxyz) (fun t => if Nat.eqb i (((s1 + t) / (E * 3)) * 3 + (s1 + t) mod 3) then phase_term axes q scart ucart fc uxyz (s1 + t) (nth t sxyz 0%Z) j else RtoC 0)).
Proof.
  intros Hn Hc HU. induction sxyz as [|a l IH]; intros s1 D HS HR HI.
  - exists D. split; [reflexivity|]. intros i j Hj. cbn. ring.
  - pose proof (Forall_inv HS) as Ha. pose proof (Forall_inv_tail HS) as HS'. pose proof (Forall_inv HR) as Hb. pose proof (Forall_inv_tail HR) as HR'. cbn beta in Ha, Hb.
    cbn [super_loop]. rewrite (np_index_ok _ _ Ha). cbn [bind]. rewrite (py_nth_nth _ _ v3z) by lia.
    assert (M3b : s1 mod 3 < 3) by (apply Nat.mod_upper_bound; lia).
    rewrite np_index_ok by lia. cbn [bind].
    pose proof (HI 0 ltac:(cbn; lia)) as H0. rewrite Nat.add_0_r in H0.
    destruct (unit_loop_ok n ncol axes q ucart (nth (Z.to_nat a) scart v3z) ((s1 / (E * 3)) * 3 + s1 mod 3) (fc (Z.to_nat (a * 3 + Z.of_nat (s1 mod 3)))) uxyz 0 D H0 ltac:(lia) HU) as (D1 & E1 & V1).
    rewrite E1. cbn [bind].
    destruct (IH (S s1) D1 HS' HR') as (D' & E' & V').
    { intros t Ht. replace (S s1 + t) with (s1 + S t) by lia. apply HI. cbn. lia. }
    exists D'. split; [exact E'|]. intros i j Hj. rewrite V' by exact Hj. rewrite V1. cbn [length]. change (S (length l)) with (1 + length l). rewrite csum_app.
    assert (T : csum (length l) (fun t => if Nat.eqb i ((s1 + (1 + t)) / (E * 3) * 3 + (s1 + (1 + t)) mod 3) then phase_term axes q scart ucart fc uxyz (s1 + (1 + t)) (nth (1 + t) (a :: l) 0%Z) j else RtoC 0) =
                csum (length l) (fun t => if Nat.eqb i ((S s1 + t) / (E * 3) * 3 + (S s1 + t) mod 3) then phase_term axes q scart ucart fc uxyz (S s1 + t) (nth t l 0%Z) j else RtoC 0)).
    { apply csum_ext. intros t _. replace (s1 + (1 + t)) with (S s1 + t) by lia. reflexivity. }
    rewrite T. cbn [csum nth]. rewrite Nat.add_0_r. destruct (Nat.leb_spec 0 j); [|lia]. destruct (Nat.ltb_spec j (0 + length uxyz)); [|lia]. rewrite !andb_true_r, Nat.sub_0_r.
    destruct (Nat.eqb i (s1 / (E * 3) * 3 + s1 mod 3)); [|ring].
    unfold phase_term. replace (Z.to_nat (a * 3 + Z.of_nat (s1 mod 3))) with (Z.to_nat a * 3 + s1 mod 3) by lia. ring.
Qed.

(** Regrouping by row: row 3a+al collects exactly the copies of atom a. *)
Lemma row_regroup (N E a al : nat) (f : nat -> C) : 0 < E -> a < N -> al < 3 ->
  csum (N * (E * 3)) (fun t => if Nat.eqb (3 * a + al) ((t / (E * 3)) * 3 + t mod 3) then f t else RtoC 0) =
  csum E (fun k => f (3 * (E * a + k) + al)).
Proof.
  intros HE Ha Hal. rewrite csum_mul.
  assert (DV : forall a' k, k < E * 3 -> ((E * 3) * a' + k) / (E * 3) = a' /\ ((E * 3) * a' + k) mod 3 = k mod 3).
  { intros a' k Hk. split.
    - symmetry. apply (Nat.div_unique _ _ a' k); lia.
    - replace (E * 3 * a' + k) with (k + (E * a') * 3) by lia. apply Nat.mod_add. lia. }
  rewrite (csum_single N a).
  - rewrite csum_mul. apply csum_ext. intros k Hk. rewrite (csum_single 3 al).
    + destruct (DV a (3 * k + al) ltac:(lia)) as (-> & ->). replace ((3 * k + al) mod 3) with al by (replace (3 * k + al) with (al + k * 3) by lia; rewrite Nat.mod_add by lia; symmetry; apply Nat.mod_small; exact Hal).
      replace (a * 3 + al) with (3 * a + al) by lia. rewrite Nat.eqb_refl. f_equal. lia.
    + exact Hal.
    + intros i Hi Hne. destruct (DV a (3 * k + i) ltac:(lia)) as (-> & ->).
      replace ((3 * k + i) mod 3) with i by (replace (3 * k + i) with (i + k * 3) by lia; rewrite Nat.mod_add by lia; symmetry; apply Nat.mod_small; exact Hi).
      destruct (Nat.eqb_spec (3 * a + al) (a * 3 + i)); [lia|reflexivity].
  - exact Ha.
  - intros a' Ha' Hne. apply csum_zero. intros k Hk. destruct (DV a' k Hk) as (-> & ->).
    pose proof (Nat.mod_upper_bound k 3 ltac:(lia)). destruct (Nat.eqb_spec (3 * a + al) (a' * 3 + k mod 3)); [lia|reflexivity].
Qed.
