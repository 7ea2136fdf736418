(** Band dispersion: C45. *)
From Coq Require Import Reals Lra ZArith Bool Lia Arith List Sorted.
From Coquelicot Require Import Complex.
From Verif Require Import Base Field Phonon Band.
Import ListNotations.
Local Open Scope list_scope.
Local Open Scope nat_scope.

(** * Specification *)
Definition dist (u v : v3 R) : R := sqrt ((vx u - vx v) ^ 2 + (vy u - vy v) ^ 2 + (vz u - vz v) ^ 2)%R.
(** distance of two k-points given in units of the reciprocal lattice with rows B *)
Definition cart_dist (B : m3 R) (u v : v3 R) : R := dist (vmul u B) (vmul v B).
Definition nearR (a b : R) : Prop := (Rabs (a - b) <= / 10 ^ 8 + / 10 ^ 5 * Rabs b)%R.
Definition vnearR (a b : v3 R) : Prop := nearR (vx a) (vx b) /\ nearR (vy a) (vy b) /\ nearR (vz a) (vz b).
Definition kpt (p : proc) (i : nat) : v3 R := nth i (p_k p) v3z.
Definition last_index (p : proc) : nat := length (p_k p) - 1.

(** * Proofs *)
Lemma dot_dist (u v : v3 R) : sqrt (vdot (vsub u v) (vsub u v)) = dist v u.
Proof. unfold dist. f_equal. unfold vdot, vsub. cbn [vx vy vz fadd fmul fsub Fld_R]. ring. Qed.
Lemma iscloseR_iff a b : iscloseR a b = true <-> nearR a b.
Proof. unfold iscloseR, nearR. destruct (Rle_dec _ _); split; intros; try assumption; try reflexivity; try discriminate; contradiction. Qed.
Lemma allcloseR_iff a b : allcloseR a b = true <-> vnearR a b.
Proof. unfold allcloseR, vnearR. rewrite !andb_true_iff, !iscloseR_iff. tauto. Qed.

Lemma band_loop_spec ks : forall ind prev acc xs ts, band_loop ind prev acc ks = (xs, ts) ->
  length xs = length ks /\
  (forall i, i < length ks -> nth (S i) (acc :: xs) 0%R = (nth i (acc :: xs) 0 + dist (nth i (prev :: ks) v3z) (nth (S i) (prev :: ks) v3z))%R) /\
  (forall t, In t ts <-> exists i, i < length ks /\ t = ind + i /\ vnearR (nth (S i) (prev :: ks) v3z) (nth i (prev :: ks) v3z)) /\
  StronglySorted lt ts.
Proof.
  induction ks as [|k ks IH]; intros ind prev acc xs ts H; cbn [band_loop] in H.
  - injection H as <- <-. cbn [length In]. split; [reflexivity|]. split; [intros i L; lia|]. split; [|constructor].
    intros t. split; [intros []|]. intros (i & L & _). lia.
  - cbn zeta in H. rewrite dot_dist in H. destruct (band_loop (S ind) k _ ks) as [xs' ts'] eqn:E. injection H as <- <-.
    destruct (IH _ _ _ _ _ E) as (L & D & T & S'). cbn [length]. split; [lia|]. split.
    { intros [|i] Hi.
      - reflexivity.
      - cbn [nth length] in *. apply D. lia. }
    assert (T' : forall t, In t ts' -> ind < t) by (intros t Ht; apply T in Ht; destruct Ht as (i & _ & -> & _); lia).
    split.
    + intros t. destruct (allcloseR k prev) eqn:A.
      * cbn [In]. rewrite T. split.
        -- intros [<-|(i & Hi & -> & N)]; [exists 0; cbn; split; [lia|]; split; [lia|apply allcloseR_iff; exact A]|].
           exists (S i). split; [lia|]. split; [lia|exact N].
        -- intros ([|i] & Hi & -> & N); [left; lia|right; exists i; split; [lia|]; split; [lia|exact N]].
      * rewrite T. split.
        -- intros (i & Hi & -> & N). exists (S i). split; [lia|]. split; [lia|exact N].
        -- intros ([|i] & Hi & -> & N); [|exists i; split; [lia|]; split; [lia|exact N]].
           apply allcloseR_iff in N. cbn [nth] in N. congruence.
    + destruct (allcloseR k prev); [|exact S']. constructor; [exact S'|]. apply Forall_forall. exact T'.
Qed.

Lemma band_set_shape p b0 : 2 <= length (p_k p) -> exists xs ts,
  band_loop 1 (kpt p 0) (nth 0 (b_len b0) 0%R) (tl (p_k p)) = (xs, ts) /\ p_k p = kpt p 0 :: tl (p_k p) /\
  band_set p b0 = Ok (mkBand (nth 0 (b_len b0) 0%R :: xs) (b_ticks b0 ++ ts ++ [last_index p]) (map (fun m i j => abs2 (snd m i j)) (p_modes p))).
Proof.
  intros H. unfold band_set, last_index, kpt. destruct (p_k p) as [|k0 [|k1 ks]]; [cbn in H; lia|cbn in H; lia|].
  cbn [nth tl]. destruct (band_loop 1 k0 _ (k1 :: ks)) as [xs ts] eqn:E. exists xs, ts. repeat split.
Qed.

(** ** Abscissa *)
Theorem band_abscissa : forall p, 2 <= length (p_k p) -> exists b, band_set p (band_init p) = Ok b /\
  length (b_len b) = length (p_k p) /\ nth 0 (b_len b) 0%R = 0%R /\
  (forall i, S i < length (p_k p) -> nth (S i) (b_len b) 0%R = (nth i (b_len b) 0 + dist (kpt p i) (kpt p (S i)))%R) /\
  (forall i j, i <= j -> j < length (p_k p) -> (nth i (b_len b) 0 <= nth j (b_len b) 0)%R).
Proof.
  intros p H. destruct (band_set_shape p (band_init p) H) as (xs & ts & E & K & ->).
  assert (S0 : nth 0 (b_len (band_init p)) 0%R = 0%R) by (cbn [b_len band_init]; rewrite K; reflexivity).
  rewrite S0 in *. destruct (band_loop_spec _ _ _ _ _ _ E) as (L & D & _ & _).
  eexists. split; [reflexivity|]. cbn [b_len].
  assert (LK : length (p_k p) = S (length (tl (p_k p)))) by (rewrite K at 1; reflexivity).
  assert (INC : forall i, S i < length (p_k p) -> nth (S i) (0 :: xs)%R 0%R = (nth i (0 :: xs) 0 + dist (kpt p i) (kpt p (S i)))%R).
  { intros i Hi. rewrite D by lia. rewrite <- K. reflexivity. }
  split; [cbn; lia|]. split; [reflexivity|]. split; [exact INC|].
  intros i j Hij Hj. induction Hij as [|j Hij IH]; [lra|]. rewrite INC by exact Hj. specialize (IH ltac:(lia)).
  assert (0 <= dist (kpt p j) (kpt p (S j)))%R by apply sqrt_pos. lra.
Qed.
Print Assumptions band_abscissa.

(** ** Ticks *)
Theorem band_ticks : forall p, 2 <= length (p_k p) -> exists b, band_set p (band_init p) = Ok b /\
  (forall t, In t (b_ticks b) <-> t = 0 \/ t = last_index p \/ (0 < t < length (p_k p) /\ vnearR (kpt p t) (kpt p (t - 1)))) /\
  StronglySorted le (b_ticks b).
Proof.
  intros p H. destruct (band_set_shape p (band_init p) H) as (xs & ts & E & K & ->).
  destruct (band_loop_spec _ _ _ _ _ _ E) as (L & _ & T & SS).
  assert (LK : length (p_k p) = S (length (tl (p_k p)))) by (rewrite K at 1; reflexivity).
  rewrite <- K in T. fold (kpt p) in T.
  eexists. split; [reflexivity|]. cbn [b_ticks band_init].
  assert (TI : forall t, In t ts -> 0 < t < length (p_k p) /\ vnearR (kpt p t) (kpt p (t - 1))).
  { intros t Ht. apply T in Ht. destruct Ht as (i & Hi & -> & N). split; [lia|]. replace (1 + i - 1) with i by lia. exact N. }
  split.
  - intros t. rewrite !in_app_iff. cbn [In]. split.
    + intros [[<-|[]]|[Ht|[<-|[]]]]; [tauto|right; right; apply TI; exact Ht|tauto].
    + intros [->|[->|(B & N)]]; [tauto|tauto|]. right. left. apply T. exists (t - 1). split; [lia|]. split; [lia|].
      replace (S (t - 1)) with t by lia. exact N.
  - cbn [app]. constructor; [|apply Forall_forall; intros; lia].
    assert (BD : Forall (fun t => t <= last_index p) ts) by (apply Forall_forall; intros t Ht; destruct (TI t Ht); unfold last_index; lia).
    clear -SS BD. induction SS as [|t ts SS IH F]; cbn; [repeat constructor|].
    inversion BD; subst. constructor; [apply IH; assumption|]. apply Forall_app. split; [|constructor; [assumption|constructor]].
    apply Forall_forall. rewrite Forall_forall in F. intros x Hx. specialize (F x Hx). lia.
Qed.
Print Assumptions band_ticks.

Theorem band_needs_two_points : forall p b, length (p_k p) < 2 -> band_set p b = Err EUnbound.
Proof. intros p b H. unfold band_set. destruct (p_k p) as [|k0 [|k1 ks]]; cbn in H; try reflexivity; lia. Qed.
Print Assumptions band_needs_two_points.

(** setting twice repeats the ticks (and changes nothing else) *)
Theorem band_set_twice : forall p b b2, band_set p (band_init p) = Ok b -> band_set p b = Ok b2 ->
  b_len b2 = b_len b /\ b_proj b2 = b_proj b /\ b_ticks b2 = b_ticks b ++ tl (b_ticks b).
Proof.
  intros p b b2 H1 H2. assert (L : 2 <= length (p_k p)).
  { destruct (le_lt_dec 2 (length (p_k p))) as [L|L]; [exact L|]. rewrite (band_needs_two_points _ _ L) in H1. discriminate. }
  destruct (band_set_shape p (band_init p) L) as (xs & ts & E & K & Q). rewrite Q in H1.
  destruct (band_set_shape p b L) as (xs2 & ts2 & E2 & _ & Q2). rewrite Q2 in H2. inversion H1; subst b; clear H1. inversion H2; subst b2; clear H2.
  unfold band_init in *. cbn [b_len b_proj b_ticks nth] in *. rewrite E in E2. injection E2 as <- <-. cbn. repeat split; reflexivity.
Qed.
Print Assumptions band_set_twice.

(** ** Units: distances are taken between fractional coordinates *)
Definition isotropic (B : m3 R) (c : R) : Prop :=
  vdot (r1 B) (r1 B) = (c * c)%R /\ vdot (r2 B) (r2 B) = (c * c)%R /\ vdot (r3 B) (r3 B) = (c * c)%R /\
  vdot (r1 B) (r2 B) = 0%R /\ vdot (r1 B) (r3 B) = 0%R /\ vdot (r2 B) (r3 B) = 0%R.
Theorem band_distance_isotropic : forall B c u v, isotropic B c -> (0 <= c)%R -> cart_dist B u v = (c * dist u v)%R.
Proof.
  intros B c [u1 u2 u3] [v1 v2 v3'] (H1 & H2 & H3 & H12 & H13 & H23) Hc. unfold cart_dist, dist.
  replace c with (sqrt (c * c)) at 1 by (apply sqrt_square; exact Hc).
  rewrite <- sqrt_mult_alt by (apply Rle_0_sqr). f_equal.
  destruct B as [[a1 a2 a3] [b1 b2 b3] [c1 c2 c3]]. unfold vdot, vmul, vadd, vscale in *. cbn [r1 r2 r3 vx vy vz fadd fmul Fld_R] in *.
  transitivity ((u1 - v1) ^ 2 * (a1 * a1 + a2 * a2 + a3 * a3) + (u2 - v2) ^ 2 * (b1 * b1 + b2 * b2 + b3 * b3) + (u3 - v3') ^ 2 * (c1 * c1 + c2 * c2 + c3 * c3)
     + 2 * (u1 - v1) * (u2 - v2) * (a1 * b1 + a2 * b2 + a3 * b3) + 2 * (u1 - v1) * (u3 - v3') * (a1 * c1 + a2 * c2 + a3 * c3)
     + 2 * (u2 - v2) * (u3 - v3') * (b1 * c1 + b2 * c2 + b3 * c3))%R; [ring|]. rewrite H1, H2, H3, H12, H13, H23. ring.
Qed.
Print Assumptions band_distance_isotropic.
Theorem band_cartesian_length_refuted : exists p b B, band_set p (band_init p) = Ok b /\ det B <> 0%R /\
  forall c, ~ (forall i, S i < length (p_k p) -> (nth (S i) (b_len b) 0 - nth i (b_len b) 0 = c * cart_dist B (kpt p i) (kpt p (S i)))%R).
Proof.
  set (p := mkProc [V3 0 0 0; V3 (1 / 2) 0 0; V3 (1 / 2) (1 / 2) 0]%R [] 0 [] [1; 1; 0]%Z).
  destruct (band_abscissa p) as (b & E & _ & _ & D & _); [cbn; lia|].
  exists p, b, (M3 (V3 1 0 0) (V3 0 2 0) (V3 0 0 1))%R. split; [exact E|]. split.
  { unfold det, vdot, vcross. cbn [r1 r2 r3 vx vy vz fadd fmul fsub Fld_R]. lra. }
  intros c H. pose proof (H 0 ltac:(cbn; lia)) as A0. pose proof (H 1 ltac:(cbn; lia)) as A1.
  rewrite (D 0) in A0 by (cbn; lia). rewrite (D 1) in A1 by (cbn; lia).
  set (B := (M3 (V3 1 0 0) (V3 0 2 0) (V3 0 0 1))%R) in *.
  assert (SQ : forall x y, (0 <= y)%R -> x = (y * y)%R -> sqrt x = y) by (intros x y Hy ->; apply sqrt_square; exact Hy).
  assert (D0 : dist (kpt p 0) (kpt p 1) = (1 / 2)%R) by (apply SQ; [lra|]; unfold kpt, p; cbn [p_k nth vx vy vz]; lra).
  assert (D1 : dist (kpt p 1) (kpt p 2) = (1 / 2)%R) by (apply SQ; [lra|]; unfold kpt, p; cbn [p_k nth vx vy vz]; lra).
  assert (C0 : cart_dist B (kpt p 0) (kpt p 1) = (1 / 2)%R)
    by (apply SQ; [lra|]; unfold kpt, p, B, vmul, vadd, vscale; cbn [p_k nth r1 r2 r3 vx vy vz]; cbn [fadd fmul Fld_R]; lra).
  assert (C1 : cart_dist B (kpt p 1) (kpt p 2) = 1%R)
    by (apply SQ; [lra|]; unfold kpt, p, B, vmul, vadd, vscale; cbn [p_k nth r1 r2 r3 vx vy vz]; cbn [fadd fmul Fld_R]; lra).
  rewrite D0, C0 in A0. rewrite D1, C1 in A1. lra.
Qed.
Print Assumptions band_cartesian_length_refuted.

(** ** Projection: weights of a mode add up to one when the stored row is normalised *)
Fixpoint sum_to (n : nat) (f : nat -> R) : R := match n with 0 => 0%R | S m => (sum_to m f + f m)%R end.
Theorem band_projection : forall p b, band_set p (band_init p) = Ok b ->
  length (b_proj b) = length (p_modes p) /\
  forall k w v pr i, nth_error (p_modes p) k = Some (w, v) -> nth_error (b_proj b) k = Some pr ->
    (forall j, pr i j = Cmod (v i j) ^ 2 /\ 0 <= pr i j)%R /\
    (sum_to (p_n p) (fun j => Cmod (v i j) ^ 2)%R = 1%R -> sum_to (p_n p) (pr i) = 1%R).
Proof.
  intros p b H. assert (L : 2 <= length (p_k p)).
  { destruct (le_lt_dec 2 (length (p_k p))) as [L|L]; [exact L|]. rewrite (band_needs_two_points _ _ L) in H. discriminate. }
  destruct (band_set_shape p (band_init p) L) as (xs & ts & E & K & Q). rewrite Q in H. injection H as <-. cbn [b_proj].
  split; [apply map_length|]. intros k w v pr i Hm Hp. unfold cmat in *. rewrite nth_error_map, Hm in Hp. cbn [option_map snd] in Hp. injection Hp as <-. unfold abs2.
  split; [intros j; split; [reflexivity|apply pow2_ge_0]|]. intros N. exact N.
Qed.
Print Assumptions band_projection.

Example band_witness : 2 <= length (p_k (mkProc [V3 0 0 0; V3 (1 / 2) 0 0; V3 (1 / 2) 0 0; V3 0 0 0]%R [] 0 [] [1; 1; 0]%Z)).
Proof. cbn. lia. Qed.
