(** Property theorems: the commensurate enlargement (C68).  Model: Frac.v. *)
From Coq Require Import ZArith QArith Qcanon Qabs Bool Lia Lra Lqa List.
From Verif Require Import Base Args Frac.
Import ListNotations.
Local Open Scope list_scope.
Local Open Scope Z_scope.

(** Specification: the distance of the number x to the fraction r/s. *)
Definition away (x : Qc) (r s : Z) : Q := Qabs ((r # Z.to_pos s) - this x).
(** y is the fraction closest to x among those with denominator at most m, and of two
    closest ones the one with the smaller denominator. *)
Definition best_fraction (m : Z) (x y : Qc) : Prop :=
  Zpos (Qden (this y)) <= m /\
  forall r s, 1 <= s <= m ->
    (Qabs (this y - this x) <= away x r s)%Q /\
    ((Qabs (this y - this x) == away x r s)%Q -> Zpos (Qden (this y)) <= s).

Section Loop.
  Variables (m N D : Z).
  Definition final (r : Z * Z * Z * Z) : Prop :=
    let '(p0, q0, p1, q1) := r in
    exists n d, N = n * p1 + d * p0 /\ D = n * q1 + d * q0 /\
      (p1 * q0 - p0 * q1 = 1 \/ p1 * q0 - p0 * q1 = -1) /\
      0 < d /\ 0 <= q0 <= m /\ 1 <= q1 <= m /\ m < q0 + (n / d) * q1.

  Lemma loop_final : Z.gcd N D = 1 -> m < D -> forall fuel p0 q0 p1 q1 n d,
    (Z.to_nat d < fuel)%nat -> 0 < d <= n ->
    N = n * p1 + d * p0 -> D = n * q1 + d * q0 ->
    (p1 * q0 - p0 * q1 = 1 \/ p1 * q0 - p0 * q1 = -1) ->
    0 <= q0 <= m -> 1 <= q1 <= m ->
    exists r, limit_loop fuel m p0 q0 p1 q1 n d = Ok r /\ final r.
  Proof.
    intros G MD. induction fuel as [|fuel IH]; intros p0 q0 p1 q1 n d F Dn EN ED Det Q0 Q1; [lia|].
    cbn [limit_loop]. destruct (Z.eqb_spec d 0) as [->|_]; [lia|].
    destruct (Z.ltb_spec m (q0 + n / d * q1)) as [L|L].
    - eexists; split; [reflexivity|]. cbn. exists n, d. repeat split; try assumption; lia.
    - pose proof (Z.div_mod n d ltac:(lia)) as DM. pose proof (Z.mod_pos_bound n d ltac:(lia)) as MB.
      assert (A1 : 1 <= n / d) by (apply Z.div_le_lower_bound; lia).
      assert (R : n - n / d * d = n mod d) by lia.
      apply IH.
      + rewrite R. lia.
      + rewrite R. split; [|lia]. destruct (Z.eq_dec (n mod d) 0) as [E|E]; [|lia]. exfalso.
        rewrite E in DM.
        assert (DD : (d | Z.gcd N D)).
        { apply Z.gcd_greatest; [exists (n / d * p1 + p0)|exists (n / d * q1 + q0)]; nia. }
        rewrite G in DD. apply Z.divide_1_r_nonneg in DD; [|lia]. subst d. nia.
      + nia.
      + nia.
      + destruct Det; [right|left]; nia.
      + lia.
      + nia.
  Qed.

  Lemma loop_start : Z.gcd N D = 1 -> 1 <= m -> m < D ->
    exists r, limit_loop (S (Z.to_nat D)) m 0 1 1 0 N D = Ok r /\ final r.
  Proof.
    intros G M MD. cbn [limit_loop]. destruct (Z.eqb_spec D 0) as [->|_]; [lia|].
    replace (1 + N / D * 0) with 1 by lia. destruct (Z.ltb_spec m 1) as [L|_]; [lia|].
    pose proof (Z.div_mod N D ltac:(lia)) as DM. pose proof (Z.mod_pos_bound N D ltac:(lia)) as MB.
    assert (R : N - N / D * D = N mod D) by lia.
    apply loop_final; try assumption; rewrite ?R; try lia.
    split; [|lia]. destruct (Z.eq_dec (N mod D) 0) as [E|E]; [|lia]. exfalso.
    assert (DD : (D | Z.gcd N D)).
    { apply Z.gcd_greatest; [exists (N / D); nia|apply Z.divide_refl]. }
    rewrite G in DD. apply Z.divide_1_r_nonneg in DD; lia.
  Qed.
End Loop.

(** distances as integers: |p/q - N/D| = |p D - N q| / (q D) *)
Lemma away_Z x p q : 0 < q ->
  (away x p q == Z.abs (p * Zpos (Qden (this x)) - Qnum (this x) * q) # (Z.to_pos q * Qden (this x)))%Q.
Proof.
  intro Hq. unfold away. destruct x as [[N D] c]. cbn [this Qnum Qden].
  unfold Qabs, Qminus, Qplus, Qopp, Qeq. cbn [Qnum Qden]. rewrite Z2Pos.id by lia.
  replace (p * Z.pos D + - N * q) with (p * Z.pos D - N * q) by lia. reflexivity.
Qed.
Lemma away_le x p q p' q' : 0 < q -> 0 < q' ->
  ((away x p q <= away x p' q')%Q <->
   Z.abs (p * Zpos (Qden (this x)) - Qnum (this x) * q) * q' <= Z.abs (p' * Zpos (Qden (this x)) - Qnum (this x) * q') * q).
Proof.
  intros A B. rewrite !away_Z by assumption. unfold Qle. cbn [Qnum Qden].
  rewrite !Pos2Z.inj_mul, !Z2Pos.id by lia. nia.
Qed.
Lemma away_eq x p q p' q' : 0 < q -> 0 < q' ->
  ((away x p q == away x p' q')%Q <->
   Z.abs (p * Zpos (Qden (this x)) - Qnum (this x) * q) * q' = Z.abs (p' * Zpos (Qden (this x)) - Qnum (this x) * q') * q).
Proof.
  intros A B. rewrite !away_Z by assumption. unfold Qeq. cbn [Qnum Qden].
  rewrite !Pos2Z.inj_mul, !Z2Pos.id by lia. split; intro; nia.
Qed.

Lemma fraction_this p q : 0 < q -> (this (fraction p q) == p # Z.to_pos q)%Q.
Proof. intro. unfold fraction, Q2Qc. cbn [this]. apply Qred_correct. Qed.
Lemma fraction_away x p q : 0 < q -> (Qabs (this (fraction p q) - this x) == away x p q)%Q.
Proof. intro H. unfold away. rewrite (fraction_this p q H). reflexivity. Qed.
Lemma absdiff x y : (this (Qcabs_diff y x) == Qabs (this y - this x))%Q.
Proof.
  unfold Qcabs_diff. destruct (Qcltb y x) eqn:E.
  - apply Qcltb_lt in E. unfold Qclt in E. rewrite Qabs_neg.
    + unfold Qcminus, Qcplus, Qcopp, Q2Qc. cbn [this]. rewrite !Qred_correct. lra.
    + lra.
  - assert (H : ~ (y < x)%Qc) by (rewrite <- Qcltb_lt; congruence).
    unfold Qclt in H. rewrite Qabs_pos.
    + unfold Qcminus, Qcplus, Qcopp, Q2Qc. cbn [this]. rewrite !Qred_correct. lra.
    + lra.
Qed.
Lemma fraction_den p q : 0 < q -> denominator (fraction p q) * Z.gcd p q = q.
Proof.
  intro H. unfold denominator, fraction, Q2Qc. cbn [this]. unfold Qred.
  pose proof (Z.ggcd_gcd p (Zpos (Z.to_pos q))) as G. pose proof (Z.ggcd_correct_divisors p (Zpos (Z.to_pos q))) as C.
  destruct (Z.ggcd p (Zpos (Z.to_pos q))) as (g, (aa, bb)). cbn [fst snd] in *. destruct C as [C1 C2].
  rewrite Z2Pos.id in * by lia. subst g. cbn [Qden].
  assert (0 <= Z.gcd p q) by apply Z.gcd_nonneg.
  rewrite Z2Pos.id by nia. nia.
Qed.
Lemma fraction_den_unit p q a b : 0 < q -> p * a - b * q = 1 \/ p * a - b * q = -1 -> denominator (fraction p q) = q.
Proof.
  intros H E. pose proof (fraction_den p q H) as F.
  assert (G : (Z.gcd p q | 1)).
  { destruct E as [E|E].
    - rewrite <- E. apply Z.divide_sub_r; [apply Z.divide_mul_l, Z.gcd_divide_l|apply Z.divide_mul_r, Z.gcd_divide_r].
    - replace 1 with (b * q - p * a) by lia. apply Z.divide_sub_r; [apply Z.divide_mul_r, Z.gcd_divide_r|apply Z.divide_mul_l, Z.gcd_divide_l]. }
  apply Z.divide_1_r_nonneg in G; [|apply Z.gcd_nonneg]. rewrite G in F. lia.
Qed.

(** The arithmetic core: with b2 = p/q, b1 = P/Q adjacent, x between them. *)
Lemma core (N D p q P Q c e s r : Z) (sg : Z) :
  sg * sg = 1 -> p * Q - P * q = sg -> 0 < q -> 0 < Q -> 0 < e -> e <= c ->
  P * D - N * Q = - sg * c -> p * D - N * q = sg * e ->
  1 <= s < Q + q ->
  (e * Q <= c * q -> (e * s <= Z.abs (r * D - N * s) * q /\ (e * s = Z.abs (r * D - N * s) * q -> q <= s))) /\
  (c * q < e * Q -> (c * s <= Z.abs (r * D - N * s) * Q /\ (c * s = Z.abs (r * D - N * s) * Q -> Q <= s))).
Proof.
  intros S2 Det Hq HQ He Hc E1 E2 Hs.
  set (u := sg * (p * s - q * r)). set (v := sg * (r * Q - s * P)).
  assert (Es : s = u * Q + v * q).
  { unfold u, v. transitivity ((sg * (p * Q - P * q)) * s); [rewrite Det, S2; ring|ring]. }
  assert (Er : r = u * P + v * p).
  { unfold u, v. transitivity ((sg * (p * Q - P * q)) * r); [rewrite Det, S2; ring|ring]. }
  assert (Ed : r * D - N * s = sg * (v * e - u * c)).
  { rewrite Es, Er. transitivity (u * (P * D - N * Q) + v * (p * D - N * q)); [ring|]. rewrite E1, E2. ring. }
  assert (Ab : Z.abs (r * D - N * s) = Z.abs (v * e - u * c)).
  { rewrite Ed, Z.abs_mul. replace (Z.abs sg) with 1 by nia. lia. }
  rewrite Ab. clear Ab Ed Er E1 E2 Det. clearbody u v.
  assert (Cases : (u <= 0 /\ 1 <= v) \/ (v <= 0 /\ 1 <= u)) by nia.
  destruct Cases as [[U V]|[V U]].
  - rewrite Z.abs_eq by nia. split; intro Hy.
    + split; [nia|]. intro Eq.
      assert (u = 0) by nia. nia.
    + split; [nia|]. intro Eq. exfalso. nia.
  - rewrite Z.abs_neq by nia. split; intro Hy.
    + split; [nia|]. intro Eq. assert (v = 0) by nia. subst v. nia.
    + split; [nia|]. intro Eq. assert (v = 0) by nia. nia.
Qed.

Lemma abs_sign s a : 0 < a -> s * s = 1 -> Z.abs (s * a) = a.
Proof. intros A B. assert (s = 1 \/ s = -1) as [-> | ->] by nia; lia. Qed.

Lemma Qc_gcd (x : Qc) : Z.gcd (Qnum (this x)) (Zpos (Qden (this x))) = 1.
Proof. exact (proj1 (Qred_iff _) (canon x)). Qed.

(** C68: limit_denominator always returns the best fraction. *)
Theorem limit_denominator_best : forall m x, 1 <= m ->
  exists y, limit_denominator m x = Ok y /\ best_fraction m x y.
Proof.
  intros m x Hm. unfold limit_denominator.
  set (N := Qnum (this x)). set (D := Zpos (Qden (this x))).
  assert (HD : 0 < D) by (unfold D; lia).
  pose proof (Qc_gcd x) as G. fold N D in G.
  destruct (Z.leb_spec D m) as [L|L].
  - exists x. split; [reflexivity|]. split; [exact L|]. intros r s Hs.
    assert (Z0 : (Qabs (this x - this x) == 0)%Q) by (rewrite Qabs_pos; lra).
    rewrite Z0. split; [apply Qabs_nonneg|]. intro E.
    rewrite away_Z in E by lia. fold N D in E. unfold Qeq in E. cbn [Qnum Qden] in E.
    assert (E' : r * D = N * s) by lia. clear E.
    fold D. assert (DS : (D | s)).
    { apply (Z.gauss D N s); [rewrite <- E'; apply Z.divide_factor_r|rewrite Z.gcd_comm; exact G]. }
    apply Z.divide_pos_le; [lia|exact DS].
  - destruct (loop_start m N D G Hm L) as (((( p0, q0), p1), q1) & Lp & n & d & EN & ED & Det & Hd & HQ0 & HQ1 & Stop).
    rewrite Lp. cbn [bind]. clear Lp.
    set (k := (m - q0) / q1).
    assert (K0 : 0 <= k) by (apply Z.div_pos; lia).
    pose proof (Z.div_mod (m - q0) q1 ltac:(lia)) as KM. pose proof (Z.mod_pos_bound (m - q0) q1 ltac:(lia)) as KB. fold k in KM.
    assert (Ka : k < n / d) by nia.
    pose proof (Z.mul_div_le n d ltac:(lia)) as ND.
    set (P := p0 + k * p1). set (Q := q0 + k * q1).
    assert (HQ : 0 < Q <= m) by (unfold Q; nia).
    assert (HQs : m < Q + q1) by (unfold Q; nia).
    set (c := n - k * d). assert (Hc : d <= c) by (unfold c; nia).
    set (sg := p1 * q0 - p0 * q1).
    assert (S2 : sg * sg = 1) by (unfold sg in *; destruct Det as [-> | ->]; reflexivity).
    assert (DetQ : p1 * Q - P * q1 = sg) by (unfold P, Q, sg; ring).
    assert (E1 : P * D - N * Q = - sg * c) by (rewrite EN, ED; unfold P, Q, sg, c; ring).
    assert (E2 : p1 * D - N * q1 = sg * d) by (rewrite EN, ED; unfold sg; ring).
    assert (D1 : denominator (fraction P Q) = Q).
    { apply (fraction_den_unit P Q q1 p1); [lia|]. fold sg in Det. lia. }
    assert (D2 : denominator (fraction p1 q1) = q1).
    { apply (fraction_den_unit p1 q1 Q P); [lia|]. fold sg in Det. lia. }
    unfold denominator in D1, D2.
    assert (AP : Z.abs (P * D - N * Q) = c) by (rewrite E1; apply abs_sign; [lia|rewrite Z.mul_opp_opp; exact S2]).
    assert (Ap : Z.abs (p1 * D - N * q1) = d) by (rewrite E2; apply abs_sign; [lia|exact S2]).
    assert (Cmp : Qcltb (Qcabs_diff (fraction P Q) x) (Qcabs_diff (fraction p1 q1) x) = true <-> c * q1 < d * Q).
    { rewrite Qcltb_lt. unfold Qclt. rewrite !absdiff, !fraction_away by lia.
      pose proof (away_le x p1 q1 P Q ltac:(lia) ltac:(lia)) as W. fold N D in W. rewrite AP, Ap in W.
      split; intro X; [apply Z.nle_gt; rewrite <- W; lra|apply Qnot_le_lt; rewrite W; lia]. }
    destruct (Qcltb _ _) eqn:B.
    + assert (Lt : c * q1 < d * Q) by (apply Cmp; reflexivity).
      eexists; split; [reflexivity|]. split; [rewrite D1; lia|]. intros r s Hs.
      destruct (core N D p1 q1 P Q c d s r sg S2 DetQ ltac:(lia) ltac:(lia) Hd Hc E1 E2 ltac:(lia)) as [_ C2].
      destruct (C2 Lt) as [C3 C4]. rewrite D1, fraction_away by lia.
      rewrite away_le, away_eq by lia. fold N D. rewrite AP. split; [lia|]. intro; apply C4; lia.
    + assert (Le : d * Q <= c * q1) by (apply Z.nlt_ge; rewrite <- Cmp; congruence).
      eexists; split; [reflexivity|]. split; [rewrite D2; lia|]. intros r s Hs.
      destruct (core N D p1 q1 P Q c d s r sg S2 DetQ ltac:(lia) ltac:(lia) Hd Hc E1 E2 ltac:(lia)) as [C1 _].
      destruct (C1 Le) as [C3 C4]. rewrite D2, fraction_away by lia.
      rewrite away_le, away_eq by lia. fold N D. rewrite Ap. split; [lia|]. intro; apply C4; lia.
Qed.

(** The best fraction's denominator is unique, so the theorem above determines it. *)
Lemma best_den_unique m x y y' : best_fraction m x y -> best_fraction m x y' -> denominator y = denominator y'.
Proof.
  intros [B1 B2] [B1' B2'].
  assert (Aw : forall z : Qc, (Qabs (this z - this x) == away x (Qnum (this z)) (denominator z))%Q).
  { intro z. unfold away, denominator. rewrite Pos2Z.id. destruct (this z) as [a b]. reflexivity. }
  unfold denominator in *.
  destruct (B2 (Qnum (this y')) (Zpos (Qden (this y'))) ltac:(lia)) as [C1 C2].
  destruct (B2' (Qnum (this y)) (Zpos (Qden (this y))) ltac:(lia)) as [C1' C2'].
  rewrite <- (Aw y') in C1, C2. rewrite <- (Aw y) in C1', C2'.
  assert (E : (Qabs (this y - this x) == Qabs (this y' - this x))%Q) by lra.
  specialize (C2 E). assert (E' : (Qabs (this y' - this x) == Qabs (this y - this x))%Q) by lra. specialize (C2' E'). lia.
Qed.

(** C68: the enlargement of a direction: 1 if not periodic, else between 1 and 100: the
    denominator of the best fraction for the k component. *)
Theorem commensurate_enlargement : forall flag k, exists e, comm_entry flag k = Ok e /\ 1 <= e <= 100 /\
  (flag = 0 -> e = 1) /\
  (flag <> 0 -> (exists y, best_fraction 100 k y /\ e = denominator y) /\ (forall y, best_fraction 100 k y -> e = denominator y)).
Proof.
  intros flag k. unfold comm_entry. destruct (Z.eqb_spec flag 0) as [->|NE].
  - exists 1. repeat split; try lia. all: congruence.
  - destruct (limit_denominator_best 100 k ltac:(lia)) as (y & -> & B). cbn [bind]. exists (denominator y).
    split; [reflexivity|]. split; [split; [unfold denominator; lia|exact (proj1 B)]|]. split; [congruence|].
    intros _. split; [exists y; split; [exact B|reflexivity]|]. intros y' B'. apply (best_den_unique 100 k); assumption.
Qed.

(** C68: the component k is exactly commensurate with its enlargement (k e is an integer)
    if and only if it is a fraction with denominator at most 100. *)
Theorem commensurate_exactly_when_short : forall flag k e, comm_entry flag k = Ok e -> flag <> 0 ->
  ((exists j : Z, (this k * inject_Z e == inject_Z j)%Q) <-> exists r s, 1 <= s <= 100 /\ (this k == r # Z.to_pos s)%Q).
Proof.
  intros flag k e H Fl. destruct (commensurate_enlargement flag k) as (e' & H' & Re & _ & Hb).
  rewrite H in H'. injection H' as <-. destruct (Hb Fl) as [(y & [B1 B2] & Ey) _]. clear Hb. split.
  - intros (j & Hj). exists j, e. split; [exact Re|].
    unfold Qeq in *. cbn [Qnum Qden inject_Z Qmult] in *. rewrite Z2Pos.id by lia. destruct (this k) as [a b]. cbn [Qnum Qden] in *.
    rewrite Pos.mul_1_r in Hj. lia.
  - intros (r & s & Hs & Ek). destruct (B2 r s Hs) as [C _].
    assert (Z0 : (away k r s == 0)%Q) by (unfold away; rewrite Ek; rewrite Qabs_pos; lra).
    rewrite Z0 in C. pose proof (Qabs_nonneg (this y - this k)) as P.
    assert (E0 : (Qabs (this y - this k) == 0)%Q) by lra.
    assert (Eyk : (this y == this k)%Q).
    { revert E0. apply Qabs_case; intros; lra. }
    exists (Qnum (this y)). rewrite <- Eyk, Ey. unfold denominator. destruct (this y) as [a b].
    unfold Qeq, inject_Z, Qmult. cbn [Qnum Qden]. lia.
Qed.

(** C68: a decimal approximation of r/s is recognised when it is closer than 1/(200 s). *)
Theorem near_fraction_recognised : forall flag k r s, flag <> 0 -> 1 <= s <= 100 -> Z.gcd r s = 1 ->
  (away k r s < 1 # Z.to_pos (200 * s))%Q -> comm_entry flag k = Ok s.
Proof.
  intros flag k r s Fl Hs G Hn. destruct (commensurate_enlargement flag k) as (e & -> & Re & _ & Hb). f_equal.
  destruct (Hb Fl) as [(y & [B1 B2] & Ey) _]. clear Hb. destruct (B2 r s Hs) as [C _].
  assert (T : (Qabs (this y - (r # Z.to_pos s)) < 2 * (1 # Z.to_pos (200 * s)))%Q).
  { unfold away in *. revert C Hn. apply Qabs_case; intros ? C Hn; revert C Hn; apply Qabs_case; intros ? C Hn; apply Qabs_case; intros; lra. }
  assert (Cop : Z.gcd (Qnum (this y)) (denominator y) = 1) by exact (Qc_gcd y).
  unfold denominator in *. rewrite Ey in *. destruct (this y) as [a b]. cbn [Qnum Qden] in *.
  unfold Qabs, Qlt, Qmult, Qminus, Qplus, Qopp in T. cbn [Qnum Qden] in T.
  rewrite !Pos2Z.inj_mul, !Z2Pos.id in T by lia.
  assert (Cr : a * s = r * Zpos b) by nia.
  assert (D1 : (Zpos b | s)).
  { apply (Z.gauss _ a); [rewrite Cr; apply Z.divide_factor_r|rewrite Z.gcd_comm; exact Cop]. }
  assert (D2 : (s | Zpos b)).
  { apply (Z.gauss _ r); [rewrite <- Cr; apply Z.divide_factor_r|rewrite Z.gcd_comm; exact G]. }
  apply Z.divide_antisym_nonneg; [lia|lia|exact D1|exact D2].
Qed.

(** Non-vacuity: k = 0.3333 gives 3, k = 0.33 gives 100 (33/100), k = 0.333 gives 3, k = -0.5 gives 2. *)
Example enl_03333 : comm_entry 1 (Q2Qc (3333 # 10000)) = Ok 3. Proof. vm_compute. reflexivity. Qed.
Example enl_033 : comm_entry 1 (Q2Qc (33 # 100)) = Ok 100. Proof. vm_compute. reflexivity. Qed.
Example enl_half : comm_entry 1 (Q2Qc (- (1 # 2))) = Ok 2. Proof. vm_compute. reflexivity. Qed.
Example near_03333 : comm_entry 1 (Q2Qc (3333 # 10000)) = Ok 3.
Proof. apply (near_fraction_recognised 1 _ 1 3); [discriminate|lia|reflexivity|vm_compute; reflexivity]. Qed.
Print Assumptions limit_denominator_best.
Print Assumptions commensurate_enlargement.
Print Assumptions commensurate_exactly_when_short.
Print Assumptions near_fraction_recognised.
