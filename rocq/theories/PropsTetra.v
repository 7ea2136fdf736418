(** Weights of the linear tetrahedron method: C46 and the one-simplex part of C47. *)
From Coquelicot Require Import Coquelicot.
From Coq Require Import Reals Lra Bool Lia Arith List Sorted Permutation.
From Verif Require Import Base Thermal Band Dos PropsThermal.
Import ListNotations.
Local Open Scope list_scope.
Local Open Scope nat_scope.

(** * Specification *)
(** One weight per vertex; they are finite, non-negative, add up to one, and interpolating the
    frequencies of the vertices with them gives the frequency asked for; the density is finite
    and not negative. *)
Definition proper_weights (w : weights) (f : R) (ws : list R) : Prop :=
  exists g l, w = Some (Some g, map Some l) /\ length l = length ws /\ (0 <= g)%R /\ Forall (fun x => 0 <= x)%R l /\
    sumR l = 1%R /\ sumR (map (fun x => fst x * snd x)%R (combine l ws)) = f.
(** ascending frequencies at the vertices *)
Definition asc (ws : list R) : Prop := Sorted Rle ws.

(** * Proofs *)
Lemma between_true a f b : between a f b = true <-> (a <= f < b)%R.
Proof. unfold between. destruct (Rle_dec a f); [destruct (Rlt_dec f b)|]; split; intros; try discriminate; try tauto; lra. Qed.
Lemma between_false a f b : between a f b = false <-> (f < a \/ b <= f)%R.
Proof. unfold between. destruct (Rle_dec a f); [destruct (Rlt_dec f b)|]; split; intros; try discriminate; try tauto; lra. Qed.
Lemma odiv_ok a b : b <> 0%R -> odiv (Some a) (Some b) = Some (a / b)%R.
Proof. intros H. unfold odiv, obind. apply np_div_ok. exact H. Qed.
Lemma div_nonneg a b : (0 <= a -> 0 < b -> 0 <= a / b)%R.
Proof. intros. apply Rmult_le_pos; [assumption|left; apply Rinv_0_lt_compat; assumption]. Qed.
Lemma div_nonneg' a b : (a <= 0 -> b < 0 -> 0 <= a / b)%R.
Proof. intros. replace (a / b)%R with ((- a) / (- b))%R by (field; lra). apply div_nonneg; lra. Qed.

Ltac opt := repeat (unfold num; cbn [osub oadd omul obind]; rewrite ?odiv_ok by lra).
Ltac pos := repeat first [lra | (apply div_nonneg; [|lra]) | (apply div_nonneg'; [|lra]) | apply Rplus_le_le_0_compat | apply Rmult_le_pos].

Theorem weights_1d : forall f w0 w1, (w0 <= w1)%R ->
  ((w0 <= f < w1)%R -> proper_weights (weights1 f w0 w1) f [w0; w1]) /\
  (~ (w0 <= f < w1)%R -> weights1 f w0 w1 = None).
Proof.
  intros f w0 w1 H. split; intros B; unfold weights1.
  - rewrite (proj2 (between_true _ _ _) B). opt. eexists _, [_; _]. cbn [map length sumR combine fst snd]. split; [reflexivity|]. split; [reflexivity|].
    split; [pos|]. split; [repeat first [apply Forall_cons | apply Forall_nil]; pos|]. split; field; lra.
  - destruct (between w0 f w1) eqn:E; [|reflexivity]. apply between_true in E. contradiction.
Qed.
Print Assumptions weights_1d.

Theorem weights_2d : forall f w0 w1 w2, (w0 <= w1 <= w2)%R ->
  ((w0 <= f < w2)%R -> proper_weights (weights2 f w0 w1 w2) f [w0; w1; w2]) /\
  (~ (w0 <= f < w2)%R -> weights2 f w0 w1 w2 = None).
Proof.
  intros f w0 w1 w2 H. split; intros B; unfold weights2; cbn zeta.
  - destruct (between w0 f w1) eqn:E0; [|destruct (between w1 f w2) eqn:E1].
    + apply between_true in E0. opt. eexists _, [_; _; _]. cbn [map length sumR combine fst snd]. split; [reflexivity|]. split; [reflexivity|].
      split; [pos|]. split; [repeat first [apply Forall_cons | apply Forall_nil]; pos|]. split; field; lra.
    + apply between_true in E1. opt. eexists _, [_; _; _]. cbn [map length sumR combine fst snd]. split; [reflexivity|]. split; [reflexivity|].
      split; [pos|]. split; [repeat first [apply Forall_cons | apply Forall_nil]; pos|]. split; field; lra.
    + apply between_false in E0, E1. lra.
  - destruct (between w0 f w1) eqn:E0; [apply between_true in E0; lra|].
    destruct (between w1 f w2) eqn:E1; [apply between_true in E1; lra|reflexivity].
Qed.
Print Assumptions weights_2d.

(** In three dimensions the middle branch divides by g, which is zero when the frequency hits a
    doubly degenerate lowest vertex. *)
Theorem weights_3d : forall f w0 w1 w2 w3, (w0 <= w1 <= w2 /\ w2 <= w3)%R -> ~ (w0 = w1 /\ f = w1 /\ w1 < w2)%R ->
  ((w0 <= f < w3)%R -> proper_weights (weights3 f w0 w1 w2 w3) f [w0; w1; w2; w3]) /\
  (~ (w0 <= f < w3)%R -> weights3 f w0 w1 w2 w3 = None).
Proof.
  intros f w0 w1 w2 w3 H ND. split; intros B; unfold weights3; cbn zeta.
  - destruct (between w0 f w1) eqn:E0; [|destruct (between w1 f w2) eqn:E1; [|destruct (between w2 f w3) eqn:E2]].
    + apply between_true in E0. opt. eexists _, [_; _; _; _]. cbn [map length sumR combine fst snd]. split; [reflexivity|]. split; [reflexivity|].
      split; [pos|]. split; [repeat first [apply Forall_cons | apply Forall_nil]; pos|]. split; field; lra.
    + apply between_true in E1.
      assert (N1 : ((w2 - w1) * (w1 - w3) <> 0)%R) by (apply Rmult_integral_contrapositive; split; lra).
      assert (N2 : ((w2 - w0) * (w1 - w2) <> 0)%R) by (apply Rmult_integral_contrapositive; split; lra).
      unfold num. cbn [osub oadd omul obind]. rewrite ?odiv_ok by lra. cbn [osub oadd omul obind]. rewrite ?odiv_ok by first [exact N1|exact N2|lra]. cbn [osub oadd omul obind].
      set (P := ((f - w1) * (f - w3) / ((w2 - w1) * (w1 - w3)))%R).
      set (Q := ((f - w0) * (f - w2) / ((w2 - w0) * (w1 - w2)))%R).
      assert (EP : P = ((f - w1) / (w2 - w1) * ((f - w3) / (w1 - w3)))%R) by (unfold P; field; split; lra).
      assert (EQ : Q = ((f - w0) / (w2 - w0) * ((f - w2) / (w1 - w2)))%R) by (unfold Q; field; split; lra).
      assert (P0 : (0 <= P)%R) by (rewrite EP; pos).
      assert (Q0 : (0 <= Q)%R) by (rewrite EQ; pos).
      assert (PQ : (0 < P + Q)%R).
      { destruct (Rle_lt_dec f w0) as [L|L].
        - exfalso. apply ND. lra.
        - assert (0 < Q)%R; [|lra]. rewrite EQ. apply Rmult_lt_0_compat; [apply Rdiv_lt_0_compat; lra|].
          replace ((f - w2) / (w1 - w2))%R with ((w2 - f) / (w2 - w1))%R by (field; lra). apply Rdiv_lt_0_compat; lra. }
      assert (G : (3 / (w3 - w0) * (P + Q) <> 0)%R).
      { apply Rgt_not_eq. apply Rmult_lt_0_compat; [apply Rdiv_lt_0_compat; lra|exact PQ]. }
      assert (GP : (0 < 3 / (w3 - w0) * (P + Q))%R) by (apply Rmult_lt_0_compat; [apply Rdiv_lt_0_compat; lra|exact PQ]).
      set (g := (3 / (w3 - w0) * (P + Q))%R) in *.
      repeat (rewrite ?odiv_ok by first [exact G|lra]; cbn [osub oadd omul obind]).
      eexists _, [_; _; _; _]. cbn [map length sumR combine fst snd]. split; [reflexivity|]. split; [reflexivity|]. split; [lra|].
      assert (F2 : forall a b c d x y, (0 <= a / x)%R -> (0 <= b / y)%R -> (0 <= c / d)%R -> (a / x * b / y * c / d = (a / x) * (b / y) * (c / d))%R) by (intros; unfold Rdiv; ring).
      split.
      * repeat first [apply Forall_cons | apply Forall_nil]; (apply Rplus_le_le_0_compat; [pos|]; apply div_nonneg; [|lra]; apply div_nonneg; [|exact GP]; rewrite F2 by pos; pos).
      * split.
        { transitivity (2 / 3 + (P + Q) / (g * (w3 - w0)))%R.
          { rewrite EP, EQ. clearbody g. field. repeat split; lra. }
          unfold g. field. split; lra. }
        transitivity (2 / 3 * f + f * (P + Q) / (g * (w3 - w0)))%R.
        { rewrite EP, EQ. clearbody g. field. repeat split; lra. }
        unfold g. field. split; lra.
    + apply between_true in E2. opt. eexists _, [_; _; _; _]. cbn [map length sumR combine fst snd]. split; [reflexivity|]. split; [reflexivity|].
      split; [pos|]. split; [repeat first [apply Forall_cons | apply Forall_nil]; pos|]. split; field; lra.
    + apply between_false in E0, E1, E2. lra.
  - destruct (between w0 f w1) eqn:E0; [apply between_true in E0; lra|].
    destruct (between w1 f w2) eqn:E1; [apply between_true in E1; lra|].
    destruct (between w2 f w3) eqn:E2; [apply between_true in E2; lra|reflexivity].
Qed.
Print Assumptions weights_3d.

Theorem weights_3d_not_finite : forall w w2 w3, (w < w2 <= w3)%R ->
  exists l, weights3 w w w w2 w3 = Some (Some 0%R, None :: l).
Proof.
  intros w w2 w3 H. unfold weights3. cbn zeta.
  destruct (between w w w) eqn:E0; [apply between_true in E0; lra|].
  rewrite (proj2 (between_true w w w2)) by lra.
  assert (N1 : ((w2 - w) * (w - w3) <> 0)%R) by (apply Rmult_integral_contrapositive; split; lra).
  assert (N2 : ((w2 - w) * (w - w2) <> 0)%R) by (apply Rmult_integral_contrapositive; split; lra).
  unfold num. cbn [osub oadd omul obind]. rewrite ?odiv_ok by lra. cbn [osub oadd omul obind]. rewrite ?odiv_ok by first [exact N1|exact N2|lra]. cbn [osub oadd omul obind].
  replace (3 / (w3 - w) * ((w - w) * (w - w3) / ((w2 - w) * (w - w3)) + (w - w) * (w - w2) / ((w2 - w) * (w - w2))))%R with 0%R by (field; repeat split; lra).
  eexists. f_equal. f_equal. f_equal.
  repeat (rewrite ?odiv_ok by lra; cbn [osub oadd omul obind]).
  assert (Z : forall a, odiv (Some a) (Some 0%R) = None) by (intros a; unfold odiv, obind, np_div; destruct (Req_EM_T 0 0); [reflexivity|contradiction]).
  rewrite Z. reflexivity.
Qed.
Print Assumptions weights_3d_not_finite.

(** ** One simplex carries one state *)
Definition density (w : weights) : R := match w with Some (Some g, _) => g | _ => 0%R end.

Lemma is_RInt_zero (F : R -> R) a b : (forall x, (Rmin a b < x < Rmax a b)%R -> F x = 0%R) -> is_RInt F a b 0%R.
Proof.
  intros H. apply (is_RInt_ext (fun _ => 0%R)); [intros x Hx; symmetry; apply H; exact Hx|].
  assert (Z : forall l, l = 0%R -> is_RInt (fun _ : R => 0%R) a b l -> is_RInt (fun _ : R => 0%R) a b 0%R) by (intros l -> K; exact K).
  refine (Z _ _ (is_RInt_const a b (0%R : R_NormedModule))). cbn. unfold mult. cbn. ring.
Qed.
(** fundamental theorem for a polynomial piece *)
Lemma is_RInt_piece (F G g : R -> R) a b : (a <= b)%R ->
  (forall x, (a < x < b)%R -> F x = g x) -> (forall x, is_derive G x (g x)) -> (forall x, continuous g x) ->
  is_RInt F a b (G b - G a)%R.
Proof.
  intros H E D C. apply (is_RInt_ext g).
  - intros x. rewrite Rmin_left, Rmax_right by exact H. intros Hx. symmetry. apply E. exact Hx.
  - apply (is_RInt_derive G g); intros x _; [apply D|apply C].
Qed.
Ltac cont := match goal with |- continuous ?g ?x => apply (ex_derive_continuous g x); auto_derive; repeat split; lra end.

Lemma integral_1 w0 w1 : (w0 < w1)%R -> is_RInt (fun f => density (weights1 f w0 w1)) w0 w1 1%R.
Proof.
  intros H. set (G := fun f => ((f - w0) / (w1 - w0))%R). replace 1%R with (G w1 - G w0)%R by (unfold G; field; lra).
  apply (is_RInt_piece _ G (fun _ => 1 / (w1 - w0))%R); [lra| | |].
  - intros f Hf. unfold weights1. rewrite (proj2 (between_true _ _ _)) by lra. opt. reflexivity.
  - intros f. unfold G. auto_derive; [lra|field; lra].
  - intros f. apply continuous_const.
Qed.
Lemma integral_2 w0 w1 w2 : (w0 <= w1 <= w2)%R -> (w0 < w2)%R -> is_RInt (fun f => density (weights2 f w0 w1 w2)) w0 w2 1%R.
Proof.
  intros H L.
  assert (A : is_RInt (fun f => density (weights2 f w0 w1 w2)) w0 w1 ((w1 - w0) / (w2 - w0))%R).
  { destruct (Req_dec w0 w1) as [<-|N]; [replace ((w0 - w0) / (w2 - w0))%R with (@zero R_NormedModule) by (cbn; field; lra); apply is_RInt_point|].
    set (G := fun f => ((f - w0) * (f - w0) / (w1 - w0) / (w2 - w0))%R).
    replace ((w1 - w0) / (w2 - w0))%R with (G w1 - G w0)%R by (unfold G; field; lra).
    apply (is_RInt_piece _ G (fun f => 2 * (f - w0) / (w1 - w0) / (w2 - w0))%R); [lra| | |].
    - intros f Hf. unfold weights2. cbn zeta. rewrite (proj2 (between_true w0 f w1)) by lra. opt. reflexivity.
    - intros f. unfold G. auto_derive; [repeat split; lra|field; lra].
    - intros f. cont. }
  assert (B : is_RInt (fun f => density (weights2 f w0 w1 w2)) w1 w2 ((w2 - w1) / (w2 - w0))%R).
  { destruct (Req_dec w1 w2) as [<-|N]; [replace ((w1 - w1) / (w1 - w0))%R with (@zero R_NormedModule) by (cbn; field; lra); apply is_RInt_point|].
    set (G := fun f => (- ((w2 - f) * (w2 - f)) / (w2 - w1) / (w2 - w0))%R).
    replace ((w2 - w1) / (w2 - w0))%R with (G w2 - G w1)%R by (unfold G; field; lra).
    apply (is_RInt_piece _ G (fun f => 2 * (w2 - f) / (w2 - w1) / (w2 - w0))%R); [lra| | |].
    - intros f Hf. unfold weights2. cbn zeta. rewrite (proj2 (between_false w0 f w1)) by lra. rewrite (proj2 (between_true w1 f w2)) by lra. opt. reflexivity.
    - intros f. unfold G. auto_derive; [repeat split; lra|field; lra].
    - intros f. cont. }
  replace 1%R with (plus ((w1 - w0) / (w2 - w0)) ((w2 - w1) / (w2 - w0)))%R by (cbn; field; lra).
  exact (is_RInt_Chasles _ _ _ _ _ _ A B).
Qed.
Lemma integral_3 w0 w1 w2 w3 : (w0 <= w1 <= w2 /\ w2 <= w3)%R -> (w0 < w3)%R -> is_RInt (fun f => density (weights3 f w0 w1 w2 w3)) w0 w3 1%R.
Proof.
  intros H L.
  assert (A : is_RInt (fun f => density (weights3 f w0 w1 w2 w3)) w0 w1 ((w1 - w0) * ((w1 - w0) / (w2 - w0)) / (w3 - w0))%R).
  { destruct (Req_dec w0 w1) as [<-|N]; [replace ((w0 - w0) * ((w0 - w0) / (w2 - w0)) / (w3 - w0))%R with (@zero R_NormedModule) by (cbn; unfold Rdiv; ring); apply is_RInt_point|].
    set (G := fun f => ((f - w0) * (f - w0) * (f - w0) / (w1 - w0) / (w2 - w0) / (w3 - w0))%R).
    replace ((w1 - w0) * ((w1 - w0) / (w2 - w0)) / (w3 - w0))%R with (G w1 - G w0)%R by (unfold G; field; lra).
    apply (is_RInt_piece _ G (fun f => 3 * ((f - w0) * (f - w0)) / (w1 - w0) / (w2 - w0) / (w3 - w0))%R); [lra| | |].
    - intros f Hf. unfold weights3. cbn zeta. rewrite (proj2 (between_true w0 f w1)) by lra. opt. reflexivity.
    - intros f. unfold G. auto_derive; [repeat split; lra|field; lra].
    - intros f. cont. }
  assert (C : is_RInt (fun f => density (weights3 f w0 w1 w2 w3)) w2 w3 ((w3 - w2) * ((w3 - w2) / (w3 - w1)) / (w3 - w0))%R).
  { destruct (Req_dec w2 w3) as [<-|N]; [replace ((w2 - w2) * ((w2 - w2) / (w2 - w1)) / (w2 - w0))%R with (@zero R_NormedModule) by (cbn; unfold Rdiv; ring); apply is_RInt_point|].
    set (G := fun f => (- ((w3 - f) * (w3 - f) * (w3 - f)) / (w3 - w0) / (w3 - w1) / (w3 - w2))%R).
    replace ((w3 - w2) * ((w3 - w2) / (w3 - w1)) / (w3 - w0))%R with (G w3 - G w2)%R by (unfold G; field; lra).
    apply (is_RInt_piece _ G (fun f => 3 * ((w3 - f) * (w3 - f)) / (w3 - w0) / (w3 - w1) / (w3 - w2))%R); [lra| | |].
    - intros f Hf. unfold weights3. cbn zeta. rewrite (proj2 (between_false w0 f w1)) by lra. rewrite (proj2 (between_false w1 f w2)) by lra.
      rewrite (proj2 (between_true w2 f w3)) by lra. opt. reflexivity.
    - intros f. unfold G. auto_derive; [repeat split; lra|field; lra].
    - intros f. cont. }
  assert (B : is_RInt (fun f => density (weights3 f w0 w1 w2 w3)) w1 w2
     (1 - (w1 - w0) * ((w1 - w0) / (w2 - w0)) / (w3 - w0) - (w3 - w2) * ((w3 - w2) / (w3 - w1)) / (w3 - w0))%R).
  { destruct (Req_dec w1 w2) as [<-|N].
    - replace (1 - (w1 - w0) * ((w1 - w0) / (w1 - w0)) / (w3 - w0) - (w3 - w1) * ((w3 - w1) / (w3 - w1)) / (w3 - w0))%R with (@zero R_NormedModule); [apply is_RInt_point|].
      assert (X : forall x, (x * (x / x) = x)%R) by (intros x; destruct (Req_dec x 0) as [->|Nx]; [ring|field; exact Nx]). rewrite !X. cbn. field. lra.
    - set (G := fun f => (3 / (w3 - w0) * ((f * f * f / 3 - (w1 + w3) * (f * f) / 2 + w1 * w3 * f) / ((w2 - w1) * (w1 - w3))
                        + (f * f * f / 3 - (w0 + w2) * (f * f) / 2 + w0 * w2 * f) / ((w2 - w0) * (w1 - w2))))%R).
      assert (N1 : ((w2 - w1) * (w1 - w3) <> 0)%R) by (apply Rmult_integral_contrapositive; split; lra).
      assert (N2 : ((w2 - w0) * (w1 - w2) <> 0)%R) by (apply Rmult_integral_contrapositive; split; lra).
      replace (1 - (w1 - w0) * ((w1 - w0) / (w2 - w0)) / (w3 - w0) - (w3 - w2) * ((w3 - w2) / (w3 - w1)) / (w3 - w0))%R with (G w2 - G w1)%R by (unfold G; field; repeat split; lra).
      apply (is_RInt_piece _ G (fun f => 3 / (w3 - w0) * ((f - w1) * (f - w3) / ((w2 - w1) * (w1 - w3)) + (f - w0) * (f - w2) / ((w2 - w0) * (w1 - w2))))%R); [lra| | |].
      + intros f Hf. unfold weights3. cbn zeta. rewrite (proj2 (between_false w0 f w1)) by lra. rewrite (proj2 (between_true w1 f w2)) by lra.
        unfold num. cbn [osub oadd omul obind]. rewrite ?odiv_ok by first [exact N1|exact N2|lra]. cbn [osub oadd omul obind]. reflexivity.
      + intros f. unfold G. auto_derive; [repeat split; first [exact N1|exact N2|lra]|field; repeat split; lra].
      + intros f. match goal with |- continuous ?g ?x => apply (ex_derive_continuous g x) end. auto_derive. repeat split; first [exact N1|exact N2|lra]. }
  replace 1%R with (plus (plus ((w1 - w0) * ((w1 - w0) / (w2 - w0)) / (w3 - w0)) (1 - (w1 - w0) * ((w1 - w0) / (w2 - w0)) / (w3 - w0) - (w3 - w2) * ((w3 - w2) / (w3 - w1)) / (w3 - w0)))
     ((w3 - w2) * ((w3 - w2) / (w3 - w1)) / (w3 - w0)))%R by (cbn; ring).
  exact (is_RInt_Chasles _ _ _ _ _ _ (is_RInt_Chasles _ _ _ _ _ _ A B) C).
Qed.

Lemma weights_of_outside f ws : asc ws -> ~ (nth 0 ws 0 <= f < last ws 0)%R -> weights_of f ws = None.
Proof.
  intros S O. destruct ws as [|w0 [|w1 [|w2 [|w3 [|? ?]]]]]; try reflexivity; cbn [weights_of nth last] in *.
  - apply weights_1d; [|exact O]. inversion S as [|? ? S1 H1]; subst. inversion H1; assumption.
  - inversion S as [|? ? S1 H1]; subst. inversion S1 as [|? ? S2 H2]; subst. inversion H1; inversion H2; subst. apply weights_2d; [lra|exact O].
  - inversion S as [|? ? S1 H1]; subst. inversion S1 as [|? ? S2 H2]; subst. inversion S2 as [|? ? S3 H3]; subst. inversion H1; inversion H2; inversion H3; subst.
    unfold weights3. cbn zeta.
    destruct (between w0 f w1) eqn:E0; [apply between_true in E0; lra|].
    destruct (between w1 f w2) eqn:E1; [apply between_true in E1; lra|].
    destruct (between w2 f w3) eqn:E2; [apply between_true in E2; lra|reflexivity].
Qed.

Theorem simplex_states : forall ws a b, 2 <= length ws <= 4 -> asc ws -> (nth 0 ws 0 < last ws 0)%R ->
  (a <= nth 0 ws 0)%R -> (last ws 0 <= b)%R ->
  is_RInt (fun f => density (weights_of f ws)) a b 1%R.
Proof.
  intros ws a b LN S L A B.
  assert (I : is_RInt (fun f => density (weights_of f ws)) (nth 0 ws 0%R) (last ws 0%R) 1%R).
  { destruct ws as [|w0 [|w1 [|w2 [|w3 [|? ?]]]]]; cbn [length] in LN; try lia; cbn [weights_of nth last] in *.
    - apply integral_1; exact L.
    - inversion S as [|? ? S1 H1]; subst. inversion S1 as [|? ? S2 H2]; subst. inversion H1; inversion H2; subst. apply integral_2; [lra|exact L].
    - inversion S as [|? ? S1 H1]; subst. inversion S1 as [|? ? S2 H2]; subst. inversion S2 as [|? ? S3 H3]; subst. inversion H1; inversion H2; inversion H3; subst.
      apply integral_3; [lra|exact L]. }
  assert (I0 : is_RInt (fun f => density (weights_of f ws)) a (nth 0 ws 0%R) 0%R).
  { apply is_RInt_zero. intros f. rewrite Rmin_left, Rmax_right by exact A. intros Hf. rewrite weights_of_outside; [reflexivity|exact S|lra]. }
  assert (I1 : is_RInt (fun f => density (weights_of f ws)) (last ws 0%R) b 0%R).
  { apply is_RInt_zero. intros f. rewrite Rmin_left, Rmax_right by exact B. intros Hf. rewrite weights_of_outside; [reflexivity|exact S|lra]. }
  replace 1%R with (plus (plus 0 1) 0)%R by (cbn; ring).
  exact (is_RInt_Chasles _ _ _ _ _ _ (is_RInt_Chasles _ _ _ _ _ _ I0 I) I1).
Qed.
Print Assumptions simplex_states.

(** A concrete tetrahedron and triangle meet the hypotheses. *)
Example simplex_example : proper_weights (weights3 (5 / 2)%R 1 2 3 4) (5 / 2)%R [1; 2; 3; 4]%R /\ proper_weights (weights2 2%R 1 2 3) 2%R [1; 2; 3]%R /\
  is_RInt (fun f => density (weights_of f [1; 2; 3; 4]%R)) 0%R 10%R 1%R.
Proof.
  split; [apply weights_3d; lra|]. split; [apply weights_2d; lra|].
  apply simplex_states; cbn; try lra; try lia. unfold asc. repeat constructor; lra.
Qed.
