(** Laws of the order test and the floor used in Sym.v, and the elementary facts derived
    from them; the laws hold for both instances. *)
From Coq Require Import ZArith QArith Qcanon Qround Bool Lia Lra Arith Reals setoid_ring.Field List.
From Verif Require Import Base Field Force Sym.
Import ListNotations.
Local Open Scope nat_scope.

(** the laws of <= and floor on exact numbers behind the comparisons of symmetry.py 152, 182, 200, 352, 414. *)
Class NumLaws (A : Type) (F : Fld A) (N : Num A F) : Prop := {
  le_refl : forall x : A, fleb x x = true;
  le_trans : forall x y z : A, fleb x y = true -> fleb y z = true -> fleb x z = true;
  le_antisym : forall x y : A, fleb x y = true -> fleb y x = true -> x = y;
  le_total : forall x y : A, fleb x y = true \/ fleb y x = true;
  le_add : forall x y z : A, fleb x y = true -> fleb (fadd x z) (fadd y z) = true;
  le_mul : forall x y : A, fleb f0 x = true -> fleb f0 y = true -> fleb f0 (fmul x y) = true;
  floor_le : forall x : A, fleb (fofZ (ffloor x)) x = true;
  floor_gt : forall x : A, fleb (fofZ (ffloor x + 1)) x = false }.

(** the laws behind symmetry.py 152-414 hold of the reals. *)
#[export] Instance NumLaws_R : NumLaws R Fld_R Num_R.
Proof.
  constructor; unfold fleb, ffloor, Num_R; intros; cbn in *;
    repeat match goal with
    | H : (if Rle_dec ?a ?b then true else false) = true |- _ => destruct (Rle_dec a b); [clear H|discriminate H]
    | |- (if Rle_dec ?a ?b then true else false) = true => destruct (Rle_dec a b) as [|?N]; [reflexivity|exfalso; apply N]
    | |- (if Rle_dec ?a ?b then true else false) = false => destruct (Rle_dec a b) as [?N|]; [exfalso|reflexivity]
    end.
  - lra.
  - lra.
  - lra.
  - destruct (Rle_dec x y); [left; reflexivity|]. right. destruct (Rle_dec y x); [reflexivity|lra].
  - lra.
  - nra.
  - destruct (archimed x) as (H1 & H2). rewrite minus_IZR. lra.
  - destruct (archimed x) as (H1 & H2). replace (up x - 1 + 1)%Z with (up x) in N by ring. lra.
Qed.

Lemma Qcleb_iff (a b : Qc) : Qcleb a b = true <-> (this a <= this b)%Q.
Proof. unfold Qcleb. apply Qle_bool_iff. Qed.
(** the laws behind symmetry.py 152-414 hold of the rationals. *)
#[export] Instance NumLaws_Qc : NumLaws Qc Fld_Qc Num_Qc.
Proof.
  constructor; unfold fleb, ffloor, Num_Qc; intros.
  - apply Qcleb_iff. apply Qle_refl.
  - apply Qcleb_iff in H, H0. apply Qcleb_iff. eapply Qle_trans; eassumption.
  - apply Qcleb_iff in H, H0. apply Qc_is_canon. apply Qle_antisym; assumption.
  - rewrite !Qcleb_iff. destruct (Qlt_le_dec (this x) (this y)) as [H|H]; [left; now apply Qlt_le_weak|right; exact H].
  - apply Qcleb_iff in H. apply Qcleb_iff. unfold fadd, Fld_Qc. unfold Qcplus, Q2Qc. cbn [this]. rewrite !Qred_correct. apply Qplus_le_compat; [exact H|apply Qle_refl].
  - apply Qcleb_iff in H, H0. apply Qcleb_iff. unfold fmul, f0, Fld_Qc in *. unfold Qcmult, Q2Qc in *. cbn [this] in *. rewrite !Qred_correct in *. apply Qmult_le_0_compat; assumption.
  - apply Qcleb_iff. unfold fofZ, Fld_Qc, Q2Qc. cbn [this]. rewrite Qred_correct. apply Qfloor_le.
  - destruct (Qcleb _ x) eqn:E; [|reflexivity]. exfalso. apply Qcleb_iff in E. unfold fofZ, Fld_Qc, Q2Qc in E. cbn [this] in E. rewrite Qred_correct in E.
    pose proof (Qlt_floor (this x)) as H. apply (Qlt_not_le _ _ H). exact E.
Qed.

Section OrderSec.
  Context {A : Type} {F : Fld A} {N : Num A F} {NL : NumLaws A F N}.
  Add Field fld_order : f_theory.
  Local Infix "+" := fadd. Local Infix "*" := fmul. Local Infix "-" := fsub. Local Notation "- x" := (fopp x).
  (** the comparison <= of symmetry.py 152-414 as a proposition. *)
  Definition le (x y : A) : Prop := fleb x y = true.
  Local Infix "<=" := le.
  Local Notation "0" := f0. Local Notation "1" := f1.

  Lemma le_dec x y : {x <= y} + {~ x <= y}.
  Proof. unfold le. destruct (fleb x y); [left; reflexivity|right; discriminate]. Qed.
  Lemma le_sub x y : x <= y <-> 0 <= y - x.
  Proof.
    split; intros H.
    - pose proof (le_add _ _ (- x) H) as K. replace (x + - x) with 0 in K by ring. replace (y + - x) with (y - x) in K by ring. exact K.
    - pose proof (le_add _ _ x H) as K. replace (0 + x) with x in K by ring. replace (y - x + x) with y in K by ring. exact K.
  Qed.
  Lemma le_plus x y u v : x <= y -> u <= v -> x + u <= y + v.
  Proof.
    intros H K. apply le_trans with (y + u); [now apply le_add|]. replace (y + u) with (u + y) by ring. replace (y + v) with (v + y) by ring. now apply le_add.
  Qed.
  Lemma le_opp x y : x <= y -> - y <= - x.
  Proof. intros H. apply le_sub in H. apply le_sub. replace (- x - - y) with (y - x) by ring. exact H. Qed.
  Lemma le_opp0 x : x <= 0 -> 0 <= - x.
  Proof. intros H. apply le_opp in H. replace (- 0) with 0 in H by ring. exact H. Qed.
  Lemma nle_le x y : ~ x <= y -> y <= x.
  Proof. intros H. destruct (le_total x y) as [K|K]; [contradiction|exact K]. Qed.
  Lemma le_sq x : 0 <= x * x.
  Proof. destruct (le_total 0 x) as [H|H]; [now apply le_mul|]. replace (x * x) with (- x * - x) by ring. apply le_mul; now apply le_opp0. Qed.
  Lemma le_01 : 0 <= 1.
  Proof. replace 1 with (1 * 1) by ring. apply le_sq. Qed.

  Lemma fabs_spec x : (0 <= x /\ fabs x = x) \/ (x <= 0 /\ fabs x = - x).
  Proof. unfold fabs. destruct (fleb 0 x) eqn:E; [left; split; [exact E|reflexivity]|right; split; [|reflexivity]]. apply nle_le. unfold le. congruence. Qed.
  Lemma fabs_pos x : 0 <= fabs x.
  Proof. destruct (fabs_spec x) as [(H & ->)|(H & ->)]; [exact H|now apply le_opp0]. Qed.
  Lemma le_fabs x : x <= fabs x.
  Proof. destruct (fabs_spec x) as [(H & ->)|(H & ->)]; [apply le_refl|]. apply le_trans with 0; [exact H|now apply le_opp0]. Qed.
  Lemma fabs_opp x : fabs (- x) = fabs x.
  Proof.
    destruct (fabs_spec x) as [(H & E)|(H & E)]; destruct (fabs_spec (- x)) as [(K & E')|(K & E')]; rewrite E, E'; try reflexivity; try ring.
    - assert (x = 0). { apply le_antisym; [|exact H]. apply le_opp in K. replace (- - x) with x in K by ring. replace (- 0) with 0 in K by ring. exact K. } subst x. ring.
    - assert (x = 0). { apply le_antisym; [exact H|]. apply le_opp in K. replace (- - x) with x in K by ring. replace (- 0) with 0 in K by ring. exact K. } subst x. ring.
  Qed.
  Lemma fabs_le x e : fabs x <= e <-> x <= e /\ - x <= e.
  Proof.
    split.
    - intros H. split; [apply le_trans with (fabs x); [apply le_fabs|exact H]|]. apply le_trans with (fabs x); [rewrite <- fabs_opp; apply le_fabs|exact H].
    - intros (H & K). destruct (fabs_spec x) as [(_ & ->)|(_ & ->)]; assumption.
  Qed.
  Lemma fabs_triangle x y d e : fabs x <= d -> fabs y <= e -> fabs (x + y) <= d + e.
  Proof.
    intros H K. apply fabs_le in H as (H1 & H2). apply fabs_le in K as (K1 & K2). apply fabs_le. split; [now apply le_plus|]. replace (- (x + y)) with (- x + - y) by ring. now apply le_plus.
  Qed.
  Lemma fabs_sub x y d e : fabs x <= d -> fabs y <= e -> fabs (x - y) <= d + e.
  Proof. intros H K. replace (x - y) with (x + - y) by ring. apply fabs_triangle; [exact H|]. now rewrite fabs_opp. Qed.
  Lemma sq_le x e : fabs x <= e -> x * x <= e * e.
  Proof.
    intros H. apply fabs_le in H as (H1 & H2). apply le_sub. replace (e * e - x * x) with ((e - x) * (e + x)) by ring.
    apply le_mul; [now apply (proj1 (le_sub _ _))|]. replace (e + x) with (e - - x) by ring. now apply (proj1 (le_sub _ _)).
  Qed.
  Lemma fofZ_le a b : (a <= b)%Z -> fofZ a <= fofZ b.
  Proof.
    intros H. apply le_sub. rewrite <- fofZ_sub. assert (K : forall n, 0 <= fofZ (Z.of_nat n)).
    { induction n as [|n IH]; [rewrite fofZ_0; apply le_refl|]. rewrite Nat2Z.inj_succ. unfold Z.succ. rewrite fofZ_add, fofZ_1.
      replace 0 with (0 + 0) by ring. apply le_plus; [exact IH|exact le_01]. }
    replace (b - a)%Z with (Z.of_nat (Z.to_nat (b - a))) by lia. apply K.
  Qed.
  Lemma fofZ_le_inv a b : fofZ a <= fofZ b -> (a <= b)%Z.
  Proof.
    intros H. destruct (Z_le_gt_dec a b) as [K|K]; [exact K|exfalso].
    assert (E : fofZ a = fofZ b) by (apply le_antisym; [exact H|apply fofZ_le; lia]). apply fofZ_inj in E. lia.
  Qed.
  Lemma div_pos x a : 0 <= x -> (0 < a)%Z -> 0 <= fdiv x (fofZ a).
  Proof.
    intros H Ha. assert (Na : fofZ a <> 0) by (intros E; apply fofZ_inj0 in E; lia).
    replace (fdiv x (fofZ a)) with (x * fofZ a * (fdiv 1 (fofZ a) * fdiv 1 (fofZ a))) by (field; exact Na).
    apply le_mul; [apply le_mul; [exact H|]|apply le_sq]. rewrite <- fofZ_0. apply fofZ_le. lia.
  Qed.
  Lemma ffloor_Z a : ffloor (fofZ a) = a.
  Proof.
    pose proof (floor_le (fofZ a)) as H. pose proof (floor_gt (fofZ a)) as K. apply fofZ_le_inv in H.
    destruct (Z_le_gt_dec (ffloor (fofZ a) + 1) a) as [G|G]; [|lia]. exfalso. pose proof (fofZ_le _ _ G) as G'. unfold le in G'. congruence.
  Qed.
  Lemma frint_Z a : frint (fofZ a) = a.
  Proof.
    unfold frint. rewrite ffloor_Z. replace (fofZ a - fofZ a) with 0 by ring. unfold fltb.
    destruct (fleb (fdiv 1 (fofZ 2)) 0) eqn:E; [|reflexivity]. exfalso.
    assert (E2 : fdiv 1 (fofZ 2) = 0) by (apply le_antisym; [exact E|apply div_pos; [exact le_01|lia]]).
    assert (N2 : (fofZ 2 : A) <> 0) by (intros K; apply fofZ_inj0 in K; lia).
    assert (E3 : (1 : A) = fdiv 1 (fofZ 2) * fofZ 2) by (field; exact N2). rewrite E2 in E3. apply (f_1_neq_0 (A := A)). rewrite E3. ring.
  Qed.
End OrderSec.
