(** Proofs about Check.v. *)
From Coq Require Import String Ascii ZArith QArith Qcanon Lqa Bool Lia Arith List.
From Verif Require Import Base Dec Field Args Cell Super Displace DisplaceFacts Check.
Import ListNotations.
Local Open Scope list_scope.
Local Open Scope nat_scope.

(** Qc goals to Q goals *)
Ltac qcq := unfold Qcle, Qclt, Qcminus, Qcplus, Qcmult, Qcopp, Q2Qc in *; cbn [this] in *;
  repeat (rewrite ?Qred_correct in * ).

Definition tol (b : Qc) : Qc := (Q2Qc (1 # 100000000) + Q2Qc (1 # 100000) * (if Qcleb 0 b then b else - b))%Qc.
Lemma isclose_iff a b : isclose a b = true <-> (a - b <= tol b /\ b - a <= tol b)%Qc.
Proof.
  unfold isclose. rewrite Qcleb_le. fold (qcabs b). change (atol + rtol * qcabs b)%Qc with (tol b).
  unfold qcabs. destruct (Qcleb 0 (a - b)) eqn:E.
  - apply Qcleb_le in E. split; [intros H; split; [exact H|]|intros (H & _); exact H].
    apply Qcle_trans with (2 := H). apply Qcle_trans with (2 := E). qcq. lra.
  - assert (N : ~ (0 <= a - b)%Qc) by (rewrite <- Qcleb_le; congruence). apply Qcnot_le_lt in N.
    assert (S : (- (a - b) = b - a)%Qc) by ring. rewrite S. split; [intros H; split; [|exact H]|intros (_ & H); exact H].
    apply Qcle_trans with (2 := H). qcq. lra.
Qed.

Definition matches (files : list (result (list (v3 Qc)))) (m : nat) (e : list (v3 Qc)) : Prop :=
  exists p, nth_error files m = Some (Ok p) /\ allclose e p = Ok true.
Lemma check_one_ok files m e : check_one files m e = Ok tt <-> matches files m e.
Proof.
  unfold check_one, matches, py_nth. destruct (nth_error files m) as [[p|x]|] eqn:E; cbn [of_option bind].
  - destruct (allclose e p) as [[]|x] eqn:A; cbn [bind].
    + split; [eauto|reflexivity].
    + split; [discriminate|]. intros (p' & H & H'). injection H as <-. congruence.
    + split; [discriminate|]. intros (p' & H & H'). injection H as <-. congruence.
  - split; [discriminate|]. intros (p' & H & _). discriminate.
  - split; [discriminate|]. intros (p' & H & _). discriminate.
Qed.

Lemma check_dirs_iff files cur at_ d dirs i row : np_index (length cur) at_ = Ok i -> nth_error cur i = Some row ->
  forall w k, check_dirs files cur (set_nth i w cur) at_ d dirs k = Ok tt <->
    (forall j dir, nth_error dirs j = Some dir ->
       matches files (2 * (k + j)) (set_nth i (vadd row (vscale d dir)) cur) /\
       matches files (2 * (k + j) + 1) (set_nth i (vsub row (vscale d dir)) cur)).
Proof.
  intros Hi Hr. induction dirs as [|dir dirs IH]; intros w k.
  - split; [intros _ [|j] dir H; discriminate|reflexivity].
  - cbn [check_dirs]. rewrite Hi. cbn [bind]. unfold py_nth at 1. rewrite Hr. cbn [of_option bind]. rewrite !set_nth_twice.
    split.
    + destruct (check_one files (2 * k) _) as [[]|e] eqn:E1; cbn [bind]; [|discriminate].
      destruct (check_one files (2 * k + 1) _) as [[]|e] eqn:E2; cbn [bind]; [|discriminate].
      intros H [|j] dir' Hj; cbn [nth_error] in Hj.
      * injection Hj as <-. rewrite Nat.add_0_r. split; apply check_one_ok; assumption.
      * rewrite IH in H. replace (k + S j) with (S k + j) by lia. now apply H.
    + intros H. destruct (H 0 dir eq_refl) as (M1 & M2). rewrite Nat.add_0_r in M1, M2.
      apply check_one_ok in M1. apply check_one_ok in M2. rewrite M1, M2. cbn [bind].
      apply IH. intros j dir' Hj. replace (S k + j) with (k + S j) by lia. apply H. exact Hj.
Qed.

Fixpoint pairs_before (l : list (Z * list (v3 Qc))) (t : nat) : nat :=
  match t, l with S t', (_, dirs) :: r => length dirs + pairs_before r t' | _, _ => 0 end.

Lemma check_targets_iff files cur d E n l : length cur = n * E -> 0 < E -> Forall (fun '(a, _) => 0 <= a < Z.of_nat n)%Z l ->
  forall k, check_targets files cur d (map (fun '(i, dirs) => ((Z.of_nat E * i)%Z, dirs)) l) k = Ok tt <->
    (forall t a dirs j dir, nth_error l t = Some (a, dirs) -> nth_error dirs j = Some dir ->
      forall row, nth_error cur (E * Z.to_nat a) = Some row ->
       matches files (2 * (k + pairs_before l t + j)) (set_nth (E * Z.to_nat a) (vadd row (vscale d dir)) cur) /\
       matches files (2 * (k + pairs_before l t + j) + 1) (set_nth (E * Z.to_nat a) (vsub row (vscale d dir)) cur)).
Proof.
  intros Hl HE. induction l as [|[a dirs] l IH]; intros HF k.
  - split; [intros _ [|t] a dirs j dir H; discriminate|reflexivity].
  - inversion HF as [|? ? Ha HF']; subst. cbn [map check_targets].
    assert (LT : E * Z.to_nat a < length cur).
    { rewrite Hl. replace (n * E) with (E * n) by lia. apply Nat.mul_lt_mono_pos_l; lia. }
    assert (NI : np_index (length cur) (Z.of_nat E * a) = Ok (E * Z.to_nat a)).
    { replace (Z.of_nat E * a)%Z with (Z.of_nat (E * Z.to_nat a)) by lia. apply np_index_nonneg, LT. }
    assert (Hrow : exists row, nth_error cur (E * Z.to_nat a) = Some row).
    { destruct (nth_error cur (E * Z.to_nat a)) eqn:N; [eauto|]. apply nth_error_None in N. lia. }
    destruct Hrow as (row & Hrow).
    pose proof (check_dirs_iff files cur (Z.of_nat E * a)%Z d dirs _ row NI Hrow row k) as CD. rewrite (set_nth_id _ _ _ Hrow) in CD.
    specialize (IH HF' (k + length dirs)).
    split.
    + destruct (check_dirs files cur cur (Z.of_nat E * a) d dirs k) as [[]|e] eqn:E1; cbn [bind]; [|discriminate].
      intros H [|t] a' dirs' j dir Ht Hj row' Hr'; cbn [nth_error pairs_before] in *.
      * injection Ht as <- <-. rewrite Hrow in Hr'. injection Hr' as <-. rewrite Nat.add_0_r. apply CD; auto.
      * rewrite Nat.add_assoc. eapply IH; eauto.
    + intros H. destruct CD as (_ & CD). rewrite CD; cbn [bind].
      * apply IH. intros t a' dirs' j dir Ht Hj row' Hr'. specialize (H (S t) a' dirs' j dir Ht Hj row' Hr').
        cbn [pairs_before] in H. rewrite Nat.add_assoc in H. exact H.
      * intros j dir Hj. specialize (H 0 a dirs j dir eq_refl Hj row Hrow). cbn [pairs_before] in H. rewrite Nat.add_0_r in H. exact H.
Qed.

Lemma all2_forall2 {A B} (f : A -> B -> bool) l : forall l', length l = length l' ->
  (all2 f l l' = true <-> Forall2 (fun a b => f a b = true) l l').
Proof.
  induction l as [|a l IH]; intros [|b l'] H; try discriminate.
  - split; [constructor|reflexivity].
  - cbn [all2]. rewrite andb_true_iff, IH by (cbn in H; lia). split; [intros (X & Y); constructor; auto|intros X; inversion X; subst; auto].
Qed.

(** absolute closeness implies numpy closeness *)
Lemma close_isclose a b : (a - b <= Q2Qc (1 # 100000000))%Qc -> (b - a <= Q2Qc (1 # 100000000))%Qc -> isclose a b = true.
Proof.
  intros H1 H2. apply isclose_iff. unfold tol. destruct (Qcleb 0 b) eqn:E.
  - apply Qcleb_le in E. split; [apply Qcle_trans with (1 := H1)|apply Qcle_trans with (1 := H2)]; qcq; lra.
  - assert (N : ~ (0 <= b)%Qc) by (rewrite <- Qcleb_le; congruence). apply Qcnot_le_lt in N.
    split; [apply Qcle_trans with (1 := H1)|apply Qcle_trans with (1 := H2)]; qcq; lra.
Qed.
