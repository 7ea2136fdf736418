(** Property theorems: frequencies and eigenvectors stored by eval_phonon (C38, C39).
    Model: Phonon.v. *)
From Coq Require Import ZArith Bool Lia Lra Arith Reals Permutation Sorted List.
From Coquelicot Require Import Rcomplements Complex.
From Verif Require Import Base Field Args Cell Super Force Phonon PhononFacts.
Import ListNotations.
Local Open Scope list_scope.
Local Open Scope nat_scope.

(** * C38 *)
Definition THz : R := (2 * PI * 10 ^ 12)%R.
Lemma THz_pos : (0 < THz)%R.
Proof. unfold THz. pose proof PI_RGT_0. apply Rmult_lt_0_compat; [lra|]. apply pow_lt. lra. Qed.
Lemma freq_THz z : freq z = ((fst (csqrt z) - Rabs (snd (csqrt z))) / THz)%R.
Proof. unfold freq, THz. pose proof PI_RGT_0. field. lra. Qed.
Lemma Cmod_real x : Cmod (RtoC x) = Rabs x.
Proof. apply Cmod_R. Qed.

(** Real eigenvalues: sqrt(lambda)/2pi in THz, minus sqrt(-lambda)/2pi when negative. *)
Theorem frequency_of_real_eigenvalue : forall lam : R,
  ((0 <= lam -> freq (RtoC lam) = sqrt lam / (2 * PI * 10 ^ 12)) /\
   (lam < 0 -> freq (RtoC lam) = - sqrt (- lam) / (2 * PI * 10 ^ 12)))%R.
Proof.
  intros lam. fold THz. rewrite freq_THz. unfold csqrt. rewrite Cmod_real. cbn [fst snd RtoC]. split; intros H.
  - rewrite Rabs_pos_eq by exact H. destruct (Rlt_dec 0 0); [lra|].
    replace ((lam + lam) / 2)%R with lam by field. replace ((lam - lam) / 2)%R with 0%R by field. rewrite sqrt_0, Rabs_R0. f_equal. ring.
  - rewrite Rabs_left by exact H. destruct (Rlt_dec 0 0); [lra|].
    replace ((- lam + lam) / 2)%R with 0%R by field. replace ((- lam - lam) / 2)%R with (- lam)%R by field. rewrite sqrt_0, Rabs_pos_eq by apply sqrt_pos. f_equal. ring.
Qed.
Print Assumptions frequency_of_real_eigenvalue.

Theorem frequency_strictly_increasing : forall l m : R, (l < m)%R -> (freq (RtoC l) < freq (RtoC m))%R.
Proof.
  intros l m H. destruct (frequency_of_real_eigenvalue l) as (L1 & L2). destruct (frequency_of_real_eigenvalue m) as (M1 & M2). fold THz in *.
  pose proof THz_pos as T. assert (D : forall a b, (a < b -> a / THz < b / THz)%R) by (intros a b Hab; apply Rmult_lt_compat_r; [apply Rinv_0_lt_compat; exact T|exact Hab]).
  destruct (Rlt_dec l 0) as [Hl|Hl].
  - rewrite L2 by exact Hl. assert (0 < sqrt (- l))%R by (apply sqrt_lt_R0; lra). destruct (Rlt_dec m 0) as [Hm|Hm].
    + rewrite M2 by exact Hm. apply D. assert (sqrt (- m) < sqrt (- l))%R by (apply sqrt_lt_1; lra). lra.
    + rewrite M1 by lra. apply D. pose proof (sqrt_pos m). lra.
  - rewrite L1 by lra. rewrite M1 by lra. apply D. apply sqrt_lt_1; lra.
Qed.
Print Assumptions frequency_strictly_increasing.

(** Any complex eigenvalue (the matrix need not be Hermitian): the sign of the reported
    frequency is the sign of the real part. *)
Theorem frequency_sign : forall z : C,
  ((0 < fst z <-> 0 < freq z) /\ (fst z < 0 <-> freq z < 0))%R.
Proof.
  intros z. pose proof THz_pos as T. rewrite freq_THz. unfold csqrt. cbn [fst snd].
  assert (B : (Rabs (fst z) <= Cmod z)%R).
  { unfold Cmod. apply Rsqr_incr_0; [|apply Rabs_pos|apply sqrt_pos]. rewrite <- Rsqr_abs, Rsqr_sqrt by (destruct z; cbn; nra). destruct z as [x y]. unfold Rsqr. cbn. nra. }
  apply Rabs_le_between in B.
  set (p := ((Cmod z + fst z) / 2)%R). set (m := ((Cmod z - fst z) / 2)%R).
  assert (AB : Rabs (if Rlt_dec (snd z) 0 then - sqrt m else sqrt m)%R = sqrt m).
  { destruct (Rlt_dec (snd z) 0); rewrite ?Rabs_Ropp; apply Rabs_pos_eq, sqrt_pos. }
  rewrite AB. clear AB. assert (Hp : (0 <= p)%R) by (unfold p; lra). assert (Hm : (0 <= m)%R) by (unfold m; lra).
  assert (K : forall t, (0 < t -> 0 < t / THz)%R /\ (t < 0 -> t / THz < 0)%R /\ (t = 0 -> t / THz = 0)%R).
  { intros t. repeat split; intros H.
    - apply Rdiv_lt_0_compat; assumption.
    - apply Ropp_lt_cancel. rewrite Ropp_0. replace (- (t / THz))%R with ((- t) / THz)%R by (unfold Rdiv; ring). apply Rdiv_lt_0_compat; lra.
    - subst t. unfold Rdiv. ring. }
  destruct (K (sqrt p - sqrt m)%R) as (K1 & K2 & K3).
  destruct (Rtotal_order (fst z) 0) as [H|[H|H]].
  - assert (sqrt p < sqrt m)%R by (apply sqrt_lt_1; unfold p, m in *; lra). specialize (K2 ltac:(lra)). split; split; intros; lra.
  - assert (sqrt p = sqrt m)%R by (f_equal; unfold p, m; rewrite H; field). specialize (K3 ltac:(lra)). split; split; intros; lra.
  - assert (sqrt m < sqrt p)%R by (apply sqrt_lt_1; unfold p, m in *; lra). specialize (K1 ltac:(lra)). split; split; intros; lra.
Qed.
Print Assumptions frequency_sign.

(** numpy.argsort: an index permutation that sorts; the order of equal keys is free. *)
Definition argsort_ok (argsort : list R -> list nat) : Prop :=
  forall l, Permutation (argsort l) (seq 0 (length l)) /\ StronglySorted Rle (map (fun i => nth i l 0%R) (argsort l)).

Lemma map_nth_seq (l : list R) : map (fun i => nth i l 0%R) (seq 0 (length l)) = l.
Proof.
  apply nth_error_ext. intros k. rewrite nth_error_map. destruct (lt_dec k (length l)) as [H|H].
  - rewrite (nth_error_nth' (seq 0 (length l)) 0) by (rewrite seq_length; exact H). rewrite seq_nth by exact H. cbn. symmetry. apply nth_error_nth'. exact H.
  - rewrite (proj2 (nth_error_None (seq 0 (length l)) k)) by (rewrite seq_length; lia). symmetry. apply nth_error_None. lia.
Qed.

Theorem frequencies_sorted : forall eig argsort n D, argsort_ok argsort ->
  let w := fst (modes_at eig argsort n D) in
  StronglySorted Rle w /\ Permutation w (map freq (fst (eig n D))).
Proof.
  intros eig argsort n D HA w. unfold w, modes_at. destruct (eig n D) as [ew ev]. cbn [fst].
  destruct (HA (map freq ew)) as (P & S). split; [exact S|].
  rewrite <- (map_nth_seq (map freq ew)) at 2. apply Permutation_map. exact P.
Qed.
Print Assumptions frequencies_sorted.

(** * C39 *)
Lemma strict_nth (l : list R) : StronglySorted Rle l -> NoDup l -> forall i j, i < j -> j < length l -> (nth i l 0 < nth j l 0)%R.
Proof.
  induction 1 as [|x l Hs IH Hf]; intros ND i j Hij Hj; [cbn in Hj; lia|]. inversion ND as [|? ? N1 N2]; subst.
  destruct i as [|i]; destruct j as [|j]; try lia; cbn in Hj.
  - cbn. rewrite Forall_forall in Hf. assert (Hin : In (nth j l 0%R) l) by (apply nth_In; lia). specialize (Hf _ Hin).
    destruct Hf as [Hf|Hf]; [exact Hf|]. exfalso. apply N1. rewrite Hf. exact Hin.
  - cbn. apply IH; [exact N2|lia|lia].
Qed.
Lemma sorted_perm_seq p : forall k n, Permutation p (seq k n) -> StronglySorted le p -> p = seq k n.
Proof.
  induction p as [|x p IH]; intros k n HP HS.
  - apply Permutation_nil in HP. now rewrite HP.
  - destruct n as [|n]; [apply Permutation_sym, Permutation_nil in HP; discriminate|]. cbn [seq] in *.
    inversion HS as [|? ? HS' HF]; subst. rewrite Forall_forall in HF.
    assert (x = k).
    { assert (I1 : In k (x :: p)) by (apply Permutation_in with (k :: seq (S k) n); [apply Permutation_sym, HP|now left]).
      assert (I2 : In x (k :: seq (S k) n)) by (apply Permutation_in with (x :: p); [exact HP|now left]).
      destruct I1 as [I1|I1]; [exact I1|]. destruct I2 as [I2|I2]; [now symmetry|]. apply in_seq in I2. specialize (HF _ I1). lia. }
    subst x. f_equal. apply IH; [|exact HS']. apply Permutation_cons_inv with k. exact HP.
Qed.
Lemma argsort_sorted argsort l : argsort_ok argsort -> StronglySorted Rle l -> NoDup l -> argsort l = seq 0 (length l).
Proof.
  intros HA HS ND. destruct (HA l) as (P & S). apply sorted_perm_seq; [exact P|].
  assert (G : forall q, (forall i, In i q -> i < length l) -> StronglySorted Rle (map (fun i => nth i l 0%R) q) -> StronglySorted le q).
  { induction q as [|x q IH]; intros HI HQ; [constructor|]. cbn in HQ. inversion HQ as [|? ? H1 H2]; subst. constructor.
    - apply IH; [intros; apply HI; now right|exact H1].
    - apply Forall_forall. intros y Hy. rewrite Forall_forall in H2. assert (H3 : (nth x l 0 <= nth y l 0)%R) by (apply H2; apply in_map_iff; exists y; auto).
      destruct (le_lt_dec x y) as [Hle|Hlt]; [exact Hle|]. exfalso.
      pose proof (strict_nth l HS ND y x Hlt ltac:(apply HI; now left)). lra. }
  apply G; [|exact S]. intros i Hi. apply (Permutation_in _ P) in Hi. apply in_seq in Hi. lia.
Qed.

(** Frequencies are sorted but eigenvector rows stay in the order of the solver. *)
Theorem eigenvectors_keep_solver_order : forall eig argsort n D, argsort_ok argsort ->
  NoDup (map freq (fst (eig n D))) ->
  forall i j, i < length (fst (eig n D)) -> snd (modes_at eig argsort n D) i j = snd (eig n D) i j.
Proof.
  intros eig argsort n D HA ND i j Hi. pose proof (frequencies_sorted eig argsort n D HA) as HF. cbn zeta in HF. unfold modes_at in *.
  destruct (eig n D) as [ew ev]. cbn [fst snd] in *. destruct HF as (S & P).
  rewrite (argsort_sorted argsort _ HA S) by (apply (Permutation_NoDup (Permutation_sym P)); exact ND).
  rewrite seq_nth; [reflexivity|]. rewrite (Permutation_length P), map_length. exact Hi.
Qed.
Print Assumptions eigenvectors_keep_solver_order.

(** What numpy.linalg.eig returns: column j is an eigenvector of eigenvalue j. *)
Definition eigen_solution (n : nat) (D : cmat) (ew : list C) (ev : cmat) : Prop :=
  length ew = n /\ forall j, j < n -> (exists i, i < n /\ ev i j <> RtoC 0) /\
    forall i, i < n -> csum n (fun l => Cmult (D i l) (ev l j)) = Cmult (nth j ew (RtoC 0)) (ev i j).
(** What the analysis modules take for mode m: row m of v_q, with frequency w_q[m]. *)
Definition is_mode (n : nat) (D : cmat) (w : R) (v : nat -> C) : Prop :=
  (exists i, i < n /\ v i <> RtoC 0) /\
  exists lam, freq lam = w /\ forall i, i < n -> csum n (fun l => Cmult (D i l) (v l)) = Cmult lam (v i).

Theorem modes_correct_for_ordered_symmetric_solver : forall eig argsort n D, argsort_ok argsort ->
  eigen_solution n D (fst (eig n D)) (snd (eig n D)) ->
  StronglySorted Rle (map freq (fst (eig n D))) -> NoDup (map freq (fst (eig n D))) ->
  (forall i j, i < n -> j < n -> snd (eig n D) i j = snd (eig n D) j i) ->
  forall m, m < n -> is_mode n D (nth m (fst (modes_at eig argsort n D)) 0%R) (snd (modes_at eig argsort n D) m).
Proof.
  intros eig argsort n D HA (HL & HE) HS HN HSym m Hm.
  pose proof (eigenvectors_keep_solver_order eig argsort n D HA HN) as HV.
  assert (W : fst (modes_at eig argsort n D) = map freq (fst (eig n D))).
  { unfold modes_at. destruct (eig n D) as [ew ev]. cbn [fst snd] in *. rewrite (argsort_sorted argsort _ HA HS HN). apply map_nth_seq. }
  rewrite W. destruct (HE m Hm) as ((i0 & Hi0 & Hne) & HEq). split.
  - exists i0. split; [exact Hi0|]. rewrite HV by lia. rewrite HSym by assumption. exact Hne.
  - exists (nth m (fst (eig n D)) (RtoC 0)). split.
    + symmetry. rewrite (nth_indep _ 0%R (freq (RtoC 0))) by (rewrite map_length; lia). apply map_nth.
    + intros i Hi. rewrite HV by lia. rewrite (HSym m i) by assumption. rewrite <- HEq by exact Hi. apply csum_ext. intros l Hl. rewrite HV by lia. now rewrite (HSym m l).
Qed.
Print Assumptions modes_correct_for_ordered_symmetric_solver.

Lemma freq12 : (freq (RtoC 1) < freq (RtoC 2))%R.
Proof. apply frequency_strictly_increasing. lra. Qed.

Lemma freq_nodup : NoDup [freq (RtoC 1); freq (RtoC 2)].
Proof. pose proof freq12. constructor; [intros [X|[]]; lra|constructor; [intros []|constructor]]. Qed.
Lemma freq_nodup' : NoDup [freq (RtoC 2); freq (RtoC 1)].
Proof. pose proof freq12. constructor; [intros [X|[]]; lra|constructor; [intros []|constructor]]. Qed.
Lemma freq_sorted12 : StronglySorted Rle [freq (RtoC 1); freq (RtoC 2)].
Proof. pose proof freq12. repeat constructor. lra. Qed.

(** A Hermitian matrix and a correct solver that even returns ascending eigenvalues:
    the row taken as first mode is no eigenvector at all, since eigenvectors are columns. *)
Theorem mode_rows_refuted : exists (D : cmat) (ew : list C) (ev : cmat),
  (forall i j, D i j = Cconj (D j i)) /\ eigen_solution 2 D ew ev /\ StronglySorted Rle (map freq ew) /\
  forall argsort, argsort_ok argsort -> forall w, ~ is_mode 2 D w (snd (modes_at (fun _ _ => (ew, ev)) argsort 2 D) 0).
Proof.
  exists (fun i j => RtoC (match i, j with 0, 0 => 41/25 | 0, 1 => -12/25 | 1, 0 => -12/25 | 1, 1 => 34/25 | _, _ => 0 end)%R).
  exists [RtoC 1; RtoC 2].
  exists (fun i j => RtoC (match i, j with 0, 0 => 3/5 | 0, 1 => -4/5 | 1, 0 => 4/5 | 1, 1 => 3/5 | _, _ => 0 end)%R).
  split. { intros i j. rewrite Cconj_RtoC. f_equal. destruct i as [|[|i]], j as [|[|j]]; reflexivity. }
  split. { split; [reflexivity|]. intros j Hj. destruct j as [|[|j]]; [| |lia].
    - split; [exists 0; split; [lia|]; intros H; apply RtoC_inj in H; lra|]. intros i Hi. destruct i as [|[|i]]; [| |lia]; unfold csum, Cmult, Cplus, RtoC; cbn; f_equal; field.
    - split; [exists 0; split; [lia|]; intros H; apply RtoC_inj in H; lra|]. intros i Hi. destruct i as [|[|i]]; [| |lia]; unfold csum, Cmult, Cplus, RtoC; cbn; f_equal; field. }
  pose proof freq12 as F12.
  split. { repeat constructor; lra. }
  intros argsort HA w (_ & lam & _ & H).
  match type of H with context [modes_at ?e _ _ ?d] => set (eig := e) in H; set (D := d) in H end.
  assert (V : forall l, snd (modes_at eig argsort 2 D) 0 l = snd (eig 2 D) 0 l).
  { intros l. apply (eigenvectors_keep_solver_order eig argsort 2 D HA); [exact freq_nodup|cbn; lia]. }
  pose proof (H 0 ltac:(lia)) as H0. pose proof (H 1 ltac:(lia)) as H1. cbn [csum] in H0, H1. rewrite !V in H0, H1. cbn [snd eig D] in H0, H1.
  destruct lam as [x y]. unfold Cmult, Cplus, RtoC in H0, H1. cbn in H0, H1. injection H0 as A1 A2. injection H1 as B1 B2. lra.
Qed.
Print Assumptions mode_rows_refuted.

(** A solver that returns descending eigenvalues (numpy does for a diagonal matrix):
    the first stored row is an eigenvector, but of the other frequency. *)
Theorem mode_order_refuted : exists (D : cmat) (ew : list C) (ev : cmat),
  (forall i j, D i j = Cconj (D j i)) /\ eigen_solution 2 D ew ev /\
  forall argsort, argsort_ok argsort ->
    let m := modes_at (fun _ _ => (ew, ev)) argsort 2 D in
    ~ is_mode 2 D (nth 0 (fst m) 0%R) (snd m 0) /\ is_mode 2 D (nth 1 (fst m) 0%R) (snd m 0).
Proof.
  exists (fun i j => RtoC (match i, j with 0, 0 => 2 | 1, 1 => 1 | _, _ => 0 end)%R).
  exists [RtoC 2; RtoC 1].
  exists (fun i j => RtoC (match i, j with 0, 0 => 1 | 1, 1 => 1 | _, _ => 0 end)%R).
  split. { intros i j. rewrite Cconj_RtoC. f_equal. destruct i as [|[|i]], j as [|[|j]]; reflexivity. }
  split. { split; [reflexivity|]. intros j Hj. destruct j as [|[|j]]; [| |lia].
    - split; [exists 0; split; [lia|]; intros H; apply RtoC_inj in H; lra|]. intros i Hi. destruct i as [|[|i]]; [| |lia]; unfold csum, Cmult, Cplus, RtoC; cbn; f_equal; field.
    - split; [exists 1; split; [lia|]; intros H; apply RtoC_inj in H; lra|]. intros i Hi. destruct i as [|[|i]]; [| |lia]; unfold csum, Cmult, Cplus, RtoC; cbn; f_equal; field. }
  pose proof freq12 as F12. intros argsort HA.
  set (eig := fun (_ : nat) (_ : cmat) => _). cbn zeta.
  set (D := fun i j : nat => RtoC (match i, j with 0, 0 => 2 | 1, 1 => 1 | _, _ => 0 end)%R).
  assert (V : forall l, l < 2 -> snd (modes_at eig argsort 2 D) 0 l = snd (eig 2 D) 0 l) by
    (intros l Hl; apply (eigenvectors_keep_solver_order eig argsort 2 _ HA); [exact freq_nodup'|cbn; lia]).
  assert (W : fst (modes_at eig argsort 2 D) = [freq (RtoC 1); freq (RtoC 2)]).
  { destruct (frequencies_sorted eig argsort 2 D HA) as (S & P). cbn [fst eig map] in P.
    destruct (fst (modes_at eig argsort 2 D)) as [|a [|b [|c l]]] eqn:E; try (apply Permutation_length in P; discriminate).
    inversion S as [|? ? _ HF]; subst. inversion HF as [|? ? Hab _]; subst.
    apply Permutation_length_2_inv in P. 
    destruct P as [P|P]; injection P as P1 P2; [exfalso; lra|congruence]. }
  rewrite W. cbn [nth]. split.
  - intros (_ & lam & HL & H). pose proof (H 0 ltac:(lia)) as H0. cbn [csum] in H0. rewrite !V in H0 by lia. cbn [snd eig D] in H0.
    assert (E2 : lam = RtoC 2). { destruct lam as [x y]. unfold Cmult, Cplus, RtoC in *. cbn in H0. injection H0 as A1 A2. f_equal; lra. }
    rewrite E2 in HL. lra.
  - split; [exists 0; split; [lia|]; rewrite V by lia; cbn; intros H; apply RtoC_inj in H; lra|].
    exists (RtoC 2). split; [reflexivity|]. intros i Hi. cbn [csum]. rewrite !V by lia.
    destruct i as [|[|i]]; [| |lia]; cbn [snd eig D]; unfold Cmult, Cplus, RtoC; cbn; f_equal; ring.
Qed.
Print Assumptions mode_order_refuted.

(** * Witness: an argsort exists, so the hypotheses are met. *)
Fixpoint ins (l : list R) (x : nat) (p : list nat) : list nat :=
  match p with [] => [x] | y :: r => if Rle_dec (nth x l 0%R) (nth y l 0%R) then x :: p else y :: ins l x r end.
Definition isort (l : list R) : list nat := fold_right (ins l) [] (seq 0 (length l)).
Lemma ins_perm l x p : Permutation (ins l x p) (x :: p).
Proof. induction p as [|y p IH]; cbn; [reflexivity|]. destruct (Rle_dec _ _); [reflexivity|]. rewrite IH. apply perm_swap. Qed.
Lemma ins_sorted l x p : StronglySorted Rle (map (fun i => nth i l 0%R) p) -> StronglySorted Rle (map (fun i => nth i l 0%R) (ins l x p)).
Proof.
  induction p as [|y p IH]; intros H; cbn; [repeat constructor|]. cbn in H. inversion H as [|? ? H1 H2]; subst.
  destruct (Rle_dec (nth x l 0%R) (nth y l 0%R)) as [Hle|Hgt]; cbn.
  - constructor; [exact H|]. constructor; [exact Hle|]. rewrite Forall_forall in *. intros z Hz. specialize (H2 z Hz). lra.
  - constructor; [apply IH, H1|]. apply Forall_forall. intros z Hz. apply in_map_iff in Hz as (i & <- & Hi). apply (Permutation_in _ (ins_perm l x p)) in Hi.
    destruct Hi as [<-|Hi]; [lra|]. rewrite Forall_forall in H2. apply H2. apply in_map_iff. exists i. auto.
Qed.
Example argsort_witness : argsort_ok isort.
Proof.
  intros l. unfold isort. generalize (seq 0 (length l)) as q. intros q. induction q as [|x q (IH1 & IH2)]; cbn.
  - split; constructor.
  - split; [rewrite ins_perm, IH1; reflexivity|apply ins_sorted, IH2].
Qed.
Example ordered_solver_witness :
  let eig := fun (_ : nat) (_ : cmat) => ([RtoC 1; RtoC 2], fun i j => RtoC (if Nat.eqb i j then 1 else 0)%R) in
  let D : cmat := fun i j => RtoC (match i, j with 0, 0 => 1 | 1, 1 => 2 | _, _ => 0 end)%R in
  eigen_solution 2 D (fst (eig 2 D)) (snd (eig 2 D)) /\ StronglySorted Rle (map freq (fst (eig 2 D))) /\ NoDup (map freq (fst (eig 2 D))).
Proof.
  cbn zeta. split; [|split; [exact freq_sorted12|exact freq_nodup]].
  split; [reflexivity|]. intros j Hj. destruct j as [|[|j]]; [| |lia].
  - split; [exists 0; split; [lia|]; cbn; intros X; apply RtoC_inj in X; lra|]. intros i Hi. destruct i as [|[|i]]; [| |lia]; unfold csum, Cmult, Cplus, RtoC; cbn; f_equal; ring.
  - split; [exists 1; split; [lia|]; cbn; intros X; apply RtoC_inj in X; lra|]. intros i Hi. destruct i as [|[|i]]; [| |lia]; unfold csum, Cmult, Cplus, RtoC; cbn; f_equal; ring.
Qed.

(** Results are stored in the order of the k-points, one entry for each: entry i is the
    sorted spectrum of the dynamical matrix of k-point i. *)
Theorem phonon_results_in_k_order : forall eig argsort (u s : cell R) ar B fc ks rs,
  eval_phonon eig argsort u s ar B fc ks = Ok rs <->
  Forall2 (fun k r => exists D atoms, dyn_at u s ar B fc k = Ok D /\ c_xyz u = Some atoms /\ r = modes_at eig argsort (length atoms) D) ks rs.
Proof.
  intros eig argsort u s ar B fc. induction ks as [|k ks IH]; intros rs; cbn [eval_phonon].
  - split; [intros H; injection H as <-; constructor|intros H; inversion H; reflexivity].
  - split.
    + intros H. apply bind_ok in H as (D & HD & H). apply bind_ok in H as (n & Hn & H). apply bind_ok in H as (rest & Hr & H). injection H as <-.
      constructor; [|apply IH; exact Hr]. exists D, n. split; [exact HD|]. split; [|reflexivity]. destruct (c_xyz u); [injection Hn as ->; reflexivity|discriminate].
    + intros H. inversion H as [|? ? ? rest (D & n & HD & Hn & ->) Hr]; subst. rewrite HD. cbn [bind]. rewrite Hn. cbn [of_option bind].
      apply IH in Hr. rewrite Hr. reflexivity.
Qed.
Print Assumptions phonon_results_in_k_order.
