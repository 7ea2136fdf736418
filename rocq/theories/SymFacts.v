(** Facts about the loops of Sym.v. *)
From Coq Require Import String ZArith Bool Lia Arith Permutation setoid_ring.Field List.
From Verif Require Import Base Field Force Sym Order.
Import ListNotations.
Local Open Scope list_scope.
Local Open Scope nat_scope.

Lemma mat2_eqb_eq a b : mat2_eqb a b = true <-> a = b.
Proof.
  unfold mat2_eqb. rewrite !andb_true_iff, !Z.eqb_eq. destruct a, b; cbn. split; [intros (((-> & ->) & ->) & ->); reflexivity|intros E; injection E as -> -> -> ->; auto].
Qed.
Lemma enumerate_from_In {B} (l : list B) : forall i k x, In (k, x) (enumerate_from i l) <-> i <= k /\ nth_error l (k - i) = Some x.
Proof.
  induction l as [|y l IH]; intros i k x; cbn [enumerate_from In].
  - split; [intros []|intros (_ & H); destruct (k - i); discriminate].
  - rewrite IH. split.
    + intros [E|(H1 & H2)]; [injection E as <- <-; rewrite Nat.sub_diag; split; [lia|reflexivity]|]. split; [lia|]. replace (k - i) with (S (k - S i)) by lia. exact H2.
    + intros (H1 & H2). destruct (Nat.eq_dec k i) as [->|Ne]; [left; rewrite Nat.sub_diag in H2; cbn in H2; congruence|right].
      split; [lia|]. replace (k - i) with (S (k - S i)) in H2 by lia. exact H2.
Qed.
Lemma enumerate_In {B} (l : list B) k x : In (k, x) (enumerate l) <-> nth_error l k = Some x.
Proof. unfold enumerate. rewrite enumerate_from_In, Nat.sub_0_r. split; [tauto|]. intros H. split; [lia|exact H]. Qed.

Lemma Forall2_len {B C} {R : B -> C -> Prop} {l l'} : Forall2 R l l' -> length l = length l'.
Proof. induction 1; cbn; congruence. Qed.

Section SymF.
  Context {A : Type} {F : Fld A} {N : Num A F}.

  Lemma lattice_ops_def (L : m3 A) p q : lattice_ops L p q = filter (metric_ok (metric L p q)) W_candidate.
  Proof. unfold lattice_ops. exact eq_refl. Qed.
  Lemma in_lattice_ops (L : m3 A) p q W : In W (lattice_ops L p q) <-> In W W_candidate /\ metric_ok (metric L p q) W = true.
  Proof. rewrite lattice_ops_def. apply filter_In. Qed.
  Lemma matches_In (L : m3 A) sel ty y j : In j (matches L sel ty y) <-> exists x, nth_error sel j = Some (ty, x) /\ same_place L y x = true.
  Proof.
    unfold matches. rewrite in_flat_map. split.
    - intros ((k & (ty' & x)) & Hin & H). apply enumerate_In in Hin. destruct (String.eqb_spec ty' ty) as [->|]; [|destruct H].
      cbn [andb] in H. destruct (same_place L y x) eqn:E; [|destruct H]. destruct H as [<-|[]]. eauto.
    - intros (x & Hn & H). exists (j, (ty, x)). split; [now apply enumerate_In|]. rewrite String.eqb_refl, H. now left.
  Qed.
  Lemma matches_NoDup (L : m3 A) sel ty y : NoDup (matches L sel ty y).
  Proof.
    unfold matches, enumerate. generalize 0 as i. induction sel as [|[t x] sel IH]; intros i; cbn [enumerate_from flat_map]; [constructor|].
    destruct (String.eqb t ty && same_place L y x); [|apply IH]. cbn. constructor; [|apply IH].
    intros H. apply in_flat_map in H. destruct H as ((k & (t' & x')) & Hin & H). apply enumerate_from_In in Hin.
    destruct (String.eqb t' ty && same_place L y x'); [destruct H as [<-|[]]; lia|destruct H].
  Qed.

  (** With at most one match per atom a map is reported exactly when every atom has its match, once. *)
  Lemma match_loop_spec (L : m3 A) sel : (forall ty y, length (matches L sel ty y) <= 1) ->
    forall ys acc h0 same h, length acc + length ys <= length sel -> match_loop L sel ys acc h0 = (same, h) ->
      (h = h0 \/ (h = S h0 /\ length acc + length ys = length sel /\
        exists js, same = acc ++ js /\ Forall2 (fun a j => matches L sel (fst a) (snd a) = [j]) ys js)).
  Proof.
    intros HU. induction ys as [|[ty y] ys IH]; intros acc h0 same h HL E; cbn [match_loop] in E.
    - injection E as <- <-. now left.
    - cbn [length] in HL. specialize (HU ty y) as HU1. rewrite app_length in E.
      destruct (Nat.eqb_spec (length acc + length (matches L sel ty y)) (length sel)) as [Heq|Hne].
      + assert (Ey : ys = []) by (destruct ys; [reflexivity|cbn [length] in HL; lia]). subst ys. cbn in E. injection E as <- <-. right. cbn [length] in *.
        split; [lia|]. split; [lia|]. destruct (matches L sel ty y) as [|j [|? ?]] eqn:EM; cbn in *; try lia. exists [j]. split; [reflexivity|]. constructor; [exact EM|constructor].
      + rewrite Nat.add_0_r in E. apply IH in E; [|rewrite app_length; lia].
        destruct E as [E|(E1 & E2 & js & E3 & E4)]; [left; exact E|right]. rewrite app_length in E2.
        destruct (matches L sel ty y) as [|j [|? ?]] eqn:EM; cbn [length] in *; try lia. split; [exact E1|]. split; [lia|]. exists (j :: js). split; [rewrite E3, <- app_assoc; reflexivity|]. constructor; [exact EM|exact E4].
  Qed.
  Lemma accepted_In (L : m3 A) sel ys same : (forall ty y, length (matches L sel ty y) <= 1) -> length ys = length sel ->
    In same (accepted L sel ys) -> Forall2 (fun a j => matches L sel (fst a) (snd a) = [j]) ys same.
  Proof.
    intros HU HL H. unfold accepted in H. destruct (match_loop L sel ys [] 0) as [s h] eqn:E.
    apply (match_loop_spec L sel HU) in E; [|cbn; lia]. destruct E as [->|(-> & _ & js & -> & HF)]; [destruct H|]. cbn in H. destruct H as [<-|[]]. exact HF.
  Qed.
  Lemma match_loop_total (L : m3 A) sel : forall ys js acc h, Forall2 (fun a j => matches L sel (fst a) (snd a) = [j]) ys js ->
    ys <> [] -> length acc + length ys = length sel -> exists k, match_loop L sel ys acc h = (acc ++ js, k) /\ h < k.
  Proof.
    induction ys as [|[ty y] ys IH]; intros js acc h HF Hne HL; [congruence|]. inversion HF as [|? j ? js' HM HF']; subst. cbn [fst snd] in HM. cbn [match_loop]. rewrite HM.
    destruct ys as [|a ys].
    - inversion HF'; subst. cbn [match_loop]. rewrite app_length. cbn [length] in *. destruct (Nat.eqb_spec (length acc + 1) (length sel)); [|lia]. exists (h + 1). split; [reflexivity|lia].
    - destruct (IH js' (acc ++ [j]) (h + (if Nat.eqb (length (acc ++ [j])) (length sel) then 1 else 0)) HF' ltac:(discriminate)) as (k & E & Hk).
      { rewrite app_length. cbn [length] in *. lia. }
      exists k. split; [rewrite E, <- app_assoc; reflexivity|lia].
  Qed.
  Lemma accepted_total (L : m3 A) sel ys js : Forall2 (fun a j => matches L sel (fst a) (snd a) = [j]) ys js ->
    ys <> [] -> length ys = length sel -> In js (accepted L sel ys).
  Proof.
    intros HF Hne HL. unfold accepted. destruct (match_loop_total L sel ys js [] 0 HF Hne HL) as (k & E & Hk). rewrite E. destruct k; [lia|]. now left.
  Qed.

  (** search_point_group *)
  Lemma mapM_py_nth {B} (l : list B) ks r : mapM (py_nth l) ks = Ok r -> Forall2 (fun k x => nth_error l k = Some x) ks r.
  Proof.
    intros H. apply mapM_ok_Forall2 in H. induction H as [|k x ks r H1 H2 IH]; constructor; [|exact IH]. unfold py_nth in H1. destruct (nth_error l k); [cbn in H1; congruence|discriminate].
  Qed.
  Lemma count_ops_class (ops : list (op A)) t t' : count_ops ops t = Ok t' -> Forall (fun o => op_class (op_W o) <> None) ops.
  Proof.
    revert t. induction ops as [|o ops IH]; intros t H; [constructor|]. cbn [count_ops] in H. apply bind_ok in H as (k & Hk & H).
    constructor; [|now apply (IH _ H)]. destruct (op_class (op_W o)); [discriminate|discriminate].
  Qed.
  Lemma search_ops_In (L : m3 A) p q r atoms tr ops g o : search_point_group L (p, q, r) atoms tr = Ok (ops, g) -> In o ops ->
    exists sel W, mapM (py_nth atoms) tr = Ok sel /\ In W (lattice_ops L p q) /\ o = space_op L p q r atoms tr sel W /\ op_maps o <> [] /\ op_class W <> None.
  Proof.
    intros H Ho. unfold search_point_group in H. destruct atoms as [|a atoms]; [discriminate|].
    apply bind_ok in H as (sel & Hs & H). apply bind_ok in H as (t & Ht & H). apply bind_ok in H as (g' & Hg & H). injection H as <- <-.
    pose proof (count_ops_class _ _ _ Ht) as HC. rewrite Forall_forall in HC. specialize (HC o Ho).
    apply filter_In in Ho as (Ho & Hne). apply in_map_iff in Ho as (W & <- & HW). exists sel, W. repeat split; try assumption.
    unfold nonempty_op in Hne. destruct (op_maps _); [discriminate|discriminate].
  Qed.
  Lemma nonempty_intro (o : op A) : op_maps o <> [] -> nonempty_op o = true.
  Proof. unfold nonempty_op. destruct (op_maps o); [congruence|reflexivity]. Qed.
  Lemma search_ops_intro (L : m3 A) p q r atoms tr sel ops g W : search_point_group L (p, q, r) atoms tr = Ok (ops, g) -> mapM (py_nth atoms) tr = Ok sel ->
    In W (lattice_ops L p q) -> op_maps (space_op L p q r atoms tr sel W) <> [] -> In (space_op L p q r atoms tr sel W) ops.
  Proof.
    intros H Hs HW Hne. unfold search_point_group in H. destruct atoms as [|a atoms]; [discriminate|].
    apply bind_ok in H as (sel' & Hs' & H). assert (sel' = sel) by (rewrite Hs in Hs'; injection Hs' as E; symmetry; exact E). subst sel'. apply bind_ok in H as (t & Ht & H). apply bind_ok in H as (g' & Hg & H). injection H as <- <-.
    apply filter_In. split; [|apply nonempty_intro; exact Hne]. apply in_map_iff. exists W. split; [exact eq_refl|exact HW].
  Qed.
  Lemma space_op_maps (L : m3 A) p q r atoms tr sel W : op_maps (space_op L p q r atoms tr sel W) =
    flat_map (fun w => map (fun same => (w, same)) (accepted L sel (map (fun '(ty, x) => (ty, vadd (mvmul (embed p q W) x) w)) sel)))
              (w_candidates r atoms tr (embed p q W)).
  Proof. unfold space_op. exact eq_refl. Qed.
End SymF.
