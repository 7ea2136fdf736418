(** Proofs about the UnitCell object (model: Cell.v). *)
From Coq Require Import String Ascii ZArith Arith Bool Lia List Permutation Sorted Field.
From Verif Require Import Base Field Cell.
Import ListNotations.
Local Open Scope list_scope.
Local Open Scope nat_scope.

Lemma insert_sorted_perm x l : Permutation (insert_sorted x l) (x :: l).
Proof.
  induction l as [|y l IH]; cbn; [reflexivity|].
  destruct (x <=? y)%Z; [reflexivity|].
  rewrite IH. apply perm_swap.
Qed.
Lemma py_sorted_perm l : Permutation (py_sorted l) l.
Proof.
  induction l as [|x l IH]; cbn; [reflexivity|].
  rewrite insert_sorted_perm. now constructor.
Qed.
Lemma insert_sorted_sorted x l : StronglySorted Z.le l -> StronglySorted Z.le (insert_sorted x l).
Proof.
  induction l as [|y l IH]; intros H; cbn; [repeat constructor|].
  inversion H as [|? ? Hs Hf]; subst.
  destruct (Z.leb_spec x y) as [Hxy|Hxy].
  - constructor; [exact H|]. constructor; [exact Hxy|].
    eapply Forall_impl; [|exact Hf]. cbn; intros; lia.
  - constructor; [exact (IH Hs)|].
    apply Forall_forall. intros z Hz.
    apply (Permutation_in _ (insert_sorted_perm x l)) in Hz. destruct Hz as [<-|Hz]; [lia|].
    rewrite Forall_forall in Hf. auto.
Qed.
Lemma py_sorted_sorted l : StronglySorted Z.le (py_sorted l).
Proof. induction l as [|x l IH]; cbn; [constructor|]. now apply insert_sorted_sorted. Qed.
Lemma py_sorted_id l : StronglySorted Z.le l -> py_sorted l = l.
Proof.
  induction l as [|x l IH]; intros H; [reflexivity|].
  inversion H as [|? ? Hs Hf]; subst.
  change (py_sorted (x :: l)) with (insert_sorted x (py_sorted l)). rewrite (IH Hs).
  destruct l as [|y l]; [reflexivity|]. cbn.
  inversion Hf; subst. destruct (Z.leb_spec x y); [reflexivity|lia].
Qed.

Section S.
  Context {A : Type} {F : Fld A}.
  Add Field fld_A2 : (@f_theory A F).

  (** [n] atoms: types and positions are both set and agree. *)
  Definition has_atoms (c : cell A) (n : nat) : Prop :=
    (exists t, c_type c = Some t /\ length t = n) /\ (exists p, c_cart c = Some p /\ length p = n).
  Definition lengths_agree (c : cell A) : Prop :=
    forall t p, c_type c = Some t -> c_cart c = Some p -> length t = length p.
  Definition selections_sorted (c : cell A) : Prop :=
    (forall l, c_true c = Some l -> StronglySorted Z.le l) /\
    (forall l, c_xyz c = Some l -> StronglySorted Z.le l).
  Definition selection_in_range (c : cell A) : Prop :=
    forall t l, c_type c = Some t -> c_true c = Some l -> Forall (fun z => 0 <= z < Z.of_nat (length t))%Z l.

  Lemma rows3_length m (p : list (v3 A)) : rows3 m = Some p -> length p = length m.
  Proof.
    revert p; induction m as [|r m IH]; cbn; intros p H; [injection H as <-; reflexivity|].
    destruct (row3 r); [|discriminate]. destruct (rows3 m); [|discriminate].
    injection H as <-. cbn. f_equal. apply IH; reflexivity.
  Qed.

  Lemma shape_okP (t : list string) (p : list (v3 A)) : reflect (length p = length t /\ 0 < length p) (shape_ok t p).
  Proof.
    unfold shape_ok. destruct (Nat.eqb_spec (length p) (length t)) as [E|E]; cbn [andb]; [|constructor; lia].
    destruct (Nat.ltb 0 (length p)) eqn:L; constructor; [apply Nat.ltb_lt in L|apply Nat.ltb_ge in L]; lia.
  Qed.

  Ltac inv_op H :=
    cbn [run_op] in H;
    unfold set_lattice, set_atom_type, set_num_atom, set_coordinate, set_atom_cart, set_atom_direct,
      set_atom_true, set_xyz_true, set_mass_true_field in H.

  Lemma has_atoms_step c o n : has_atoms c n -> has_atoms (step_op c o) n.
  Proof.
    intros ((t & Ht & Hn) & (p & Hp & Hpn)). unfold step_op.
    destruct (run_op c o) as [c'|e] eqn:H; [|split; eauto].
    destruct o; inv_op H.
    - destruct (mat33 m); [|discriminate]. injection H as <-. split; cbn; eauto.
    - rewrite Hp in H. destruct (Nat.eqb_spec (length t0) (length p)) as [E|]; [|discriminate].
      injection H as <-. split; cbn; [exists t0; split; [reflexivity|lia]|eauto].
    - destruct (match c_cart c with None => true | Some _ => _ end); [|discriminate].
      injection H as <-. split; cbn; eauto.
    - injection H as <-. split; cbn; eauto.
    - destruct s as [|a s]; [discriminate|].
      destruct (_ || _)%bool; [injection H as <-; split; cbn; eauto|].
      destruct (_ || _)%bool; [injection H as <-; split; cbn; eauto|discriminate].
    - destruct (rows3 m) as [p'|] eqn:E; [|discriminate]. rewrite Ht in H.
      destruct (shape_okP t p') as [[E2 _]|]; [|discriminate].
      injection H as <-. split; cbn; [eauto|]. exists p'. split; [reflexivity|lia].
    - destruct (rows3 m) as [p'|] eqn:E; [|discriminate]. rewrite Ht in H.
      destruct (shape_okP t p') as [[E2 _]|]; [|discriminate].
      destruct (c_lat c); [|discriminate].
      injection H as <-. split; cbn; [eauto|]. eexists. split; [reflexivity|]. rewrite map_length; lia.
    - destruct (match c_type c with None => true | Some _ => _ end); [|discriminate].
      injection H as <-. split; cbn; eauto.
    - destruct (match c_true c with None => true | Some _ => _ end); [|discriminate].
      injection H as <-. split; cbn; eauto.
    - destruct (match c_true c with None => true | Some _ => _ end); [|discriminate].
      injection H as <-. split; cbn; eauto.
  Qed.

  Lemma has_atoms_run os c n : has_atoms c n -> has_atoms (run_ops c os) n.
  Proof.
    unfold run_ops. revert c; induction os as [|o os IH]; intros c H; [exact H|].
    cbn. apply IH, has_atoms_step, H.
  Qed.

  Lemma lengths_agree_step c o : lengths_agree c -> lengths_agree (step_op c o).
  Proof.
    intros HL. unfold step_op.
    destruct (run_op c o) as [c'|e] eqn:H; [|exact HL].
    destruct o; inv_op H.
    - destruct (mat33 m); [|discriminate]. injection H as <-. exact HL.
    - destruct (c_cart c) as [p|] eqn:Hp.
      + destruct (Nat.eqb_spec (length t) (length p)) as [E|]; [|discriminate].
        injection H as <-. intros t' p' Ht Hp'. cbn in Ht, Hp'. congruence.
      + injection H as <-. intros t' p' Ht Hp'. cbn in Hp'. congruence.
    - destruct (match c_cart c with None => true | Some _ => _ end); [|discriminate].
      injection H as <-. exact HL.
    - injection H as <-. exact HL.
    - destruct s as [|a s]; [discriminate|].
      destruct (_ || _)%bool; [injection H as <-; exact HL|].
      destruct (_ || _)%bool; [injection H as <-; exact HL|discriminate].
    - destruct (rows3 m) as [p'|] eqn:E; [|discriminate].
      destruct (c_type c) as [t|] eqn:Ht.
      + destruct (shape_okP t p') as [[E2 _]|]; [|discriminate].
        injection H as <-. intros t' q Ht' Hq. cbn in Ht', Hq. congruence.
      + injection H as <-. intros t' q Ht' Hq. cbn in Ht'. congruence.
    - destruct (rows3 m) as [p'|] eqn:E; [|discriminate].
      destruct (c_type c) as [t|] eqn:Ht.
      + destruct (shape_okP t p') as [[E2 _]|]; [|discriminate].
        destruct (c_lat c); [|discriminate].
        injection H as <-. intros t' q Ht' Hq. cbn in Ht', Hq. injection Hq as <-. rewrite map_length. congruence.
      + destruct (Nat.ltb 0 _) in H; [|discriminate]; destruct (c_lat c); [|discriminate].
        injection H as <-. intros t' q Ht' Hq. cbn in Ht'. congruence.
    - destruct (match c_type c with None => true | Some _ => _ end); [|discriminate].
      injection H as <-. exact HL.
    - destruct (match c_true c with None => true | Some _ => _ end); [|discriminate].
      injection H as <-. exact HL.
    - destruct (match c_true c with None => true | Some _ => _ end); [|discriminate].
      injection H as <-. exact HL.
  Qed.

  Lemma selections_sorted_step c o : selections_sorted c -> selections_sorted (step_op c o).
  Proof.
    intros HS. unfold step_op.
    destruct (run_op c o) as [c'|e] eqn:H; [|exact HS].
    destruct o; inv_op H;
      repeat match type of H with
      | (match ?x with _ => _ end) = Ok _ => destruct x eqn:?; try discriminate
      end; injection H as <-; try exact HS.
    - split; cbn; [|apply HS]. intros l0 E; injection E as <-. apply py_sorted_sorted.
    - split; cbn; [apply HS|]. intros l0 E; injection E as <-. apply py_sorted_sorted.
  Qed.

  Lemma history_invariant os : lengths_agree (run_ops cell_init os) /\ selections_sorted (run_ops cell_init os).
  Proof.
    unfold run_ops.
    assert (G : forall c, lengths_agree c /\ selections_sorted c ->
              lengths_agree (fold_left step_op os c) /\ selections_sorted (fold_left step_op os c)).
    { induction os as [|o os IH]; intros c H; [exact H|]. cbn. apply IH.
      split; [apply lengths_agree_step|apply selections_sorted_step]; tauto. }
    apply G. split; [|split]; cbn; intros; try intros ?; discriminate.
  Qed.

  Lemma in_range_spec n z : in_range n z = true <-> (0 <= z < Z.of_nat n)%Z.
  Proof. unfold in_range. rewrite andb_true_iff, Z.leb_le, Z.ltb_lt. tauto. Qed.

  Lemma selection_range_step c o n :
    has_atoms c n -> selection_in_range c -> selection_in_range (step_op c o).
  Proof.
    intros HA HR. pose proof (has_atoms_step c o n HA) as HA'.
    destruct HA as ((t & Ht & Hn) & _). destruct HA' as ((t' & Ht' & Hn') & _).
    intros t2 l Ht2 Hl. assert (t2 = t') as -> by congruence. clear Ht2. rewrite Hn'. clear Ht' Hn'.
    assert (HR' : forall l, c_true c = Some l -> Forall (fun z => 0 <= z < Z.of_nat n)%Z l).
    { intros l0 H0. rewrite <- Hn. exact (HR t l0 Ht H0). }
    unfold step_op in Hl. destruct (run_op c o) as [c'|e] eqn:H; [|exact (HR' l Hl)].
    destruct o; inv_op H;
      repeat match type of H with
      | (match ?x with _ => _ end) = Ok _ => destruct x eqn:?; try discriminate
      end; injection H as <-; cbn in Hl; try exact (HR' l Hl).
    injection Hl as <-. rewrite Ht in Heqb. rewrite forallb_forall in Heqb.
    apply Forall_forall. intros z Hz. apply (Permutation_in _ (py_sorted_perm l0)) in Hz.
    apply Heqb, in_range_spec in Hz. lia.
  Qed.

  Lemma selection_range_run os c n :
    has_atoms c n -> selection_in_range c -> selection_in_range (run_ops c os).
  Proof.
    unfold run_ops. revert c; induction os as [|o os IH]; intros c HA HR; [exact HR|].
    cbn. apply IH; [apply has_atoms_step, HA|]. eapply selection_range_step; eauto.
  Qed.

  Lemma set_atom_true_spec (c : cell A) t l :
    c_type c = Some t ->
    (forall c', set_atom_true c l = Ok c' ->
        exists s, c_true c' = Some s /\ Permutation s l /\ StronglySorted Z.le s /\
                  Forall (fun z => 0 <= z < Z.of_nat (length t))%Z s) /\
    (set_atom_true c l = Err EValue <-> exists z, In z l /\ ~ (0 <= z < Z.of_nat (length t))%Z).
  Proof.
    intros Ht. unfold set_atom_true. rewrite Ht.
    destruct (forallb (in_range (length t)) l) eqn:E.
    - split.
      + intros c' H. injection H as <-. cbn. exists (py_sorted l).
        split; [reflexivity|]. split; [apply py_sorted_perm|]. split; [apply py_sorted_sorted|].
        rewrite forallb_forall in E. apply Forall_forall. intros z Hz.
        apply in_range_spec, E, (Permutation_in _ (py_sorted_perm l)), Hz.
      + split; [discriminate|]. intros (z & Hz & Hn). rewrite forallb_forall in E.
        exfalso. apply Hn, in_range_spec, E, Hz.
    - split; [discriminate|]. split; [intros _|reflexivity].
      assert (E2 : existsb (fun z => negb (in_range (length t) z)) l = true).
      { clear -E. induction l as [|x l IH]; cbn in *; [discriminate|].
        destruct (in_range (length t) x); cbn in *; auto. }
      apply existsb_exists in E2 as (z & Hz & Hn). exists z. split; [exact Hz|].
      rewrite negb_true_iff in Hn. intros C. apply in_range_spec in C. congruence.
  Qed.

  Lemma direct_roundtrip (c : cell A) m L p :
    c_lat c = Some L -> det L <> f0 -> rows3 m = Some p ->
    0 < length m -> (forall t, c_type c = Some t -> length t = length m) ->
    exists c', set_atom_direct c m = Ok c' /\
      c_cart c' = Some (map (fun v => vmul v L) p) /\
      get_atom_direct c' = Ok p.
  Proof.
    intros HL HD Hm H0 Ht. unfold set_atom_direct. rewrite Hm.
    pose proof (rows3_length _ _ Hm) as El.
    assert (G : (match c_type c with None => Nat.ltb 0 (length p) | Some t => shape_ok t p end) = true).
    { destruct (c_type c) as [t|]; [|apply Nat.ltb_lt; lia]. destruct (shape_okP t p) as [|N]; [reflexivity|].
      exfalso. apply N. specialize (Ht t eq_refl). lia. }
    rewrite G, HL. eexists. split; [reflexivity|]. split; [reflexivity|].
    unfold get_atom_direct. cbn. rewrite HL. destruct (f_dec (det L) f0); [contradiction|].
    f_equal. rewrite map_map. erewrite map_ext; [apply map_id|]. intros v. cbn.
    rewrite vmul_assoc, minv_r by exact HD. apply vmul_id.
  Qed.

  Lemma direct_singular (c : cell A) L p :
    c_lat c = Some L -> c_cart c = Some p -> det L = f0 -> get_atom_direct c = Err ELinAlg.
  Proof.
    intros HL HP HD. unfold get_atom_direct. rewrite HL, HP. destruct (f_dec (det L) f0); [reflexivity|contradiction].
  Qed.

  Lemma get_direct_defining (c : cell A) L p q :
    c_lat c = Some L -> c_cart c = Some p -> get_atom_direct c = Ok q -> map (fun v => vmul v L) q = p.
  Proof.
    intros HL HP. unfold get_atom_direct. rewrite HL, HP.
    destruct (f_dec (det L) f0) as [|HD]; [discriminate|]. intros H. injection H as <-.
    rewrite map_map. erewrite map_ext; [apply map_id|]. intros v. cbn.
    rewrite vmul_assoc, minv_l by exact HD. apply vmul_id.
  Qed.
End S.
