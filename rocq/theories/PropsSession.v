(** What a Python session may rely on when it holds several process objects:
    which objects they share, what an assignment does, what is left after a
    failing statement.  Session.v models core/pre_process.py, core/post_process.py. *)
From Coq Require Import String Ascii ZArith QArith Qcanon Bool Lia Arith List.
From Verif Require Import Base Dec Field Args Cell Super Displace Text Check KPoints Weight ArgsFacts Session.
Import ListNotations.
Local Open Scope list_scope.
Local Open Scope nat_scope.

(** ---- heap facts ---- *)
Lemma put_nth_length {A} n (f : A -> A) l : length (put_nth n f l) = length l.
Proof. revert n; induction l as [|x l IH]; intros [|n]; cbn; auto. Qed.

Lemma put_nth_same {A} n (f : A -> A) l : nth_error (put_nth n f l) n = option_map f (nth_error l n).
Proof. revert n; induction l as [|x l IH]; intros [|n]; cbn; auto. Qed.

Lemma put_nth_other {A} n m (f : A -> A) l : m <> n -> nth_error (put_nth n f l) m = nth_error l m.
Proof.
  revert n m; induction l as [|x l IH]; intros [|n] [|m] H; cbn; auto.
  - contradiction.
Qed.

(** [h'] is [h] with at most the objects of [X] changed and new ones appended. *)
Definition keeps (X : list ref) (h h' : heap) : Prop :=
  length h <= length h' /\ forall r, r < length h -> ~ In r X -> nth_error h' r = nth_error h r.

Lemma keeps_refl X h : keeps X h h.
Proof. split; auto. Qed.

Lemma keeps_trans X h1 h2 h3 : keeps X h1 h2 -> keeps X h2 h3 -> keeps X h1 h3.
Proof.
  intros [L1 K1] [L2 K2]; split; [lia|]. intros r Hr Hn.
  rewrite K2; [apply K1; auto|lia|auto].
Qed.

Lemma keeps_incl X Y h h' : incl X Y -> keeps X h h' -> keeps Y h h'.
Proof. intros HI [L K]; split; auto. Qed.

Lemma keeps_put_cell X h r c : In r X -> keeps X h (put_cell h r c).
Proof.
  intros HI; split; [unfold put_cell; rewrite put_nth_length; lia|].
  intros m _ Hn. unfold put_cell. apply put_nth_other. intros ->; contradiction.
Qed.

Lemma keeps_put_arg X h r a : In r X -> keeps X h (put_arg h r a).
Proof.
  intros HI; split; [unfold put_arg; rewrite put_nth_length; lia|].
  intros m _ Hn. unfold put_arg. apply put_nth_other. intros ->; contradiction.
Qed.

Lemma keeps_app X h l : keeps X h (h ++ l).
Proof. split; [rewrite app_length; lia|]. intros r Hr _. apply nth_error_app1; auto. Qed.

Lemma keeps_andthen X h r f :
  keeps X h (fst r) -> (forall h1, keeps X h h1 -> keeps X h (fst (f h1))) ->
  keeps X h (fst (andthen r f)).
Proof. destruct r as [h1 [e|]]; cbn; auto. Qed.

Lemma read_cell_keeps X h0 h r f code : In r X -> keeps X h0 h -> keeps X h0 (fst (read_cell h r f code)).
Proof.
  intros HI HK. unfold read_cell.
  destruct (get_cell h r); [|exact HK].
  destruct (reader_of code); [|cbn; eapply keeps_trans; [exact HK|apply keeps_put_cell; auto]].
  destruct f as [t|]; [|cbn; eapply keeps_trans; [exact HK|apply keeps_put_cell; auto]].
  destruct (read_unit_cell _ _ _) as [c e]; cbn. eapply keeps_trans; [exact HK|apply keeps_put_cell; auto].
Qed.

Lemma set_super_keeps X h0 h ru rs ra : In rs X -> keeps X h0 h -> keeps X h0 (fst (set_super_h h ru rs ra)).
Proof.
  intros HI HK. unfold set_super_h. destruct (get_super h rs); [|exact HK].
  assert (K1 : keeps X h0 (put_cell h rs cell_init)) by (eapply keeps_trans; [exact HK|apply keeps_put_cell; auto]).
  destruct (get_cell _ ru); [|exact K1]. destruct (get_arg _ ra); [|exact K1].
  destruct (set_super_cell_st _ _) as [s e]; cbn. eapply keeps_trans; [exact K1|apply keeps_put_cell; auto].
Qed.

Lemma set_super_ind_keeps X h0 h ru rs ra : In rs X -> keeps X h0 h -> keeps X h0 (fst (set_super_ind_h h ru rs ra)).
Proof.
  intros HI HK. unfold set_super_ind_h. destruct (get_super h rs) as [s|]; [|exact HK].
  destruct (get_arg h ra) as [a|]; [|exact HK].
  destruct (bind _ _) as [E|]; [|exact HK].
  match goal with |- context [put_cell h rs ?b] => set (h1 := put_cell h rs b) end.
  assert (K1 : keeps X h0 h1) by (eapply keeps_trans; [exact HK|apply keeps_put_cell; auto]).
  destruct (get_cell h1 ru) as [u|]; [|exact K1]. destruct (c_true u); [|exact K1].
  cbn. eapply keeps_trans; [exact K1|apply keeps_put_cell; auto].
Qed.

Lemma set_arg_keeps X h0 h ra d : In ra X -> keeps X h0 h -> keeps X h0 (fst (set_arg_h h ra d)).
Proof.
  intros HI HK. unfold set_arg_h. destruct (get_arg h ra); [|exact HK].
  destruct (set_user_arg_st _ _) as [a' e]; cbn. eapply keeps_trans; [exact HK|apply keeps_put_arg; auto].
Qed.

Section SessionProps.
  Context {RM FC W : Type}.
  Variable rm_empty : RM.
  Variable fc_empty : nat -> nat -> FC.
  Variable recip : cell Qc -> RM -> RM * option err.
  Variable forces : cell Qc -> cell Qc -> args -> bool -> list string -> FC -> FC * option err.
  Variable phonon : cell Qc -> cell Qc -> args -> RM -> FC -> v3 Qc -> result W.
  Variable search : cell Qc -> cell Qc -> args -> result (option (list (nat * (v3 Qc * list (v3 Qc))))).
  Notation step := (@Session.step RM FC W rm_empty fc_empty recip forces phonon search).
  Notation run := (@Session.run RM FC W rm_empty fc_empty recip forces phonon search).
  Notation state := (@Session.state RM FC W).
  Notation proc := (@Session.proc RM FC W).
  Notation start := (@Session.start RM FC W).

  (** ---- vocabulary of the statements ---- *)

  (** The three objects of a process. *)
  Definition refs_of (q : proc) : list ref := [p_arg q; p_unit q; p_super q].

  (** What the caller sees of process [p]: process.user_arg, process.unit_cell,
      process.super_cell and the arrays of a PostProcess. *)
  Definition objects (st : state) (q : proc) : option obj * option obj * option obj :=
    (nth_error (st_heap st) (p_arg q), nth_error (st_heap st) (p_unit q), nth_error (st_heap st) (p_super q)).
  Definition shows (st : state) (p : nat) :=
    option_map (fun q => (objects st q, p_post q)) (nth_error (st_procs st) p).
  (** Its objects only. *)
  Definition shows_objects (st : state) (p : nat) :=
    option_map (objects st) (nth_error (st_procs st) p).

  (** The process whose method or attribute a statement uses. *)
  Definition about (c : cmd) : option nat :=
    match c with
    | AssignArg p _ | AssignUnit p _ | AssignSuper p _ | SetUserArg p _ | SetUnitCell p _ _ | SetSuperCell p
    | WriteDisplace p _ | SetRecip p | SetForces p _ _ | SetK p _ | Eval p => Some p
    | _ => None
    end.
  (** An assignment process.attribute = object. *)
  Definition assigns (c : cmd) (p : nat) : Prop :=
    match c with AssignArg p' _ | AssignUnit p' _ | AssignSuper p' _ => p' = p | _ => False end.

  (** States of a session that starts by importing the package. *)
  Definition reachable (st : state) : Prop := exists cs, st = run start cs.

  (** ---- what one statement can change ---- *)

  Definition valid (h : heap) (q : proc) : Prop :=
    Forall (fun r => r < length h) [p_arg q; p_unit q; p_super q; y_unit q; y_super q; y_arg q].

  Lemma valid_more h h' q : length h <= length h' -> valid h q -> valid h' q.
  Proof. intros HL. unfold valid. apply Forall_impl. intros; lia. Qed.

  (** Effects of a statement. *)
  Record effect (st : state) (c : cmd) (st' : state) : Prop := mkEffect {
    ef_heap : exists X, keeps X (st_heap st) (st_heap st') /\
                (forall r, In r X -> In r (passed c) \/
                   exists p q, about c = Some p /\ nth_error (st_procs st) p = Some q /\ In r (refs_of q));
    ef_old : forall m, m < length (st_procs st) -> about c <> Some m ->
               nth_error (st_procs st') m = nth_error (st_procs st) m;
    ef_same : forall m q, nth_error (st_procs st) m = Some q -> about c = Some m ->
               exists q', nth_error (st_procs st') m = Some q' /\
                 (refs_of q' = refs_of q \/
                  (assigns c m /\ forall r, In r (refs_of q') -> In r (refs_of q) \/ In r (passed c))) ;
    ef_new : forall m q', nth_error (st_procs st') m = Some q' -> length (st_procs st) <= m ->
               forall r, In r (refs_of q') -> In r (passed c) \/ length (st_heap st) <= r;
    ef_len : length (st_procs st) <= length (st_procs st');
    ef_valid : Forall (valid (st_heap st)) (st_procs st) -> Forall (fun r => r < length (st_heap st)) (passed c) ->
               Forall (valid (st_heap st')) (st_procs st') }.

  Lemma put_nth_Forall {A} (P : A -> Prop) n f l :
    Forall P l -> (forall x, In x l -> P (f x)) -> Forall P (put_nth n f l).
  Proof.
    revert n; induction l as [|x l IH]; intros [|n] H HF; cbn; auto; inversion_clear H; constructor; auto.
    - apply HF; left; reflexivity.
    - apply IH; auto. intros y Hy; apply HF; right; exact Hy.
  Qed.

  Lemma effect_none st c : effect st c st.
  Proof.
    constructor.
    - exists []; split; [apply keeps_refl|]. intros r [].
    - auto.
    - intros m q Hq _. exists q; auto.
    - intros m q' Hq Hm. apply nth_error_None in Hm. congruence.
    - lia.
    - auto.
  Qed.

  (** A statement that only writes objects of process [p] or passed ones. *)
  Lemma effect_heap st c h' g' X :
    keeps X (st_heap st) h' ->
    (forall r, In r X -> In r (passed c) \/
       exists p q, about c = Some p /\ nth_error (st_procs st) p = Some q /\ In r (refs_of q)) ->
    effect st c (mkState h' (st_procs st) g').
  Proof.
    intros HK HX. constructor; cbn.
    - exists X; auto.
    - auto.
    - intros m q Hq _. exists q; auto.
    - intros m q' Hq Hm. apply nth_error_None in Hm. congruence.
    - lia.
    - intros HV _. eapply Forall_impl; [|exact HV]. intros q. apply valid_more. exact (proj1 HK).
  Qed.

  (** A statement that rewrites process [p] keeping its objects. *)
  Lemma effect_proc st c h' g' p f X :
    about c = Some p -> (forall q, refs_of (f q) = refs_of q) ->
    (forall q, valid h' q -> valid h' (f q)) ->
    keeps X (st_heap st) h' ->
    (forall r, In r X -> In r (passed c) \/
       exists p q, about c = Some p /\ nth_error (st_procs st) p = Some q /\ In r (refs_of q)) ->
    effect st c (mkState h' (put_nth p f (st_procs st)) g').
  Proof.
    intros HA HF HF2 HK HX. constructor; cbn.
    - exists X; auto.
    - intros m Hm Hn. apply put_nth_other. congruence.
    - intros m q Hq Hm. assert (m = p) as -> by congruence.
      exists (f q). rewrite put_nth_same, Hq. cbn. auto.
    - intros m q' Hq Hm.
      assert (length (put_nth p f (st_procs st)) <= m) by (rewrite put_nth_length; exact Hm).
      apply nth_error_None in H. congruence.
    - rewrite put_nth_length. lia.
    - intros HV _. apply put_nth_Forall.
      + eapply Forall_impl; [|exact HV]. intros q. apply valid_more. exact (proj1 HK).
      + intros q Hq. apply HF2. eapply valid_more; [exact (proj1 HK)|]. rewrite Forall_forall in HV. auto.
  Qed.

  Lemma effect_assign st c p r f :
    about c = Some p -> assigns c p -> In r (passed c) ->
    (forall q x, In x (refs_of (f q)) -> In x (refs_of q) \/ x = r) ->
    (forall q, r < length (st_heap st) -> valid (st_heap st) q -> valid (st_heap st) (f q)) ->
    effect st c (with_proc st p f).
  Proof.
    intros HA HS HP HF HF2. constructor; cbn.
    - exists []; split; [apply keeps_refl|intros x []].
    - intros m Hm Hn. apply put_nth_other. congruence.
    - intros m q Hq Hm. assert (m = p) as -> by congruence.
      exists (f q). rewrite put_nth_same, Hq. cbn. split; [reflexivity|]. right. split; [exact HS|].
      intros x Hx. destruct (HF q x Hx) as [H| ->]; auto.
    - intros m q' Hq Hm.
      assert (length (put_nth p f (st_procs st)) <= m) by (rewrite put_nth_length; exact Hm).
      apply nth_error_None in H. congruence.
    - rewrite put_nth_length. lia.
    - intros HV HR. rewrite Forall_forall in HR. apply put_nth_Forall; [exact HV|].
      intros q Hq. apply HF2; [auto|]. rewrite Forall_forall in HV. auto.
  Qed.

  (** The memo of a deep copy: every entry is a fresh object equal to the original. *)
  Definition memo_ok (h0 h : heap) (memo : list (ref * ref)) : Prop :=
    (exists l, h = h0 ++ l) /\
    Forall (fun m => length h0 <= snd m < length h /\ fst m < length h0 /\
                     nth_error h (snd m) = nth_error h0 (fst m)) memo /\
    (forall a b, In a memo -> In b memo -> snd a = snd b -> fst a = fst b).

  Lemma copy_ref_ok h0 h memo r h' memo' r' :
    memo_ok h0 h memo -> r < length h0 -> copy_ref h memo r = (h', memo', r') ->
    memo_ok h0 h' memo' /\ In (r, r') memo' /\ incl memo memo'.
  Proof.
    intros ((l & Hl) & HF & HI) Hr. unfold copy_ref. destruct (find (fun m => Nat.eqb (fst m) r) memo) as [m|] eqn:E.
    - intros X; injection X as <- <- <-. apply find_some in E as [E1 E2]. apply Nat.eqb_eq in E2.
      split; [split; [exists l; exact Hl|split; [exact HF|exact HI]]|]. split; [|apply incl_refl].
      destruct m as [a b]; cbn in *; subst; exact E1.
    - intros X; injection X as <- <- <-.
      assert (Hlen : length h0 <= length h) by (rewrite Hl, app_length; lia).
      split; [|split; [left; reflexivity|apply incl_tl, incl_refl]].
      split; [exists (l ++ [nth r h OOther]); rewrite Hl, app_assoc; reflexivity|]. split.
      + constructor.
        * cbn. rewrite app_length; cbn [length]. repeat split; [lia|lia|lia|].
          rewrite nth_error_app2, Nat.sub_diag by lia. cbn.
          rewrite Hl, app_nth1 by lia. symmetry. apply nth_error_nth'. lia.
        * eapply Forall_impl; [|exact HF]. intros m (A & B & C). rewrite app_length; cbn [length].
          repeat split; [lia|lia|lia|]. rewrite nth_error_app1 by lia. exact C.
      + rewrite Forall_forall in HF.
        intros a b [<-|Ha] [<-|Hb] HE; cbn in *; auto.
        * specialize (HF _ Hb). unfold ref in *. lia.
        * specialize (HF _ Ha). unfold ref in *. lia.
  Qed.

  (** A deep copy: fresh objects with the same contents, aliased as in the original. *)
  Lemma copy_proc_ok h q h' q' :
    valid h q -> copy_proc h q = (h', q') ->
    (exists l, h' = h ++ l) /\ valid h' q' /\ p_post q' = p_post q /\
    Forall (fun r => length h <= r) [p_arg q'; p_unit q'; p_super q'; y_unit q'; y_super q'; y_arg q'] /\
    nth_error h' (p_arg q') = nth_error h (p_arg q) /\
    nth_error h' (p_unit q') = nth_error h (p_unit q) /\
    nth_error h' (p_super q') = nth_error h (p_super q) /\
    nth_error h' (y_unit q') = nth_error h (y_unit q) /\
    nth_error h' (y_super q') = nth_error h (y_super q) /\
    nth_error h' (y_arg q') = nth_error h (y_arg q).
  Proof.
    intros HV. unfold copy_proc.
    inversion_clear HV as [|? ? V1 HV1]. inversion_clear HV1 as [|? ? V2 HV2]. inversion_clear HV2 as [|? ? V3' HV3].
    inversion_clear HV3 as [|? ? V4 HV4]. inversion_clear HV4 as [|? ? V5 HV5]. inversion_clear HV5 as [|? ? V6 HV6].
    assert (M0 : memo_ok h h []) by (split; [exists []; symmetry; apply app_nil_r|split; [constructor|intros a b []]]).
    destruct (copy_ref h [] (p_arg q)) as [[h1 m1] a] eqn:E1.
    destruct (copy_ref_ok _ _ _ _ _ _ _ M0 V1 E1) as (M1 & I1 & _).
    destruct (copy_ref h1 m1 (p_unit q)) as [[h2 m2] u] eqn:E2.
    destruct (copy_ref_ok _ _ _ _ _ _ _ M1 V2 E2) as (M2 & I2 & S2).
    destruct (copy_ref h2 m2 (p_super q)) as [[h3 m3] s] eqn:E3.
    destruct (copy_ref_ok _ _ _ _ _ _ _ M2 V3' E3) as (M3 & I3 & S3).
    destruct (copy_ref h3 m3 (y_unit q)) as [[h4 m4] yu] eqn:E4.
    destruct (copy_ref_ok _ _ _ _ _ _ _ M3 V4 E4) as (M4 & I4 & S4).
    destruct (copy_ref h4 m4 (y_super q)) as [[h5 m5] ys] eqn:E5.
    destruct (copy_ref_ok _ _ _ _ _ _ _ M4 V5 E5) as (M5 & I5 & S5).
    destruct (copy_ref h5 m5 (y_arg q)) as [[h6 m6] ya] eqn:E6.
    destruct (copy_ref_ok _ _ _ _ _ _ _ M5 V6 E6) as (M6 & I6 & S6).
    intros X; injection X as <- <-.
    destruct M6 as (P & HF & _). rewrite Forall_forall in HF.
    assert (J5 : In (y_super q, ys) m6) by auto.
    assert (J4 : In (y_unit q, yu) m6) by auto.
    assert (J3 : In (p_super q, s) m6) by auto.
    assert (J2 : In (p_unit q, u) m6) by auto 10.
    assert (J1 : In (p_arg q, a) m6) by auto 10.
    pose proof (HF _ J1) as F1; pose proof (HF _ J2) as F2; pose proof (HF _ J3) as F3.
    pose proof (HF _ J4) as F4; pose proof (HF _ J5) as F5; pose proof (HF _ I6) as F6.
    cbn in F1, F2, F3, F4, F5, F6. cbn.
    split; [exact P|]. split; [unfold valid; cbn; repeat constructor; lia|]. split; [reflexivity|].
    split; [repeat constructor; lia|].
    split; [exact (proj2 (proj2 F1))|]. split; [exact (proj2 (proj2 F2))|]. split; [exact (proj2 (proj2 F3))|].
    split; [exact (proj2 (proj2 F4))|]. split; [exact (proj2 (proj2 F5))|]. exact (proj2 (proj2 F6)).
  Qed.

  (** Appending one process. *)
  Lemma effect_app st c h' g' q X :
    about c = None ->
    keeps X (st_heap st) h' -> (forall r, In r X -> In r (passed c)) ->
    (forall r, In r (refs_of q) -> In r (passed c) \/ length (st_heap st) <= r) ->
    (Forall (valid (st_heap st)) (st_procs st) -> Forall (fun r => r < length (st_heap st)) (passed c) -> valid h' q) ->
    effect st c (mkState h' (st_procs st ++ [q]) g').
  Proof.
    intros HA HK HX HR HV. constructor; cbn.
    - exists X; split; auto.
    - intros m Hm _. apply nth_error_app1; auto.
    - intros; congruence.
    - intros m q' Hq Hm r Hr.
      assert (m = length (st_procs st)) as ->.
      { assert (m < length (st_procs st ++ [q])) by (apply nth_error_Some; congruence).
        rewrite app_length in H; cbn in H; lia. }
      rewrite nth_error_app2, Nat.sub_diag in Hq by lia. cbn in Hq. injection Hq as <-. auto.
    - rewrite app_length; lia.
    - intros H1 H2. apply Forall_app; split; [|constructor; [auto|constructor]].
      eapply Forall_impl; [|exact H1]. intros q0. apply valid_more. exact (proj1 HK).
  Qed.

  Lemma set_user_arg_p_keeps X h (q : proc) d :
    incl (refs_of q) X -> keeps X h (fst (set_user_arg_p h q d)).
  Proof.
    intros HI. unfold set_user_arg_p. apply keeps_andthen.
    - apply set_arg_keeps; [apply HI; left; reflexivity|apply keeps_refl].
    - intros h1 K1. destruct (p_post q); [|exact K1].
      destruct (bind _ _); [|exact K1]. apply set_super_ind_keeps; [|exact K1].
      apply HI; right; right; left; reflexivity.
  Qed.

  Lemma write_displace_keeps X h (q : proc) sym :
    incl (refs_of q) X -> keeps X h (fst (fst (write_displace_p search h q sym))).
  Proof.
    intros HI. unfold write_displace_p. destruct (get_cell h (p_super q)) as [s|]; [|apply keeps_refl].
    assert (K1 : keeps X h (put_cell h (p_super q) (set_selective s false)))
      by (apply keeps_put_cell; apply HI; right; right; left; reflexivity).
    destruct (bind _ _) as [[[a u] pbc]|]; [|exact K1].
    match goal with |- context [match ?m with Ok _ => _ | Err _ => _ end] => destruct m as [[s' o]|] end; [|exact K1].
    cbn. eapply keeps_trans; [exact K1|]. apply keeps_put_cell. apply HI; right; right; left; reflexivity.
  Qed.

  Lemma new_post_effect st fu fs code oa ou os :
    effect st (NewPost fu fs code oa ou os)
      (fst (new_post rm_empty fc_empty st fu fs code (default oa post_arg0) (default ou post_unit0) (default os post_super0))).
  Proof.
    set (a := default oa post_arg0). set (u := default ou post_unit0). set (s := default os post_super0).
    unfold new_post.
    match goal with |- context [andthen (read_cell (st_heap st) u fu code) ?f] => set (ff := f) end.
    assert (K : keeps [a; u; s] (st_heap st) (fst (andthen (read_cell (st_heap st) u fu code) ff))).
    { apply keeps_andthen.
      - apply read_cell_keeps; [right; left; reflexivity|apply keeps_refl].
      - intros h1 K1. unfold ff. apply keeps_andthen.
        + destruct (bind _ _); [|exact K1]. cbn. eapply keeps_trans; [exact K1|].
          apply keeps_put_cell; right; left; reflexivity.
        + intros h2 K2. apply read_cell_keeps; [right; right; left; reflexivity|exact K2]. }
    destruct (andthen _ _) as [h3 [e|]]; cbn [fst] in K.
    - cbn. eapply effect_heap; [exact K|]. intros r Hr. left; exact Hr.
    - destruct (bind _ _) as [fc|e].
      + cbn. eapply effect_app; [reflexivity|exact K|intros r Hr; exact Hr| |].
        * intros r Hr; left; exact Hr.
        * intros _ HR. cbn in HR. fold a u s in HR.
          inversion_clear HR as [|? ? A1 HR1]; inversion_clear HR1 as [|? ? A2 HR2]; inversion_clear HR2 as [|? ? A3 HR3].
          destruct K as [K _]. unfold valid; cbn. repeat constructor; lia.
      + cbn. eapply effect_heap; [exact K|]. intros r Hr. left; exact Hr.
  Qed.

  Lemma passed_valid (st : state) c :
    forallb (fun r => Nat.ltb r (length (st_heap st))) (passed c) = true ->
    Forall (fun r => r < length (st_heap st)) (passed c).
  Proof.
    intros H. rewrite forallb_forall in H. apply Forall_forall. intros r Hr. apply Nat.ltb_lt; auto.
  Qed.

  Ltac dead := apply effect_none.
  Ltac owner Hq := intros ? ?; right; do 2 eexists; split; [reflexivity|split; [exact Hq|]]; assumption.

  (** What any statement can do to the session. *)
  Lemma step_effect st c :
    Forall (valid (st_heap st)) (st_procs st) -> effect st c (fst (step st c)).
  Proof.
    intros HW. unfold Session.step. destruct (forallb _ _) eqn:EP; [|dead]. cbn [negb].
    apply passed_valid in EP.
    destruct c.
    - eapply (effect_heap _ _ _ _ []); [apply keeps_app|intros r []].
    - eapply (effect_heap _ _ _ _ []); [apply keeps_app|intros r []].
    - eapply (effect_heap _ _ _ _ []); [apply keeps_app|intros r []].
    - cbn. eapply (effect_app _ _ _ _ _ []); [reflexivity|apply keeps_refl|intros r []|intros r Hr; left; exact Hr|].
      intros _ HR. cbn in HR.
      inversion_clear HR as [|? ? A1 HR1]; inversion_clear HR1 as [|? ? A2 HR2]; inversion_clear HR2 as [|? ? A3 HR3].
      unfold valid; cbn. repeat constructor; assumption.
    - apply new_post_effect.
    - destruct (nth_error (st_procs st) p) as [q|] eqn:Hq; [|dead]. destruct (is_arg _ _); [|dead].
      cbn [fst]. eapply (effect_assign _ _ _ r); [reflexivity|reflexivity|left; reflexivity| |].
      + intros q0 x [<-|[<-|[<-|[]]]]; cbn; auto.
      + intros q0 Hr HV. inversion_clear HV as [|? ? A1 HR1]. unfold valid; cbn. constructor; assumption.
    - destruct (nth_error (st_procs st) p) as [q|] eqn:Hq; [|dead]. destruct (is_unit _ _); [|dead].
      cbn [fst]. eapply (effect_assign _ _ _ r); [reflexivity|reflexivity|left; reflexivity| |].
      + intros q0 x [<-|[<-|[<-|[]]]]; cbn; auto.
      + intros q0 Hr HV. inversion_clear HV as [|? ? A1 HR1]; inversion_clear HR1 as [|? ? A2 HR2].
        unfold valid; cbn. repeat (constructor; [assumption|]). assumption.
    - destruct (nth_error (st_procs st) p) as [q|] eqn:Hq; [|dead]. destruct (is_super _ _); [|dead].
      cbn [fst]. eapply (effect_assign _ _ _ r); [reflexivity|reflexivity|left; reflexivity| |].
      + intros q0 x [<-|[<-|[<-|[]]]]; cbn; auto.
      + intros q0 Hr HV. inversion_clear HV as [|? ? A1 HR1]; inversion_clear HR1 as [|? ? A2 HR2]; inversion_clear HR2 as [|? ? A3 HR3].
        unfold valid; cbn. repeat (constructor; [assumption|]). assumption.
    - destruct (nth_error (st_procs st) p) as [q|] eqn:Hq; [|dead]. unfold with_heap; cbn [fst].
      eapply (effect_heap _ _ _ _ (refs_of q)); [apply set_user_arg_p_keeps, incl_refl|owner Hq].
    - destruct (nth_error (st_procs st) p) as [q|] eqn:Hq; [|dead]. unfold with_heap; cbn [fst].
      eapply (effect_heap _ _ _ _ (refs_of q)); [|owner Hq].
      apply read_cell_keeps; [right; left; reflexivity|apply keeps_refl].
    - destruct (nth_error (st_procs st) p) as [q|] eqn:Hq; [|dead]. unfold with_heap; cbn [fst].
      eapply (effect_heap _ _ _ _ (refs_of q)); [|owner Hq].
      apply keeps_andthen.
      + apply set_super_keeps; [right; right; left; reflexivity|apply keeps_refl].
      + intros h1 K1. apply set_super_ind_keeps; [right; right; left; reflexivity|exact K1].
    - destruct (nth_error (st_procs st) p) as [q|] eqn:Hq; [|dead].
      pose proof (write_displace_keeps (refs_of q) (st_heap st) q sym (incl_refl _)) as K.
      destruct (write_displace_p search (st_heap st) q sym) as [[h1 b] e]. cbn [fst] in *.
      destruct b.
      + eapply (effect_proc _ _ _ _ _ _ (refs_of q)); [reflexivity|reflexivity| |exact K|owner Hq].
        intros q0 HV. inversion_clear HV as [|? ? A1 HR1]; inversion_clear HR1 as [|? ? A2 HR2]; inversion_clear HR2 as [|? ? A3 HR3].
        unfold valid; cbn. repeat (constructor; [assumption|]). constructor.
      + eapply (effect_heap _ _ _ _ (refs_of q)); [exact K|owner Hq].
    - destruct (nth_error (st_procs st) p) as [q|] eqn:Hq; [|dead]. destruct (p_post q) as [o|]; [|dead].
      destruct (get_cell _ _); [|dead]. destruct (recip _ _) as [rm e]. cbn [fst].
      eapply (effect_proc _ _ _ _ _ _ []); [reflexivity|reflexivity|intros q0 HV; exact HV|apply keeps_refl|intros r []].
    - destruct (nth_error (st_procs st) p) as [q|] eqn:Hq; [|dead]. destruct (p_post q) as [o|]; [|dead].
      destruct (bind _ _) as [[[[a pbc] u] s]|]; [|dead]. destruct (forces _ _ _ _ _ _) as [fc e]. cbn [fst].
      eapply (effect_proc _ _ _ _ _ _ []); [reflexivity| | |apply keeps_refl|intros r []].
      + intros q0. destruct (_ && _)%bool; reflexivity.
      + intros q0 HV. destruct (_ && _)%bool; [|exact HV].
        inversion_clear HV as [|? ? A1 HR1]; inversion_clear HR1 as [|? ? A2 HR2]; inversion_clear HR2 as [|? ? A3 HR3].
        unfold valid; cbn. repeat (constructor; [assumption|]). constructor.
    - destruct (nth_error (st_procs st) p) as [q|] eqn:Hq; [|dead]. destruct (p_post q) as [o|]; [|dead].
      destruct f as [t|]; [|dead]. destruct (get_arg _ _).
      + destruct (set_k_points _ _) as [[ks auto] e]. cbn [fst].
        eapply (effect_proc _ _ _ _ _ _ []); [reflexivity|reflexivity|intros q0 HV; exact HV|apply keeps_refl|intros r []].
      + eapply (effect_proc _ _ _ _ _ _ []); [reflexivity|reflexivity|intros q0 HV; exact HV|apply keeps_refl|intros r []].
    - destruct (nth_error (st_procs st) p) as [q|] eqn:Hq; [|dead]. destruct (p_post q) as [o|]; [|dead].
      destruct (eval_p _ _ _ _) as [[w g] e]. cbn [fst].
      eapply (effect_proc _ _ _ _ _ _ []); [reflexivity|reflexivity|intros q0 HV; exact HV|apply keeps_refl|intros r []].
    - unfold with_heap; cbn [fst]. eapply (effect_heap _ _ _ _ [r]).
      + apply set_arg_keeps; [left; reflexivity|apply keeps_refl].
      + intros x Hx; left; exact Hx.
    - destruct (nth_error (st_heap st) r) as [[| b c|]|]; try dead.
      destruct (run_op c o) as [c'|]; [|dead]. cbn [fst].
      eapply (effect_heap _ _ _ _ [r]).
      + apply keeps_put_cell; left; reflexivity.
      + intros x Hx; left; exact Hx.
    - destruct (nth_error (st_procs st) p) as [q|] eqn:Hq; [|dead].
      destruct (copy_proc (st_heap st) q) as [h1 q1] eqn:EC. cbn [fst].
      assert (HV : valid (st_heap st) q) by (rewrite Forall_forall in HW; apply HW; eapply nth_error_In; exact Hq).
      destruct (copy_proc_ok _ _ _ _ HV EC) as ((l & ->) & V & _ & HF & _).
      eapply (effect_app _ _ _ _ _ []); [reflexivity|apply keeps_app|intros r []| |auto].
      intros r Hr. right. rewrite Forall_forall in HF. apply HF.
      destruct Hr as [<-|[<-|[<-|[]]]]; cbn; auto.
  Qed.

  Lemma run_cons st c cs : run st (c :: cs) = run (fst (step st c)) cs.
  Proof. reflexivity. Qed.

  Lemma run_app st cs ds : run st (cs ++ ds) = run (run st cs) ds.
  Proof. unfold Session.run. apply fold_left_app. Qed.

  Lemma step_valid st c :
    Forall (valid (st_heap st)) (st_procs st) -> Forall (valid (st_heap (fst (step st c)))) (st_procs (fst (step st c))).
  Proof.
    intros HV. destruct (forallb (fun r => Nat.ltb r (length (st_heap st))) (passed c)) eqn:EP.
    - apply (ef_valid _ _ _ (step_effect st c HV)); [exact HV|apply passed_valid; exact EP].
    - unfold Session.step. rewrite EP. exact HV.
  Qed.

  Lemma run_valid st cs :
    Forall (valid (st_heap st)) (st_procs st) -> Forall (valid (st_heap (run st cs))) (st_procs (run st cs)).
  Proof.
    revert st; induction cs as [|c cs IH]; intros st HV; [exact HV|].
    rewrite run_cons. apply IH, step_valid, HV.
  Qed.

  Lemma reachable_valid st : reachable st -> Forall (valid (st_heap st)) (st_procs st).
  Proof. intros (cs & ->). apply run_valid. constructor. Qed.

  Lemma reachable_step st c : reachable st -> reachable (fst (step st c)).
  Proof. intros (cs & ->). exists (cs ++ [c]). rewrite run_app. reflexivity. Qed.

  Lemma reachable_run st cs : reachable st -> reachable (run st cs).
  Proof. intros (ds & ->). exists (ds ++ cs). rewrite run_app. reflexivity. Qed.

  (** Two processes with no common object. *)
  Definition apart (q q' : proc) : Prop := forall r, In r (refs_of q) -> ~ In r (refs_of q').

  Lemma nth_keep st c st' m q :
    effect st c st' -> nth_error (st_procs st) m = Some q -> about c <> Some m ->
    nth_error (st_procs st') m = Some q.
  Proof.
    intros HE Hq HA. rewrite (ef_old _ _ _ HE); auto. apply nth_error_Some. congruence.
  Qed.

  (** One statement leaves a process alone when it concerns another process
      with other objects. *)
  Lemma step_frame st c p q :
    Forall (valid (st_heap st)) (st_procs st) ->
    nth_error (st_procs st) p = Some q -> about c <> Some p ->
    (forall r, In r (passed c) -> ~ In r (refs_of q)) ->
    (forall p' q', about c = Some p' -> nth_error (st_procs st) p' = Some q' -> apart q q') ->
    nth_error (st_procs (fst (step st c))) p = Some q /\
    objects (fst (step st c)) q = objects st q.
  Proof.
    intros HV Hq HA HP HD. pose proof (step_effect st c HV) as HE.
    split; [eapply nth_keep; eauto|].
    destruct (ef_heap _ _ _ HE) as (X & [_ K] & HX).
    assert (Hv : valid (st_heap st) q) by (rewrite Forall_forall in HV; apply HV; eapply nth_error_In; exact Hq).
    inversion_clear Hv as [|? ? A1 V1]; inversion_clear V1 as [|? ? A2 V2]; inversion_clear V2 as [|? ? A3 V3'].
    assert (G : forall r, In r (refs_of q) -> ~ In r X).
    { intros r Hr HrX. destruct (HX r HrX) as [H|(p' & q' & B1 & B2 & B3)].
      - exact (HP r H Hr).
      - exact (HD p' q' B1 B2 r Hr B3). }
    unfold objects. rewrite !K; auto; apply G; cbn; auto.
  Qed.

  (** ---- C73: isolation ---- *)

  (** A process whose three objects no other process holds is not affected by
      any later session that neither uses it nor passes one of its objects. *)
  Theorem private_objects_are_isolated st cs p q :
    reachable st -> nth_error (st_procs st) p = Some q ->
    (forall p' q', p' <> p -> nth_error (st_procs st) p' = Some q' -> apart q q') ->
    Forall (fun c => about c <> Some p /\ forall r, In r (passed c) -> ~ In r (refs_of q)) cs ->
    shows (run st cs) p = shows st p.
  Proof.
    intros HR Hq HD HC. apply reachable_valid in HR as HV.
    enough (G : nth_error (st_procs (run st cs)) p = Some q /\ objects (run st cs) q = objects st q).
    { destruct G as [G1 G2]. unfold shows. rewrite G1, Hq. cbn. rewrite G2. reflexivity. }
    clear HR. revert st Hq HD HV. induction cs as [|c cs IH]; intros st Hq HD HV; [split; auto|].
    inversion_clear HC as [|? ? [HA HP] HC'].
    destruct (step_frame st c p q HV Hq HA HP) as [F1 F2].
    { intros p' q' HA' Hq'. apply (HD p'); [congruence|exact Hq']. }
    rewrite run_cons. pose proof (step_effect st c HV) as HE.
    destruct (IH HC' (fst (step st c)) F1) as [I1 I2].
    - intros m q' Hm Hq' r Hr Hr'.
      assert (Hv : valid (st_heap st) q) by (rewrite Forall_forall in HV; apply HV; eapply nth_error_In; exact Hq).
      destruct (Nat.lt_ge_cases m (length (st_procs st))) as [L|L].
      + destruct (nth_error (st_procs st) m) as [qm|] eqn:Eq; [|apply nth_error_None in Eq; lia].
        destruct (about c) as [m'|] eqn:EA.
        * destruct (Nat.eq_dec m' m) as [->|Hne].
          -- destruct (ef_same _ _ _ HE m qm Eq EA) as (q2 & E2 & [E3|[_ E3]]).
             ++ assert (q2 = q') as -> by congruence. rewrite E3 in Hr'. exact (HD m qm Hm Eq r Hr Hr').
             ++ assert (q2 = q') as -> by congruence. destruct (E3 r Hr') as [B|B].
                ** exact (HD m qm Hm Eq r Hr B).
                ** exact (HP r B Hr).
          -- rewrite (ef_old _ _ _ HE) in Hq'; [|exact L|rewrite EA; congruence].
             assert (qm = q') as -> by congruence. exact (HD m q' Hm Eq r Hr Hr').
        * rewrite (ef_old _ _ _ HE) in Hq'; [|exact L|rewrite EA; congruence].
          assert (qm = q') as -> by congruence. exact (HD m q' Hm Eq r Hr Hr').
      + destruct (ef_new _ _ _ HE m q' Hq' L r Hr') as [B|B].
        * exact (HP r B Hr).
        * inversion_clear Hv as [|? ? A1 V1]; inversion_clear V1 as [|? ? A2 V2]; inversion_clear V2 as [|? ? A3 V3'].
          destruct Hr as [<-|[<-|[<-|[]]]]; unfold ref in *; lia.
    - apply step_valid; exact HV.
    - split; [exact I1|]. rewrite I2. exact F2.
  Qed.

  (** The session in which it happens: three new objects passed to a new process. *)
  Theorem fresh_objects_are_private st (pc sc : bool) :
    reachable st ->
    let n := length (st_heap st) in
    let st' := run st [NewArg pc; NewCell sc; NewCell true; NewPre (Some n) (Some (S n)) (Some (S (S n)))] in
    let p := length (st_procs st) in
    reachable st' /\
    exists q, nth_error (st_procs st') p = Some q /\ refs_of q = [n; S n; S (S n)] /\
      forall p' q', p' <> p -> nth_error (st_procs st') p' = Some q' -> apart q q'.
  Proof.
    intros HR n st' p. split; [apply reachable_run; exact HR|].
    apply reachable_valid in HR as HV.
    assert (E : st_procs st' = st_procs st ++ [mkProc n (S n) (S (S n)) (S n) (S (S n)) n None]).
    { unfold st', Session.run. cbn [fold_left]. unfold Session.step. cbn [passed default forallb negb fst st_heap].
      rewrite !app_length. cbn [length].
      replace (n <? length (st_heap st) + 1 + 1 + 1) with true by (symmetry; apply Nat.ltb_lt; unfold n; lia).
      replace (S n <? length (st_heap st) + 1 + 1 + 1) with true by (symmetry; apply Nat.ltb_lt; unfold n; lia).
      replace (S (S n) <? length (st_heap st) + 1 + 1 + 1) with true by (symmetry; apply Nat.ltb_lt; unfold n; lia).
      reflexivity. }
    rewrite E. eexists. split; [unfold p; rewrite nth_error_app2, Nat.sub_diag by lia; reflexivity|].
    split; [reflexivity|]. intros p' q' Hne Hq' r Hr Hr'.
    assert (L : p' < length (st_procs st)).
    { assert (p' < length (st_procs st ++ [mkProc n (S n) (S (S n)) (S n) (S (S n)) n (@None (@post RM FC W))]))
        by (apply nth_error_Some; congruence).
      rewrite app_length in H; cbn in H. unfold p in Hne. lia. }
    rewrite nth_error_app1 in Hq' by exact L.
    assert (Hv : valid (st_heap st) q') by (rewrite Forall_forall in HV; apply HV; eapply nth_error_In; exact Hq').
    inversion_clear Hv as [|? ? A1 V1]; inversion_clear V1 as [|? ? A2 V2]; inversion_clear V2 as [|? ? A3 V3'].
    destruct Hr' as [<-|[<-|[<-|[]]]]; cbn in Hr; unfold n, ref in *; lia.
  Qed.

  (** The attributes of a process change only when they are assigned. *)
  Lemma run_refs st cs p q :
    Forall (valid (st_heap st)) (st_procs st) -> nth_error (st_procs st) p = Some q ->
    Forall (fun c => ~ assigns c p) cs ->
    exists q', nth_error (st_procs (run st cs)) p = Some q' /\ refs_of q' = refs_of q.
  Proof.
    revert st q. induction cs as [|c cs IH]; intros st q HV Hq HC; [exists q; auto|].
    inversion_clear HC as [|? ? HA HC']. rewrite run_cons. pose proof (step_effect st c HV) as HE.
    assert (G : exists q1, nth_error (st_procs (fst (step st c))) p = Some q1 /\ refs_of q1 = refs_of q).
    { destruct (about c) as [m|] eqn:EA.
      - destruct (Nat.eq_dec m p) as [->|Hne].
        + destruct (ef_same _ _ _ HE p q Hq EA) as (q2 & E2 & [E3|[E3 _]]); [eauto|contradiction].
        + exists q; split; [|reflexivity]. eapply nth_keep; [exact HE|exact Hq|congruence].
      - exists q; split; [|reflexivity]. eapply nth_keep; [exact HE|exact Hq|congruence]. }
    destruct G as (q1 & G1 & G2).
    destruct (IH (fst (step st c)) q1 (step_valid _ _ HV) G1 HC') as (q2 & H1 & H2).
    exists q2. split; [exact H1|congruence].
  Qed.

  Lemma same_refs_same_objects (st : state) q q' : refs_of q = refs_of q' -> objects st q = objects st q'.
  Proof. unfold refs_of, objects. intros H. injection H as -> -> ->. reflexivity. Qed.

  (** Processes constructed without arguments are not isolated: all of them show
      the same three objects for the rest of the session. *)
  Theorem default_processes_share_everything before between after :
    let st1 := run start before in
    let p := length (st_procs st1) in
    let st2 := run (fst (step st1 (NewPre None None None))) between in
    let p' := length (st_procs st2) in
    let st3 := run (fst (step st2 (NewPre None None None))) after in
    Forall (fun c => ~ assigns c p) between ->
    Forall (fun c => ~ assigns c p /\ ~ assigns c p') after ->
    exists o, shows_objects st3 p = Some o /\ shows_objects st3 p' = Some o.
  Proof.
    intros st1 p st2 p' st3 HB HA.
    assert (N : forall st cs, st = run start cs ->
              let st' := fst (step st (NewPre None None None)) in
              reachable st' /\
              exists q, nth_error (st_procs st') (length (st_procs st)) = Some q /\
                        refs_of q = [pre_arg0; pre_unit0; pre_super0]).
    { intros st cs E st'. split; [apply reachable_step; exists cs; exact E|].
      assert (L : 6 <= length (st_heap st)).
      { subst st. clear. revert cs. intros cs.
        assert (G : forall st, Forall (valid (st_heap st)) (st_procs st) -> length (st_heap st) <= length (st_heap (run st cs))).
        { induction cs as [|c cs IH]; intros st HV; [reflexivity|]. rewrite run_cons.
          etransitivity; [|apply IH, step_valid, HV].
          destruct (ef_heap _ _ _ (step_effect st c HV)) as (X & [K _] & _). exact K. }
        apply (G start). constructor. }
      unfold st', Session.step. cbn [passed default forallb negb].
      replace (pre_arg0 <? length (st_heap st)) with true by (symmetry; apply Nat.ltb_lt; unfold pre_arg0; lia).
      replace (pre_unit0 <? length (st_heap st)) with true by (symmetry; apply Nat.ltb_lt; unfold pre_unit0; lia).
      replace (pre_super0 <? length (st_heap st)) with true by (symmetry; apply Nat.ltb_lt; unfold pre_super0; lia).
      cbn [andb negb fst st_procs]. eexists. split; [rewrite nth_error_app2, Nat.sub_diag by lia; reflexivity|].
      reflexivity. }
    destruct (N st1 before eq_refl) as (R1 & q1 & Q1 & F1). fold p in Q1.
    assert (V1 := reachable_valid _ R1).
    destruct (run_refs _ between p q1 V1 Q1 HB) as (q2 & Q2 & F2). fold st2 in Q2.
    assert (E2 : exists cs, st2 = run start cs).
    { destruct R1 as (cs & Ec). exists (cs ++ between). unfold st2. rewrite Ec, run_app. reflexivity. }
    destruct E2 as (cs2 & E2).
    destruct (N st2 cs2 E2) as (R3 & q3 & Q3 & F3). fold p' in Q3.
    assert (V3' := reachable_valid _ R3).
    assert (Q2' : nth_error (st_procs (fst (step st2 (NewPre None None None)))) p = Some q2).
    { eapply nth_keep; [apply step_effect; apply reachable_valid; exists cs2; exact E2|exact Q2|discriminate]. }
    destruct (run_refs _ after p q2 V3' Q2') as (q4 & Q4 & F4).
    { eapply Forall_impl; [|exact HA]. intros c Hc; exact (proj1 Hc). }
    destruct (run_refs _ after p' q3 V3' Q3) as (q5 & Q5 & F5).
    { eapply Forall_impl; [|exact HA]. intros c Hc; exact (proj2 Hc). }
    fold st3 in Q4, Q5. exists (objects st3 q4). unfold shows_objects. rewrite Q4, Q5. cbn.
    split; [reflexivity|]. f_equal. apply same_refs_same_objects. congruence.
  Qed.

  (** A deep copy shows what the original shows and shares no object with any
      process; working on either leaves the other alone. *)
  Theorem deep_copy_is_independent st p q :
    reachable st -> nth_error (st_procs st) p = Some q ->
    let n := length (st_procs st) in
    let st' := fst (step st (Copy p)) in
    snd (step st (Copy p)) = None /\
    shows st' n = shows st p /\ shows st' p = shows st p /\
    (forall cs, Forall (fun c => about c = Some n /\ ~ assigns c n) cs -> shows (run st' cs) p = shows st p) /\
    (forall cs, Forall (fun c => about c <> Some n /\
                  forall r q', In r (passed c) -> nth_error (st_procs st') n = Some q' -> ~ In r (refs_of q')) cs ->
                shows (run st' cs) n = shows st p).
  Proof.
    intros HR Hq n st'.
    assert (HV := reachable_valid _ HR).
    assert (Hv : valid (st_heap st) q) by (rewrite Forall_forall in HV; apply HV; eapply nth_error_In; exact Hq).
    destruct (copy_proc (st_heap st) q) as [h1 q1] eqn:EC.
    destruct (copy_proc_ok _ _ _ _ Hv EC) as ((l & El) & V1 & EP & HF & E1 & E2 & E3 & _).
    assert (ES : step st (Copy p) = (mkState h1 (st_procs st ++ [q1]) (st_gamma st), None)).
    { unfold Session.step. cbn [passed forallb negb]. rewrite Hq, EC. reflexivity. }
    assert (EQ : nth_error (st_procs st') n = Some q1).
    { unfold st'. rewrite ES. cbn. unfold n. rewrite nth_error_app2, Nat.sub_diag by lia. reflexivity. }
    assert (Hp : p < n) by (unfold n; apply nth_error_Some; congruence).
    assert (EQp : nth_error (st_procs st') p = Some q).
    { unfold st'. rewrite ES. cbn. rewrite nth_error_app1 by exact Hp. exact Hq. }
    assert (HF' : forall r, In r (refs_of q1) -> length (st_heap st) <= r).
    { intros r Hr. rewrite Forall_forall in HF. apply HF. destruct Hr as [<-|[<-|[<-|[]]]]; cbn; auto. }
    assert (R' : reachable st') by (apply reachable_step; exact HR).
    assert (OLD : forall m qm, m <> n -> nth_error (st_procs st') m = Some qm -> forall r, In r (refs_of qm) -> r < length (st_heap st)).
    { intros m qm Hm Hqm r Hr.
      assert (Hl : m < length (st_procs st)).
      { assert (m < length (st_procs st')) by (apply nth_error_Some; congruence).
        unfold st' in H. rewrite ES in H. cbn in H. rewrite app_length in H. cbn in H. unfold n in Hm. lia. }
      unfold st' in Hqm. rewrite ES in Hqm. cbn in Hqm. rewrite nth_error_app1 in Hqm by exact Hl.
      assert (Hvm : valid (st_heap st) qm) by (rewrite Forall_forall in HV; apply HV; eapply nth_error_In; exact Hqm).
      unfold valid in Hvm. rewrite Forall_forall in Hvm. apply Hvm.
      destruct Hr as [<-|[<-|[<-|[]]]]; cbn; auto. }
    assert (OBJ : objects st' q = objects st q).
    { unfold objects, st'. rewrite ES. cbn. rewrite El.
      inversion_clear Hv as [|? ? A1 W1]; inversion_clear W1 as [|? ? A2 W2]; inversion_clear W2 as [|? ? A3 W3].
      rewrite !nth_error_app1 by assumption. reflexivity. }
    split; [rewrite ES; reflexivity|]. split.
    { unfold shows. rewrite EQ, Hq. cbn. f_equal. f_equal; [|exact EP].
      unfold objects, st'. rewrite ES. cbn. rewrite E1, E2, E3. reflexivity. }
    assert (SP : shows st' p = shows st p).
    { unfold shows. rewrite EQp, Hq. cbn. rewrite OBJ. reflexivity. }
    split; [exact SP|]. split.
    - intros cs HC.
      enough (G : forall cs s, Forall (fun c => about c = Some n /\ ~ assigns c n) cs ->
                 Forall (valid (st_heap s)) (st_procs s) -> nth_error (st_procs s) p = Some q ->
                 (exists qn, nth_error (st_procs s) n = Some qn /\ refs_of qn = refs_of q1) ->
                 nth_error (st_procs (run s cs)) p = Some q /\ objects (run s cs) q = objects s q).
      { destruct (G cs st' HC (reachable_valid _ R') EQp (ex_intro _ q1 (conj EQ eq_refl))) as [G1 G2].
        rewrite <- SP. unfold shows. rewrite G1, EQp. cbn. rewrite G2. reflexivity. }
      clear cs HC. induction cs as [|c cs IH]; intros s HC HVs Hqs Hqn; [split; auto|].
      inversion_clear HC as [|? ? [HA HS] HC']. rewrite run_cons.
      destruct Hqn as (qn & N1 & N2).
      assert (AP : forall r, In r (refs_of q) -> ~ In r (refs_of qn)).
      { intros r Hr Hr'. rewrite N2 in Hr'. apply HF' in Hr'.
        assert (r < length (st_heap st)) by (eapply OLD; [|exact EQp|exact Hr]; lia). lia. }
      destruct (step_frame s c p q HVs Hqs) as [F1 F2].
      + rewrite HA. intros X; injection X; lia.
      + destruct c; cbn in HA, HS |- *; try discriminate; try (intros r []); injection HA as ->; contradiction (HS eq_refl).
      + intros p' q' HA' Hq'. assert (p' = n) as -> by congruence.
        assert (q' = qn) as -> by congruence. exact AP.
      + destruct (IH (fst (step s c)) HC' (step_valid _ _ HVs) F1) as [I1 I2].
        * destruct (ef_same _ _ _ (step_effect s c HVs) n qn N1 HA) as (q2 & B1 & [B2|[B2 _]]); [|contradiction].
          exists q2. split; [exact B1|congruence].
        * split; [exact I1|congruence].
    - intros cs HC. transitivity (shows st' n).
      + apply (private_objects_are_isolated st' cs n q1); [exact R'|exact EQ| |].
        * intros m qm Hm Hqm r Hr Hr'. apply HF' in Hr.
          assert (r < length (st_heap st)) by (eapply OLD; [exact Hm|exact Hqm|exact Hr']). lia.
        * eapply Forall_impl; [|exact HC]. intros c [A B]; split; [exact A|].
          intros r Hr. exact (B r q1 Hr EQ).
      + unfold shows. rewrite EQ, Hq. cbn. f_equal. f_equal; [|exact EP].
        unfold objects, st'. rewrite ES. cbn. rewrite E1, E2, E3. reflexivity.
  Qed.

  (** ---- PostProcess constructions without objects ---- *)
  Lemma get_put_cell h r b c c' : nth_error h r = Some (OCell b c) -> nth_error (put_cell h r c') r = Some (OCell b c').
  Proof. intros H. unfold put_cell. rewrite put_nth_same, H. reflexivity. Qed.

  Lemma read_cell_ok h r f code h' :
    read_cell h r f code = (h', None) -> exists b c0, nth_error h r = Some (OCell b c0) /\
      exists c, nth_error h' r = Some (OCell b c) /\ (forall m, m <> r -> nth_error h' m = nth_error h m) /\
        match reader_of code with
        | None => c = cell_init
        | Some rdr => exists t, f = Some t /\ read_unit_cell rdr cell_init t = (c, None)
        end.
  Proof.
    unfold read_cell, get_cell. destruct (nth_error h r) as [[|b c0|]|] eqn:E; try discriminate.
    assert (O : forall c, forall m, m <> r -> nth_error (put_cell h r c) m = nth_error h m)
      by (intros c m Hm; unfold put_cell; apply put_nth_other; exact Hm).
    destruct (reader_of code) as [rdr|].
    - destruct f as [t|]; [|discriminate]. destruct (read_unit_cell rdr cell_init t) as [c [e|]] eqn:ER; [discriminate|].
      intros X; injection X as <-. exists b, c0. split; [reflexivity|]. exists c.
      split; [eapply get_put_cell; exact E|]. split; [apply O|]. exists t. auto.
    - intros X; injection X as <-. exists b, c0. split; [reflexivity|]. exists cell_init.
      split; [eapply get_put_cell; exact E|]. split; [apply O|]. reflexivity.
  Qed.

  Lemma set_mass_none : set_mass_true (cell_init : cell Qc) = Err EType.
  Proof. reflexivity. Qed.

  (** A second PostProcess built without passing objects replaces the structure
      the first one works on: after it, the first one's unit cell and supercell
      are those of the second one's files, whatever the first was built from. *)
  Theorem second_post_process_replaces_the_first st p q fu fs code st' :
    reachable st -> nth_error (st_procs st) p = Some q ->
    refs_of q = [post_arg0; post_unit0; post_super0] ->
    step st (NewPost fu fs code None None None) = (st', None) ->
    exists rdr tu ts cu cs cm bu bs,
      reader_of code = Some rdr /\ fu = Some tu /\ fs = Some ts /\
      read_unit_cell rdr cell_init tu = (cu, None) /\ set_mass_true cu = Ok cm /\
      read_unit_cell rdr cell_init ts = (cs, None) /\
      shows st' p = Some ((nth_error (st_heap st) post_arg0, Some (OCell bu cm), Some (OCell bs cs)), p_post q) /\
      shows_objects st' (length (st_procs st)) = shows_objects st' p.
  Proof.
    intros HR Hq HRF HS. unfold Session.step in HS.
    destruct (forallb _ _); cbn [negb] in HS; [|discriminate].
    cbn [default] in HS. unfold new_post in HS.
    destruct (read_cell (st_heap st) post_unit0 fu code) as [h1 [e|]] eqn:R1; cbn [andthen] in HS; [discriminate|].
    destruct (read_cell_ok _ _ _ _ _ R1) as (bu & c0 & N0 & cu & N1 & O1 & C1).
    assert (G1 : get_cell h1 post_unit0 = Ok cu) by (unfold get_cell; rewrite N1; reflexivity).
    rewrite G1 in HS. cbn [bind] in HS.
    destruct (set_mass_true cu) as [cm|e] eqn:EM; cbn [andthen] in HS; [|discriminate].
    destruct (reader_of code) as [rdr|] eqn:ER; [|subst cu; rewrite set_mass_none in EM; discriminate].
    destruct C1 as (tu & -> & C1).
    destruct (read_cell (put_cell h1 post_unit0 cm) post_super0 fs code) as [h3 [e|]] eqn:R3; [discriminate|].
    destruct (read_cell_ok _ _ _ _ _ R3) as (bs & c3 & N3 & cs & N4 & O3 & C3). rewrite ER in C3.
    destruct C3 as (ts & -> & C3).
    destruct (bind _ _) as [fc|e] in HS; [|discriminate]. injection HS as <-.
    exists rdr, tu, ts, cu, cs, cm, bu, bs.
    split; [reflexivity|]. split; [reflexivity|]. split; [reflexivity|].
    split; [exact C1|]. split; [exact EM|]. split; [exact C3|].
    assert (Hp : p < length (st_procs st)) by (apply nth_error_Some; congruence).
    assert (FU : nth_error h3 post_unit0 = Some (OCell bu cm)).
    { rewrite O3 by discriminate. eapply get_put_cell; exact N1. }
    assert (FA : nth_error h3 post_arg0 = nth_error (st_heap st) post_arg0).
    { rewrite O3 by discriminate. unfold put_cell. rewrite put_nth_other by discriminate. apply O1. discriminate. }
    unfold refs_of in HRF. injection HRF as A1 A2 A3.
    split.
    - unfold shows. cbn [st_procs]. rewrite nth_error_app1, Hq by exact Hp. cbn [option_map]. f_equal. f_equal.
      unfold objects. cbn [st_heap]. rewrite A1, A2, A3, FU, N4, FA. reflexivity.
    - unfold shows_objects. cbn [st_procs]. rewrite nth_error_app2, Nat.sub_diag by lia.
      rewrite nth_error_app1, Hq by exact Hp. cbn [nth_error option_map]. f_equal.
      unfold objects. cbn [st_heap p_arg p_unit p_super]. rewrite A1, A2, A3. reflexivity.
  Qed.

  (** ---- C74: assignments ---- *)

  (** Assigning an object of the wrong class raises nothing and changes nothing. *)
  Theorem wrong_class_assignment_is_silent st p q r :
    nth_error (st_procs st) p = Some q -> r < length (st_heap st) ->
    (forall b a, nth_error (st_heap st) r <> Some (OArg b a)) ->
    step st (AssignArg p r) = (st, None) /\
    ((forall b c, nth_error (st_heap st) r <> Some (OCell b c)) -> step st (AssignUnit p r) = (st, None)).
  Proof.
    intros Hq Hr HN.
    assert (L : (r <? length (st_heap st)) = true) by (apply Nat.ltb_lt; exact Hr). split.
    - unfold Session.step. cbn [passed forallb]. rewrite L. cbn [andb negb]. rewrite Hq.
      unfold is_arg. destruct (nth_error (st_heap st) r) as [[b a| |]|]; try reflexivity.
      contradiction (HN b a eq_refl).
    - intros HC. unfold Session.step. cbn [passed forallb]. rewrite L. cbn [andb negb]. rewrite Hq.
      unfold is_unit. destruct (nth_error (st_heap st) r) as [[b a|b c|]|]; try reflexivity.
      contradiction (HC b c eq_refl).
  Qed.

  (** A UnitCell is not accepted as the supercell, silently; a SuperCell is accepted as the unit cell. *)
  Theorem cell_class_of_assignment st p q r c :
    nth_error (st_procs st) p = Some q ->
    (nth_error (st_heap st) r = Some (OCell false c) -> step st (AssignSuper p r) = (st, None)) /\
    (nth_error (st_heap st) r = Some (OCell true c) ->
       exists st' q', step st (AssignUnit p r) = (st', None) /\ st_heap st' = st_heap st /\
         nth_error (st_procs st') p = Some q' /\ p_unit q' = r /\
         p_arg q' = p_arg q /\ p_super q' = p_super q /\ p_post q' = p_post q /\
         (y_unit q', y_super q', y_arg q') = (y_unit q, y_super q, y_arg q)).
  Proof.
    intros Hq. split; intros Hr.
    - assert (L : (r <? length (st_heap st)) = true) by (apply Nat.ltb_lt, nth_error_Some; congruence).
      unfold Session.step. cbn [passed forallb]. rewrite L. cbn [andb negb]. rewrite Hq.
      unfold is_super. rewrite Hr. reflexivity.
    - assert (L : (r <? length (st_heap st)) = true) by (apply Nat.ltb_lt, nth_error_Some; congruence).
      unfold Session.step. cbn [passed forallb]. rewrite L. cbn [andb negb]. rewrite Hq.
      unfold is_unit. rewrite Hr. eexists _, (with_unit r q). split; [reflexivity|]. split; [reflexivity|].
      cbn [with_proc st_procs]. rewrite put_nth_same, Hq. repeat split; reflexivity.
  Qed.

  (** Statements that build a new symmetry object for process [p]. *)
  Definition rebuilds (c : cmd) (p : nat) : Prop :=
    match c with WriteDisplace p' s | SetForces p' _ s => p' = p /\ s = true | _ => False end.

  Lemma step_sym st c p q :
    Forall (valid (st_heap st)) (st_procs st) ->
    nth_error (st_procs st) p = Some q -> ~ rebuilds c p ->
    exists q', nth_error (st_procs (fst (step st c))) p = Some q' /\
      (y_unit q', y_super q', y_arg q') = (y_unit q, y_super q, y_arg q).
  Proof.
    intros HV Hq HN. destruct (about c) as [m|] eqn:EA.
    2: { exists q. split; [eapply nth_keep; [apply step_effect; exact HV|exact Hq|congruence]|reflexivity]. }
    destruct (Nat.eq_dec m p) as [->|Hne].
    2: { exists q. split; [eapply nth_keep; [apply step_effect; exact HV|exact Hq|congruence]|reflexivity]. }
    unfold Session.step. destruct (forallb _ _); cbn [negb]; [|exists q; auto].
    destruct c; cbn in EA; try discriminate; injection EA as ->; rewrite Hq.
    - destruct (is_arg _ _); cbn [fst]; [|exists q; auto].
      exists (with_arg r q). cbn [with_proc st_procs]. rewrite put_nth_same, Hq. split; reflexivity.
    - destruct (is_unit _ _); cbn [fst]; [|exists q; auto].
      exists (with_unit r q). cbn [with_proc st_procs]. rewrite put_nth_same, Hq. split; reflexivity.
    - destruct (is_super _ _); cbn [fst]; [|exists q; auto].
      exists (with_super r q). cbn [with_proc st_procs]. rewrite put_nth_same, Hq. split; reflexivity.
    - exists q; auto.
    - exists q; auto.
    - exists q; auto.
    - destruct (write_displace_p search (st_heap st) q sym) as [[h1 b] e] eqn:EW. cbn [fst st_procs].
      destruct sym; [contradiction HN; cbn; auto|].
      assert (b = false) as ->.
      { unfold write_displace_p in EW. destruct (get_cell _ _); [|congruence].
        destruct (bind _ _) as [[[a' u'] pbc]|] in EW; [|congruence]. cbn [andb] in EW.
        destruct (write_displace_nosym _ _ _ _) as [[s' o]|] in EW; congruence. }
      exists q; auto.
    - destruct (p_post q) as [o|]; [|exists q; auto]. destruct (get_cell _ _); [|exists q; auto].
      destruct (recip _ _) as [rm e]. cbn [fst with_proc st_procs]. rewrite put_nth_same, Hq. eexists; split; reflexivity.
    - destruct sym; [contradiction HN; cbn; auto|].
      destruct (p_post q) as [o|]; [|exists q; auto]. destruct (bind _ _) as [[[[a pbc] u] s]|]; [|exists q; auto].
      cbn [andb]. destruct (forces _ _ _ _ _ _) as [fc e]. cbn [fst with_proc st_procs].
      rewrite put_nth_same, Hq. eexists; split; reflexivity.
    - destruct (p_post q) as [o|]; [|exists q; auto]. destruct f as [t|]; [|exists q; auto].
      destruct (get_arg _ _).
      + destruct (set_k_points _ _) as [[ks auto] e]. cbn [fst with_proc st_procs].
        rewrite put_nth_same, Hq. eexists; split; reflexivity.
      + cbn [fst with_proc st_procs]. rewrite put_nth_same, Hq. eexists; split; reflexivity.
    - destruct (p_post q) as [o|]; [|exists q; auto]. destruct (eval_p _ _ _ _) as [[w g] e].
      cbn [fst st_procs]. rewrite put_nth_same, Hq. eexists; split; reflexivity.
  Qed.

  (** process.sym keeps looking at the objects it was built with: neither an
      assignment to the process nor anything else moves it, except
      write_displace_cell and set_force_constant with symmetry. *)
  Theorem symmetry_object_keeps_its_cells st cs p q :
    reachable st -> nth_error (st_procs st) p = Some q -> Forall (fun c => ~ rebuilds c p) cs ->
    exists q', nth_error (st_procs (run st cs)) p = Some q' /\
      (y_unit q', y_super q', y_arg q') = (y_unit q, y_super q, y_arg q).
  Proof.
    intros HR Hq HC. apply reachable_valid in HR. revert st q HR Hq.
    induction cs as [|c cs IH]; intros st q HV Hq; [exists q; auto|].
    inversion_clear HC as [|? ? H1 H2]. rewrite run_cons.
    destruct (step_sym st c p q HV Hq H1) as (q1 & Q1 & E1).
    destruct (IH H2 _ q1 (step_valid _ _ HV) Q1) as (q2 & Q2 & E2). exists q2. split; [exact Q2|congruence].
  Qed.

  (** ---- C75: wave vectors and results ---- *)

  Lemma eval_rows_ok (f : v3 Qc -> result W) ks ws :
    eval_rows f ks = (ws, None) -> Forall2 (fun k w => exists v, w = Some v /\ f k = Ok v) ks ws.
  Proof.
    revert ws; induction ks as [|k ks IH]; intros ws; cbn [eval_rows].
    - intros X; injection X as <-. constructor.
    - destruct (f k) as [v|e] eqn:E; [|discriminate]. destruct (eval_rows f ks) as [w' e'].
      intros X; injection X as <- ->. constructor; [exists v; auto|apply IH; reflexivity].
  Qed.

  Lemma eval_rows_err (f : v3 Qc -> result W) ks ws e :
    eval_rows f ks = (ws, Some e) ->
    exists ks1 k ks2 vs, ks = ks1 ++ k :: ks2 /\ Forall2 (fun k v => f k = Ok v) ks1 vs /\ f k = Err e /\
      ws = map Some vs ++ repeat None (length (k :: ks2)).
  Proof.
    revert ws; induction ks as [|k ks IH]; intros ws; cbn [eval_rows]; [discriminate|].
    destruct (f k) as [v|e1] eqn:E.
    - destruct (eval_rows f ks) as [w' e']. intros X; injection X as <- ->.
      destruct (IH w' eq_refl) as (ks1 & k' & ks2 & vs & -> & F2 & EF & ->).
      exists (k :: ks1), k', ks2, (v :: vs). split; [reflexivity|]. split; [constructor; auto|]. split; [exact EF|reflexivity].
    - intros X; injection X as <- <-. exists [], k, ks, []. split; [reflexivity|]. split; [constructor|]. split; [exact E|reflexivity].
  Qed.

  Lemma post_put (st : state) p q f : nth_error (st_procs st) p = Some q ->
    nth_error (put_nth p f (st_procs st)) p = Some (f q).
  Proof. intros H. rewrite put_nth_same, H. reflexivity. Qed.

  (** A successful evaluation stores, for each wave vector, what is computed
      from the current cells, arguments, reciprocal matrix and force constants. *)
  Theorem evaluation_matches_wave_vectors st p q o st' :
    nth_error (st_procs st) p = Some q -> p_post q = Some o -> po_k o <> [] ->
    step st (Eval p) = (st', None) ->
    exists b a bu u bs s o',
      objects st q = (Some (OArg b a), Some (OCell bu u), Some (OCell bs s)) /\
      shows st' p = Some (objects st q, Some o') /\
      (po_rm o', po_fc o', po_k o', po_auto o') = (po_rm o, po_fc o, po_k o, po_auto o) /\
      Forall2 (fun k w => exists v, w = Some v /\ phonon u s a (po_rm o) (po_fc o) k = Ok v) (po_k o') (po_w o').
  Proof.
    intros Hq Ho Hk HS. unfold Session.step in HS. cbn [passed forallb negb] in HS. rewrite Hq, Ho in HS.
    unfold eval_p in HS.
    destruct (get_cell (st_heap st) (p_unit q)) as [u|] eqn:GU; [|discriminate]. cbn [bind] in HS.
    destruct (po_k o) as [|k0 ks] eqn:EK; [contradiction|].
    destruct (c_xyz u) as [xyz|]; [|discriminate]. cbn [of_option bind] in HS.
    destruct (get_arg (st_heap st) (p_arg q)) as [a|] eqn:GA; [|discriminate]. cbn [bind] in HS.
    destruct (get_cell (st_heap st) (p_super q)) as [s|] eqn:GS; [|discriminate]. cbn [bind] in HS.
    destruct (a_pbc a) as [pbc|]; [|discriminate]. cbn [of_option bind] in HS.
    destruct (a_enl a) as [enl|]; [|discriminate]. cbn [of_option bind] in HS.
    destruct (enlarge enl pbc) as [E|]; [|discriminate]. cbn [bind] in HS.
    destruct (eval_rows _ _) as [w [e|]] eqn:ER; [discriminate|].
    apply eval_rows_ok in ER.
    unfold get_cell in GU, GS. unfold get_arg in GA.
    destruct (nth_error (st_heap st) (p_unit q)) as [[|bu u0|]|] eqn:NU; try discriminate. injection GU as ->.
    destruct (nth_error (st_heap st) (p_super q)) as [[|bs s0|]|] eqn:NS; try discriminate. injection GS as ->.
    destruct (nth_error (st_heap st) (p_arg q)) as [[b a0| |]|] eqn:NA; try discriminate. injection GA as ->.
    assert (HH : st_heap st' = st_heap st /\
                 nth_error (st_procs st') p = Some (with_post (mkPost (po_rm o) (po_fc o) (k0 :: ks) (po_auto o) w) q)).
    { destruct (nonzero_indices pbc).
      - destruct w as [|w1 wr]; [inversion ER|]. injection HS as <-. cbn [st_heap st_procs].
        split; [reflexivity|apply post_put; exact Hq].
      - injection HS as <-. cbn [st_heap st_procs]. split; [reflexivity|apply post_put; exact Hq]. }
    destruct HH as [HH HP].
    exists b, a, bu, u, bs, s, (mkPost (po_rm o) (po_fc o) (k0 :: ks) (po_auto o) w).
    unfold shows, objects. rewrite HP, HH, NU, NS, NA. cbn. rewrite NU, NS, NA.
    split; [reflexivity|]. split; [reflexivity|]. split; [reflexivity|]. exact ER.
  Qed.

  (** A k-point file that cannot be opened changes nothing.  One that is read
      but rejected has already dropped the previous wave vectors. *)
  Theorem rejected_k_file_drops_the_wave_vectors st p q o :
    nth_error (st_procs st) p = Some q -> p_post q = Some o ->
    step st (SetK p None) = (st, Some EIO) /\
    forall t st' e, step st (SetK p (Some t)) = (st', Some e) ->
      shows st' p = Some (objects st q, Some (mkPost (po_rm o) (po_fc o) [] [] (po_w o))).
  Proof.
    intros Hq Ho. split.
    - unfold Session.step. cbn [passed forallb negb]. rewrite Hq, Ho. reflexivity.
    - intros t st' e HS. unfold Session.step in HS. cbn [passed forallb negb] in HS. rewrite Hq, Ho in HS.
      assert (G : forall o', shows (with_proc st p (with_post o')) p = Some (objects st q, Some o')).
      { intros o'. unfold shows, with_proc. cbn [st_procs]. rewrite (post_put st p q _ Hq). reflexivity. }
      destruct (get_arg _ _) as [a|].
      + destruct (set_k_points (readlines t) (a_pbc a)) as [[ks auto] e'] eqn:EK. injection HS as <- ->.
        unfold set_k_points in EK.
        match type of EK with context [match ?m with Ok _ => _ | Err _ => _ end] => destruct m as [x|] end;
          [congruence|]. injection EK as <- <- _. apply G.
      + injection HS as <- _. apply G.
  Qed.

  (** A k-point file whose third line starts with an unknown letter raises
      nothing, empties the wave vectors, and the evaluation after it succeeds
      with the old frequencies still in place. *)
  Theorem unknown_k_style_keeps_old_frequencies st p q o b a pbc enl E bu u bs s t ch :
    nth_error (st_procs st) p = Some q -> p_post q = Some o ->
    objects st q = (Some (OArg b a), Some (OCell bu u), Some (OCell bs s)) ->
    a_pbc a = Some pbc -> a_enl a = Some enl -> enlarge enl pbc = Ok E ->
    (exists i, In i (nonzero_indices pbc)) ->
    first_char (readlines t) 2 = Ok ch -> ~ In ch ["G"; "g"; "M"; "m"; "L"; "l"; "R"; "r"]%char ->
    exists st1 st2,
      step st (SetK p (Some t)) = (st1, None) /\ step st1 (Eval p) = (st2, None) /\
      shows st2 p = Some (objects st q, Some (mkPost (po_rm o) (po_fc o) [] [] (po_w o))).
  Proof.
    intros Hq Ho HO HP HEn HE (i & Hi) HC HN.
    unfold objects in HO. injection HO as NA NU NS.
    set (o1 := mkPost (po_rm o) (po_fc o) [] [] (po_w o)).
    set (st1 := with_proc st p (with_post o1)).
    set (st2 := mkState (st_heap st) (put_nth p (with_post o1) (st_procs st1)) (st_gamma st)).
    assert (NC : forall x y, In x ["G"; "g"; "M"; "m"; "L"; "l"; "R"; "r"]%char -> In y ["G"; "g"; "M"; "m"; "L"; "l"; "R"; "r"]%char ->
              char_in ch [x; y] = false).
    { intros x y Hx Hy. unfold char_in. cbn [existsb].
      destruct (Ascii.eqb_spec ch x) as [->|_]; [contradiction|].
      destruct (Ascii.eqb_spec ch y) as [->|_]; [contradiction|]. reflexivity. }
    assert (S1 : step st (SetK p (Some t)) = (st1, None)).
    { unfold Session.step. cbn [passed forallb negb]. rewrite Hq, Ho.
      unfold get_arg. rewrite NA. unfold set_k_points. rewrite HP, HC. cbn [of_option bind].
      rewrite (NC "G"%char "g"%char) by (cbn; tauto). rewrite (NC "M"%char "m"%char) by (cbn; tauto).
      rewrite (NC "L"%char "l"%char) by (cbn; tauto). rewrite (NC "R"%char "r"%char) by (cbn; tauto).
      reflexivity. }
    exists st1, st2. split; [exact S1|].
    assert (Q1 : nth_error (st_procs st1) p = Some (with_post o1 q)) by (unfold st1, with_proc; cbn [st_procs]; apply post_put; exact Hq).
    split.
    - unfold Session.step. cbn [passed forallb negb]. rewrite Q1. cbn [p_post with_post].
      unfold eval_p. cbn [p_unit p_arg p_super with_post].
      change (st_heap st1) with (st_heap st).
      unfold get_cell, get_arg. rewrite NU, NS, NA. cbn [bind of_option po_k o1].
      rewrite HP, HEn. cbn [bind of_option]. rewrite HE. cbn [bind].
      destruct (nonzero_indices pbc) as [|i0 l]; [contradiction|]. reflexivity.
    - unfold shows. cbn [st2 st_procs]. rewrite (post_put st1 p _ _ Q1). cbn [option_map p_post with_post].
      unfold objects. cbn. reflexivity.
  Qed.

  (** An evaluation that fails at one wave vector leaves the rows before it
      computed, the others unset, and nothing of the previous results. *)
  Theorem failed_evaluation st p q o st' e b a pbc enl E bu u bs s xyz :
    nth_error (st_procs st) p = Some q -> p_post q = Some o ->
    objects st q = (Some (OArg b a), Some (OCell bu u), Some (OCell bs s)) ->
    a_pbc a = Some pbc -> a_enl a = Some enl -> enlarge enl pbc = Ok E -> c_xyz u = Some xyz ->
    po_k o <> [] -> step st (Eval p) = (st', Some e) ->
    exists ks1 k ks2 vs o',
      po_k o = ks1 ++ k :: ks2 /\ shows st' p = Some (objects st q, Some o') /\
      Forall2 (fun k v => phonon u s a (po_rm o) (po_fc o) k = Ok v) ks1 vs /\
      phonon u s a (po_rm o) (po_fc o) k = Err e /\
      po_k o' = po_k o /\ po_w o' = map Some vs ++ repeat None (length (k :: ks2)).
  Proof.
    intros Hq Ho HO HP HEn HE HX Hk HS. unfold objects in HO. injection HO as NA NU NS.
    unfold Session.step in HS. cbn [passed forallb negb] in HS. rewrite Hq, Ho in HS.
    unfold eval_p, get_cell, get_arg in HS. rewrite NU, NS, NA in HS. cbn [bind] in HS.
    destruct (po_k o) as [|k0 kr] eqn:EK; [contradiction|].
    rewrite HX, HP, HEn in HS. cbn [of_option bind] in HS. rewrite HE in HS. cbn [bind] in HS.
    destruct (eval_rows _ _) as [w [e1|]] eqn:ER.
    - injection HS as <- ->. destruct (eval_rows_err _ _ _ _ ER) as (ks1 & k & ks2 & vs & Eks & F2 & EF & ->).
      exists ks1, k, ks2, vs, (mkPost (po_rm o) (po_fc o) (k0 :: kr) (po_auto o) (map Some vs ++ repeat None (length (k :: ks2)))).
      split; [exact Eks|]. split.
      + unfold shows. cbn [st_procs]. rewrite (post_put st p q _ Hq). reflexivity.
      + split; [exact F2|]. split; [exact EF|]. split; reflexivity.
    - exfalso. apply eval_rows_ok in ER. destruct (nonzero_indices pbc); [|discriminate].
      destruct w; [inversion ER|discriminate].
  Qed.

  (** The file of discrete frequencies: written exactly when no direction is
      periodic, from the first wave vector; without any wave vector the call
      fails, leaving a file with no frequency in it. *)
  Theorem discrete_frequency_file st p q o b a pbc enl E bu u bs s :
    nth_error (st_procs st) p = Some q -> p_post q = Some o ->
    objects st q = (Some (OArg b a), Some (OCell bu u), Some (OCell bs s)) ->
    a_pbc a = Some pbc -> a_enl a = Some enl -> enlarge enl pbc = Ok E ->
    (forall i, In i (nonzero_indices pbc) -> st_gamma (fst (step st (Eval p))) = st_gamma st) /\
    (nonzero_indices pbc = [] -> forall st', step st (Eval p) = (st', None) ->
       exists w ws o', option_map snd (shows st' p) = Some (Some o') /\ po_w o' = w :: ws /\ st_gamma st' = Some [w]) /\
    (nonzero_indices pbc = [] -> po_k o = [] -> po_w o = [] ->
       exists st', step st (Eval p) = (st', Some EIndex) /\ st_gamma st' = Some []).
  Proof.
    intros Hq Ho HO HP HEn HE. unfold objects in HO. injection HO as NA NU NS.
    assert (ST : step st (Eval p) =
      (let '((w, g), e) := eval_p phonon (st_heap st) q o in
        (mkState (st_heap st) (put_nth p (with_post (mkPost (po_rm o) (po_fc o) (po_k o) (po_auto o) w)) (st_procs st))
                 (match g with Some f => Some f | None => st_gamma st end), e))).
    { unfold Session.step. cbn [passed forallb negb]. rewrite Hq, Ho. reflexivity. }
    split; [|split].
    - intros i Hi. rewrite ST. unfold eval_p, get_cell, get_arg. rewrite NU, NS, NA. cbn [bind].
      destruct (match po_k o with [] => Ok u | _ => _ end); [|reflexivity].
      rewrite HP, HEn. cbn [of_option bind]. rewrite HE. cbn [bind].
      destruct (match po_k o with [] => _ | _ => eval_rows _ _ end) as [w [e|]]; [reflexivity|].
      destruct (nonzero_indices pbc); [contradiction|reflexivity].
    - intros HZ st' HS. rewrite ST in HS. unfold eval_p, get_cell, get_arg in HS. rewrite NU, NS, NA in HS. cbn [bind] in HS.
      destruct (match po_k o with [] => Ok u | _ => _ end); [|discriminate].
      rewrite HP, HEn in HS. cbn [of_option bind] in HS. rewrite HE in HS. cbn [bind] in HS.
      destruct (match po_k o with [] => _ | _ => eval_rows _ _ end) as [w [e|]]; [discriminate|].
      rewrite HZ in HS. destruct w as [|w ws]; [discriminate|]. injection HS as <-.
      exists w, ws, (mkPost (po_rm o) (po_fc o) (po_k o) (po_auto o) (w :: ws)).
      unfold shows. cbn [st_procs]. rewrite (post_put st p q _ Hq). split; [reflexivity|]. split; reflexivity.
    - intros HZ HK HW. rewrite ST. unfold eval_p, get_cell, get_arg. rewrite NU, NS, NA. cbn [bind].
      rewrite HK, HW. cbn [bind]. rewrite HP, HEn. cbn [of_option bind]. rewrite HE. cbn [bind]. rewrite HZ.
      eexists. split; reflexivity.
  Qed.

  (** ---- C76: the cells a call leaves behind ---- *)

  Lemma set_super_cell_st_ok u ar :
    match set_super_cell u ar with
    | Ok s => set_super_cell_st u ar = (s, None)
    | Err e => snd (set_super_cell_st u ar) = Some e
    end.
  Proof.
    unfold set_super_cell, set_super_cell_st.
    destruct (c_lat u) as [L|]; cbn [of_option bind]; [|reflexivity].
    destruct (a_enl ar) as [enl|]; cbn [of_option bind]; [|reflexivity].
    destruct (py_nth enl 0) as [e1|]; cbn [bind]; [|reflexivity].
    destruct (py_nth enl 1) as [e2|]; cbn [bind]; [|reflexivity].
    destruct (py_nth enl 2) as [e3|]; cbn [bind]; [|reflexivity].
    destruct (a_pbc ar) as [pbc|]; cbn [of_option bind]; [|reflexivity].
    destruct (enlarge enl pbc) as [E|]; cbn [bind]; [|reflexivity].
    destruct (c_type u) as [ty|]; cbn [of_option bind]; [|reflexivity].
    destruct (c_num u) as [num|]; cbn [of_option bind]; [|reflexivity].
    destruct (c_coord u) as [k|]; cbn [of_option bind]; [|reflexivity].
    destruct (super_direct_array E e1 e2 e3) as [sd|]; cbn [bind]; [|reflexivity].
    destruct (c_cart u) as [cart|]; cbn [of_option bind]; [|reflexivity].
    destruct (negb _); reflexivity.
  Qed.

  (** set_super_cell of a process whose unit cell and supercell are different
      objects builds the supercell of the model from that process's own objects
      (so C08-C11 apply to it) and touches nothing else. *)
  Theorem set_super_cell_builds_from_its_objects st p q b a bu u s0 :
    nth_error (st_procs st) p = Some q ->
    objects st q = (Some (OArg b a), Some (OCell bu u), Some (OCell true s0)) ->
    p_unit q <> p_super q ->
    match build_super u a with
    | Ok s => exists st', step st (SetSuperCell p) = (st', None) /\
                st_procs st' = st_procs st /\ st_gamma st' = st_gamma st /\
                objects st' q = (Some (OArg b a), Some (OCell bu u), Some (OCell true s)) /\
                forall r, r <> p_super q -> nth_error (st_heap st') r = nth_error (st_heap st) r
    | Err e => snd (step st (SetSuperCell p)) = Some e
    end.
  Proof.
    intros Hq HO HNE.
    unfold objects in HO. injection HO as NA NU NS.
    assert (HNA : p_arg q <> p_super q) by (intros X; rewrite X in NA; congruence).
    set (h1 := put_cell (st_heap st) (p_super q) cell_init).
    assert (U1 : forall c, nth_error (put_cell (st_heap st) (p_super q) c) (p_unit q) = Some (OCell bu u))
      by (intros c; unfold put_cell; rewrite put_nth_other by exact HNE; exact NU).
    assert (A1 : forall c, nth_error (put_cell (st_heap st) (p_super q) c) (p_arg q) = Some (OArg b a))
      by (intros c; unfold put_cell; rewrite put_nth_other by exact HNA; exact NA).
    assert (PP : forall c c', put_cell (put_cell (st_heap st) (p_super q) c) (p_super q) c' = put_cell (st_heap st) (p_super q) c').
    { intros c c'. unfold put_cell. clear. generalize (st_heap st). induction (p_super q) as [|n IH]; intros [|x l]; cbn; auto.
      - destruct x; reflexivity.
      - f_equal. apply IH. }
    assert (ST : step st (SetSuperCell p) = with_heap st
        (andthen (set_super_h (st_heap st) (p_unit q) (p_super q) (p_arg q))
                 (fun h1 => set_super_ind_h h1 (p_unit q) (p_super q) (p_arg q)))).
    { unfold Session.step. cbn [passed forallb negb]. rewrite Hq. reflexivity. }
    rewrite ST. clear ST.
    unfold set_super_h, get_super. rewrite NS. unfold get_cell, get_arg. rewrite U1, A1.
    pose proof (set_super_cell_st_ok u a) as HSS. unfold build_super.
    destruct (set_super_cell u a) as [s1|e]; cbn [bind].
    2: { destruct (set_super_cell_st u a) as [s1 [e1|]]; [|discriminate]. cbn in HSS. injection HSS as ->. reflexivity. }
    rewrite HSS. cbn [andthen]. rewrite PP.
    unfold set_super_ind_h, get_super, get_arg, set_super_ind_true. rewrite (get_put_cell _ _ true s0) by exact NS. rewrite A1.
    destruct (a_enl a) as [enl|]; cbn [of_option bind]; [|reflexivity].
    destruct (a_pbc a) as [pbc|]; cbn [of_option bind]; [|reflexivity].
    destruct (enlarge enl pbc) as [E|]; cbn [bind]; [|reflexivity].
    unfold get_cell. rewrite PP, U1.
    destruct (c_true u) as [tr|]; cbn [of_option bind]; [|reflexivity].
    rewrite PP. eexists. split; [reflexivity|]. cbn [st_procs st_gamma st_heap fst]. split; [reflexivity|]. split; [reflexivity|].
    split.
    - unfold objects. cbn [st_heap]. rewrite U1, A1. rewrite (get_put_cell _ _ true s0) by exact NS. reflexivity.
    - intros r Hr. unfold put_cell. apply put_nth_other. exact Hr.
  Qed.

  (** A SuperCell object used as both cells: set_super_cell fails and has
      already erased the structure. *)
  Theorem one_object_as_both_cells st p q b a c :
    nth_error (st_procs st) p = Some q -> p_unit q = p_super q ->
    nth_error (st_heap st) (p_super q) = Some (OCell true c) -> nth_error (st_heap st) (p_arg q) = Some (OArg b a) ->
    exists st', step st (SetSuperCell p) = (st', Some EType) /\
      nth_error (st_heap st') (p_unit q) = Some (OCell true cell_init).
  Proof.
    intros Hq HE NS NA.
    assert (HNA : p_arg q <> p_super q) by (intros X; rewrite X in NA; congruence).
    assert (ST : step st (SetSuperCell p) = with_heap st
        (andthen (set_super_h (st_heap st) (p_unit q) (p_super q) (p_arg q))
                 (fun h1 => set_super_ind_h h1 (p_unit q) (p_super q) (p_arg q)))).
    { unfold Session.step. cbn [passed forallb negb]. rewrite Hq. reflexivity. }
    rewrite ST. unfold set_super_h, get_super. rewrite NS. rewrite HE. unfold get_cell, get_arg.
    rewrite (get_put_cell _ _ true c cell_init NS).
    replace (nth_error (put_cell (st_heap st) (p_super q) cell_init) (p_arg q)) with (Some (OArg b a))
      by (unfold put_cell; rewrite put_nth_other by exact HNA; symmetry; exact NA).
    cbn. eexists. split; [reflexivity|]. cbn [fst st_heap].
    apply get_put_cell with (c := cell_init). apply get_put_cell with (c := c). exact NS.
  Qed.

  (** A code name other than vasp, espresso, aims: set_unit_cell raises nothing,
      whatever the file, and leaves an empty unit cell; a PostProcess cannot be
      constructed and leaves the objects empty. *)
  Theorem unknown_code_name st p q code f b c :
    nth_error (st_procs st) p = Some q -> nth_error (st_heap st) (p_unit q) = Some (OCell b c) ->
    code <> "vasp"%string -> code <> "espresso"%string -> code <> "aims"%string ->
    (exists st', step st (SetUnitCell p f code) = (st', None) /\ st_procs st' = st_procs st /\
       nth_error (st_heap st') (p_unit q) = Some (OCell b cell_init)) /\
    (forall ou os oa fs st' e, step st (NewPost f fs code oa ou os) = (st', e) ->
       e <> None /\ st_procs st' = st_procs st).
  Proof.
    intros Hq NU H1 H2 H3.
    assert (RO : reader_of code = None).
    { unfold reader_of. destruct (String.eqb_spec code "vasp"); [contradiction|].
      destruct (String.eqb_spec code "espresso"); [contradiction|].
      destruct (String.eqb_spec code "aims"); [contradiction|]. reflexivity. }
    split.
    - unfold Session.step. cbn [passed forallb negb]. rewrite Hq. unfold read_cell, get_cell. rewrite NU, RO.
      unfold with_heap. eexists. split; [reflexivity|]. split; [reflexivity|]. cbn. eapply get_put_cell; exact NU.
    - intros ou os oa fs st' e HS. unfold Session.step in HS. destruct (forallb _ _); cbn [negb] in HS.
      2: { injection HS as <- <-. split; [discriminate|reflexivity]. }
      unfold new_post in HS.
      destruct (read_cell (st_heap st) (default ou post_unit0) f code) as [h1 [e1|]] eqn:R1; cbn [andthen] in HS.
      { injection HS as <- <-. split; [discriminate|reflexivity]. }
      destruct (read_cell_ok _ _ _ _ _ R1) as (bu & c0 & N0 & cu & N1 & O1 & C1). rewrite RO in C1. subst cu.
      unfold get_cell in HS at 1. rewrite N1 in HS. cbn [bind] in HS. rewrite set_mass_none in HS. cbn [andthen] in HS.
      injection HS as <- <-. split; [discriminate|reflexivity].
  Qed.
  (** ---- arguments and objects of the right class ---- *)

  (** An argument object of either class is accepted, a cell of either class is
      accepted as the unit cell and a SuperCell as the supercell; only the
      attribute assigned to changes. *)
  Theorem right_class_assignment st p q r :
    nth_error (st_procs st) p = Some q ->
    (forall b a, nth_error (st_heap st) r = Some (OArg b a) ->
       exists st' q', step st (AssignArg p r) = (st', None) /\ st_heap st' = st_heap st /\
         nth_error (st_procs st') p = Some q' /\ refs_of q' = [r; p_unit q; p_super q] /\ p_post q' = p_post q) /\
    (forall b c, nth_error (st_heap st) r = Some (OCell b c) ->
       exists st' q', step st (AssignUnit p r) = (st', None) /\ st_heap st' = st_heap st /\
         nth_error (st_procs st') p = Some q' /\ refs_of q' = [p_arg q; r; p_super q] /\ p_post q' = p_post q) /\
    (forall c, nth_error (st_heap st) r = Some (OCell true c) ->
       exists st' q', step st (AssignSuper p r) = (st', None) /\ st_heap st' = st_heap st /\
         nth_error (st_procs st') p = Some q' /\ refs_of q' = [p_arg q; p_unit q; r] /\ p_post q' = p_post q).
  Proof.
    intros Hq.
    assert (L : forall o, nth_error (st_heap st) r = Some o -> (r <? length (st_heap st)) = true)
      by (intros o H; apply Nat.ltb_lt, nth_error_Some; congruence).
    split; [|split].
    - intros b a H. unfold Session.step. cbn [passed forallb]. rewrite (L _ H). cbn [andb negb]. rewrite Hq.
      unfold is_arg. rewrite H. eexists _, (with_arg r q). split; [reflexivity|]. split; [reflexivity|].
      cbn [with_proc st_procs]. rewrite put_nth_same, Hq. repeat split; reflexivity.
    - intros b c H. unfold Session.step. cbn [passed forallb]. rewrite (L _ H). cbn [andb negb]. rewrite Hq.
      unfold is_unit. rewrite H. eexists _, (with_unit r q). split; [reflexivity|]. split; [reflexivity|].
      cbn [with_proc st_procs]. rewrite put_nth_same, Hq. repeat split; reflexivity.
    - intros c H. unfold Session.step. cbn [passed forallb]. rewrite (L _ H). cbn [andb negb]. rewrite Hq.
      unfold is_super. rewrite H. eexists _, (with_super r q). split; [reflexivity|]. split; [reflexivity|].
      cbn [with_proc st_procs]. rewrite put_nth_same, Hq. repeat split; reflexivity.
  Qed.

  (** A newly constructed process holds the objects it was given (the shared
      defaults for those left out) and its symmetry object looks at the same ones. *)
  Theorem new_process_holds_its_objects st c st' :
    step st c = (st', None) ->
    match c with
    | NewPre oa ou os => exists q, st_procs st' = st_procs st ++ [q] /\ p_post q = None /\
        refs_of q = [default oa pre_arg0; default ou pre_unit0; default os pre_super0] /\
        [y_arg q; y_unit q; y_super q] = refs_of q
    | NewPost _ _ _ oa ou os => exists q o, st_procs st' = st_procs st ++ [q] /\ p_post q = Some o /\
        refs_of q = [default oa post_arg0; default ou post_unit0; default os post_super0] /\
        [y_arg q; y_unit q; y_super q] = refs_of q /\
        po_rm o = rm_empty /\ po_k o = [] /\ po_auto o = [] /\ po_w o = []
    | _ => True
    end.
  Proof.
    intros HS. unfold Session.step in HS. destruct (forallb _ _); cbn [negb] in HS; [|discriminate].
    destruct c; try exact I.
    - injection HS as <-. eexists. repeat split; reflexivity.
    - unfold new_post in HS. match type of HS with match ?t with _ => _ end = _ => destruct t as [h3 [e3|]] end; [discriminate|].
      match type of HS with match ?t with _ => _ end = _ => destruct t as [fc|e] end; [|discriminate].
      injection HS as <-. eexists _, _. repeat split; reflexivity.
  Qed.

  (** set_user_arg of a PostProcess accepts arguments only if the lattice vectors
      of the supercell it holds are those of its unit cell times the enlargement,
      and then marks as movable the copies of the movable atoms of the unit cell. *)
  Theorem post_arguments_are_checked st p q o b a bu u bs s d st' :
    nth_error (st_procs st) p = Some q -> p_post q = Some o ->
    objects st q = (Some (OArg b a), Some (OCell bu u), Some (OCell bs s)) -> p_unit q <> p_super q ->
    step st (SetUserArg p d) = (st', None) ->
    exists a' s', set_user_arg a d = Ok a' /\ check_match_argument u s a' = Ok tt /\
      set_super_ind_true s u a' = Ok s' /\ st_procs st' = st_procs st /\
      objects st' q = (Some (OArg true a'), Some (OCell bu u), Some (OCell true s')).
  Proof.
    intros Hq Ho HO HNE HS. unfold objects in HO. injection HO as NA NU NS.
    assert (NE1 : p_unit q <> p_arg q) by (intros X; rewrite X in NU; congruence).
    assert (NE2 : p_super q <> p_arg q) by (intros X; rewrite X in NS; congruence).
    unfold Session.step in HS. cbn [passed forallb negb] in HS. rewrite Hq in HS. unfold set_user_arg_p in HS. rewrite Ho in HS.
    unfold set_arg_h, get_arg at 1 in HS. rewrite NA in HS.
    destruct (set_user_arg_st a d) as [a' [e|]] eqn:SA; cbn [andthen] in HS; [discriminate|].
    apply set_user_arg_st_ok in SA.
    set (h1 := put_arg (st_heap st) (p_arg q) a') in *.
    assert (A1 : nth_error h1 (p_arg q) = Some (OArg b a')) by (unfold h1, put_arg; rewrite put_nth_same, NA; reflexivity).
    assert (U1 : nth_error h1 (p_unit q) = Some (OCell bu u)) by (unfold h1, put_arg; rewrite put_nth_other by exact NE1; exact NU).
    assert (S1 : nth_error h1 (p_super q) = Some (OCell bs s)) by (unfold h1, put_arg; rewrite put_nth_other by exact NE2; exact NS).
    unfold get_post_arg in HS. rewrite A1 in HS. destruct b; cbn [bind] in HS; [|discriminate].
    unfold get_cell at 1 2 in HS. rewrite U1, S1 in HS. cbn [bind] in HS.
    destruct (check_match_argument u s a') as [[]|e] eqn:CM; [|discriminate].
    unfold set_super_ind_h, get_super, get_arg in HS. rewrite S1, A1 in HS. destruct bs; [|discriminate].
    destruct (a_enl a') as [enl|] eqn:EE; cbn [of_option bind] in HS; [|discriminate].
    destruct (a_pbc a') as [pbc|] eqn:EP; cbn [of_option bind] in HS; [|discriminate].
    destruct (enlarge enl pbc) as [E|] eqn:EN; cbn [of_option bind] in HS; [|discriminate].
    unfold get_cell in HS. unfold put_cell at 1 in HS. rewrite put_nth_other, U1 in HS by exact HNE.
    destruct (c_true u) as [tr|] eqn:ET; [|discriminate].
    unfold with_heap in HS. cbn [fst snd] in HS. injection HS as <-.
    eexists a', _. split; [exact SA|]. split; [exact CM|]. split.
    - unfold set_super_ind_true. rewrite EE, EP, ET. cbn [of_option bind]. rewrite EN. reflexivity.
    - split; [reflexivity|]. unfold objects. cbn [st_heap]. unfold put_cell.
      rewrite !(put_nth_other _ (p_unit q)) by exact HNE. rewrite !(put_nth_other _ (p_arg q)) by (apply not_eq_sym; exact NE2).
      rewrite A1, U1. rewrite !put_nth_same, S1. reflexivity.
  Qed.

  (** ... and with valid arguments that do not fit the cells it raises. *)
  Theorem mismatched_post_arguments_raise st p q o a bu u bs s d a' e :
    nth_error (st_procs st) p = Some q -> p_post q = Some o ->
    objects st q = (Some (OArg true a), Some (OCell bu u), Some (OCell bs s)) ->
    set_user_arg a d = Ok a' -> check_match_argument u s a' = Err e ->
    exists st', step st (SetUserArg p d) = (st', Some e) /\ st_procs st' = st_procs st /\
      objects st' q = (Some (OArg true a'), Some (OCell bu u), Some (OCell bs s)).
  Proof.
    intros Hq Ho HO SA CM. unfold objects in HO. injection HO as NA NU NS.
    assert (NE1 : p_unit q <> p_arg q) by (intros X; rewrite X in NU; congruence).
    assert (NE2 : p_super q <> p_arg q) by (intros X; rewrite X in NS; congruence).
    unfold Session.step. cbn [passed forallb negb]. rewrite Hq. unfold set_user_arg_p. rewrite Ho.
    unfold set_arg_h, get_arg at 1. rewrite NA. apply set_user_arg_st_ok in SA. rewrite SA. cbn [andthen].
    set (h1 := put_arg (st_heap st) (p_arg q) a').
    assert (A1 : nth_error h1 (p_arg q) = Some (OArg true a')) by (unfold h1, put_arg; rewrite put_nth_same, NA; reflexivity).
    assert (U1 : nth_error h1 (p_unit q) = Some (OCell bu u)) by (unfold h1, put_arg; rewrite put_nth_other by exact NE1; exact NU).
    assert (S1 : nth_error h1 (p_super q) = Some (OCell bs s)) by (unfold h1, put_arg; rewrite put_nth_other by exact NE2; exact NS).
    unfold get_post_arg. rewrite A1. cbn [bind]. unfold get_cell at 1 2. rewrite U1, S1. cbn [bind]. rewrite CM.
    eexists. split; [reflexivity|]. split; [reflexivity|]. unfold objects. cbn [st_heap with_heap fst]. rewrite A1, U1, S1. reflexivity.
  Qed.

  (** Whenever an evaluation over some wave vectors is attempted with a read unit
      cell, no result of an earlier evaluation survives it, whether it fails
      (also for missing arguments) or not: there is one row per wave vector,
      and each is unset or what is computed now. *)
  Theorem evaluation_keeps_no_old_result st p q o bu u xyz :
    nth_error (st_procs st) p = Some q -> p_post q = Some o ->
    nth_error (st_heap st) (p_unit q) = Some (OCell bu u) -> c_xyz u = Some xyz -> po_k o <> [] ->
    exists st' e q' o', step st (Eval p) = (st', e) /\ nth_error (st_procs st') p = Some q' /\ p_post q' = Some o' /\
      po_k o' = po_k o /\
      Forall2 (fun k w => forall v, w = Some v -> exists b a bs s,
                 objects st q = (Some (OArg b a), Some (OCell bu u), Some (OCell bs s)) /\
                 phonon u s a (po_rm o) (po_fc o) k = Ok v) (po_k o) (po_w o').
  Proof.
    intros Hq Ho NU HX Hk. unfold Session.step. cbn [passed forallb negb]. rewrite Hq, Ho.
    destruct (eval_p phonon (st_heap st) q o) as [[w g] e] eqn:EV. eexists _, _, _, _. split; [reflexivity|].
    cbn [st_procs]. split; [apply post_put; exact Hq|]. split; [reflexivity|]. cbn [po_k po_w]. split; [reflexivity|].
    assert (RN : forall ks : list (v3 Qc), Forall2 (fun k (w : option W) => forall v, w = Some v -> exists b a bs s,
                 objects st q = (Some (OArg b a), Some (OCell bu u), Some (OCell bs s)) /\
                 phonon u s a (po_rm o) (po_fc o) k = Ok v) ks (repeat None (length ks)))
      by (induction ks; constructor; [discriminate|assumption]).
    unfold eval_p, get_cell at 1 in EV. rewrite NU in EV. cbn [bind] in EV.
    destruct (po_k o) as [|k0 kr] eqn:EK; [contradiction|]. rewrite HX in EV. cbn [of_option bind] in EV.
    unfold get_arg, get_cell in EV.
    destruct (nth_error (st_heap st) (p_arg q)) as [[b a| |]|] eqn:NA; cbn [bind] in EV; try (injection EV as <- _ _; apply RN).
    destruct (nth_error (st_heap st) (p_super q)) as [[|bs s|]|] eqn:NS; cbn [bind] in EV; try (injection EV as <- _ _; apply RN).
    destruct (a_pbc a) as [pbc|]; cbn [of_option bind] in EV; [|injection EV as <- _ _; apply RN].
    destruct (a_enl a) as [enl|]; cbn [of_option bind] in EV; [|injection EV as <- _ _; apply RN].
    destruct (enlarge enl pbc) as [E|]; cbn [of_option bind] in EV; [|injection EV as <- _ _; apply RN].
    assert (RW : forall f ks ws e0, eval_rows f ks = (ws, e0) -> Forall2 (fun k (w : option W) => forall v, w = Some v -> f k = Ok v) ks ws).
    { clear. intros f ks. induction ks as [|k ks IH]; intros ws e0; cbn [eval_rows].
      - intros X; injection X as <- _. constructor.
      - destruct (f k) as [v|e] eqn:FK.
        + destruct (eval_rows f ks) as [w' e']. intros X; injection X as <- <-. constructor; [congruence|]. eapply IH; reflexivity.
        + intros X; injection X as <- _. cbn [length repeat]. constructor; [discriminate|]. clear. induction ks; constructor; [discriminate|assumption]. }
    destruct (eval_rows _ (k0 :: kr)) as [w1 e1] eqn:ER. apply RW in ER.
    assert (GO : Forall2 (fun k (w : option W) => forall v, w = Some v -> exists b a bs s,
                 objects st q = (Some (OArg b a), Some (OCell bu u), Some (OCell bs s)) /\
                 phonon u s a (po_rm o) (po_fc o) k = Ok v) (k0 :: kr) w1).
    { clear -ER NA NU NS. induction ER as [|k w ks ws H _ IH]; constructor; [|exact IH].
      intros v Hv. exists b, a, bs, s. unfold objects. rewrite NA, NU, NS. auto. }
    assert (w = w1) as ->; [|exact GO].
    destruct e1; [congruence|]. destruct (nonzero_indices pbc); [|congruence]. destruct w1; congruence.
  Qed.
End SessionProps.

(** ---- concrete sessions ---- *)
Section Examples.
  Local Open Scope string_scope.
  Definition lf : string := String nl "".
  (** A one-atom vasp structure with lattice constant [a]. *)
  Definition poscar (a : string) : string :=
    "cell" ++ lf ++ "1.0" ++ lf ++ a ++ " 0.0 0.0" ++ lf ++ "0.0 " ++ a ++ " 0.0" ++ lf ++ "0.0 0.0 10.0" ++ lf
    ++ "H" ++ lf ++ "1" ++ lf ++ "Selective dynamics" ++ lf ++ "Direct" ++ lf ++ "0.0 0.0 0.5 T T T" ++ lf.
  Definition kpoints (style : string) : string :=
    "k" ++ lf ++ "0" ++ lf ++ style ++ lf ++ "2 2 1" ++ lf ++ "0 0 0" ++ lf.
  Definition opts : list (string * pyval) :=
    [("displacement", VStr "0.02"); ("enlargement", VStr "2 2 1"); ("periodicity", VStr "1 1 0")].

  (** Results are the wave vectors themselves, so that it can be seen which ones they are. *)
  Definition xstep := @Session.step unit unit (v3 Qc) tt (fun _ _ => tt) (fun _ r => (r, None))
    (fun _ _ _ _ _ f => (f, None)) (fun _ _ _ _ _ k => Ok k) (fun _ _ _ => Ok None).
  Definition xrun := @Session.run unit unit (v3 Qc) tt (fun _ _ => tt) (fun _ r => (r, None))
    (fun _ _ _ _ _ f => (f, None)) (fun _ _ _ _ _ k => Ok k) (fun _ _ _ => Ok None).
  Definition xstart := @Session.start unit unit (v3 Qc).
  (** First lattice constant of the unit cell of process [p] (numerator). *)
  Definition lat11 (st : @Session.state unit unit (v3 Qc)) (p : nat) : option Z :=
    match shows_objects st p with
    | Some (_, Some (OCell _ c), _) => match c_lat c with Some L => Some (Qnum (this (vx (r1 L)))) | None => None end
    | _ => None
    end.
  Definition sizes (st : @Session.state unit unit (v3 Qc)) (p : nat) : option (nat * nat) :=
    match shows st p with Some (_, Some o) => Some (length (po_k o), length (filter (fun w => match w with Some _ => true | None => false end) (po_w o))) | _ => None end.

  (** Two PreProcess() objects: reading a structure into the second changes the first. *)
  Example shared_defaults :
    let st := xrun xstart [NewPre None None None; SetUnitCell 0 (Some (poscar "3.0")) "vasp"; NewPre None None None] in
    (lat11 st 0, lat11 st 1, lat11 (xrun st [SetUnitCell 1 (Some (poscar "5.0")) "vasp"]) 0) = (Some 3, Some 3, Some 5)%Z.
  Proof. vm_compute. reflexivity. Qed.

  (** The same with objects of their own: process 1 is isolated. *)
  Example own_objects :
    let st := xrun xstart [NewPre None None None; NewArg false; NewCell false; NewCell true;
                           NewPre (Some 6) (Some 7) (Some 8); SetUnitCell 1 (Some (poscar "3.0")) "vasp";
                           SetUnitCell 0 (Some (poscar "5.0")) "vasp"] in
    (lat11 st 0, lat11 st 1) = (Some 5, Some 3)%Z.
  Proof. vm_compute. reflexivity. Qed.

  (** A PostProcess, its evaluation on a 2x2 grid, a deep copy evaluated on
      nothing, and a second PostProcess from another structure. *)
  Definition sess1 : list cmd :=
    [NewPost (Some (poscar "3.0")) (Some (poscar "6.0")) "vasp" None None None; SetUserArg 0 opts;
     SetK 0 (Some (kpoints "Gamma")); Eval 0].
  Example evaluated : sizes (xrun xstart sess1) 0 = Some (4, 4).
  Proof. vm_compute. reflexivity. Qed.
  Example copied :
    let st := xrun xstart (sess1 ++ [Copy 0; SetK 1 (Some (kpoints "Monkhorst")); SetUnitCell 1 (Some (poscar "5.0")) "vasp"]) in
    (sizes st 0, lat11 st 0, lat11 st 1) = (Some (4, 4), Some 3%Z, Some 5%Z).
  Proof. vm_compute. reflexivity. Qed.
  Example second_post_replaces :
    let st := xrun xstart (sess1 ++ [NewPost (Some (poscar "5.0")) (Some (poscar "10.0")) "vasp" None None None]) in
    (lat11 st 0, lat11 st 1, sizes st 0) = (Some 5%Z, Some 5%Z, Some (4, 4)).
  Proof. vm_compute. reflexivity. Qed.
  (** A misspelt style letter: no exception, no wave vectors, old results. *)
  Example misspelt_style :
    let st := xrun xstart sess1 in
    let r1 := xstep st (SetK 0 (Some (kpoints "Automatic"))) in
    let r2 := xstep (fst r1) (Eval 0) in
    (snd r1, snd r2, sizes (fst r2) 0) = (None, None, Some (0, 4)).
  Proof. vm_compute. reflexivity. Qed.
  (** Assigning a string object to unit_cell is ignored; assigning another cell
      is not seen by process.sym. *)
  Example assigned :
    let st := xrun xstart [NewPre None None None; NewOther; NewCell false; AssignUnit 0 6; AssignUnit 0 7] in
    match nth_error (st_procs st) 0 with Some q => (p_unit q, y_unit q) = (7, 1) | None => False end.
  Proof. vm_compute. reflexivity. Qed.
  Example built :
    let st := xrun xstart [NewPre None None None; SetUserArg 0 opts; SetUnitCell 0 (Some (poscar "3.0")) "vasp"; SetSuperCell 0] in
    match shows_objects st 0 with
    | Some (_, _, Some (OCell true s)) => option_map (@length _) (c_cart s) = Some 4
    | _ => False
    end.
  Proof. vm_compute. reflexivity. Qed.
  Example molecule :
    let o0 := [("displacement", VStr "0.02"); ("enlargement", VStr "1 1 1"); ("periodicity", VStr "0 0 0")] in
    let st := xrun xstart [NewPost (Some (poscar "3.0")) (Some (poscar "3.0")) "vasp" None None None; SetUserArg 0 o0] in
    snd (xstep st (Eval 0)) = Some EIndex /\ st_gamma (fst (xstep st (Eval 0))) = Some [].
  Proof. vm_compute. split; reflexivity. Qed.
  (** Arguments that fit the cells, and arguments that do not. *)
  Example arguments_checked :
    let bad := [("displacement", VStr "0.02"); ("enlargement", VStr "3 2 1"); ("periodicity", VStr "1 1 0")] in
    let st := xrun xstart [NewPost (Some (poscar "3.0")) (Some (poscar "6.0")) "vasp" None None None] in
    (snd (xstep st (SetUserArg 0 opts)), snd (xstep st (SetUserArg 0 bad))) = (None, Some EMismatchENLARGEpost).
  Proof. vm_compute. reflexivity. Qed.
  (** After a PreArgument object without values is assigned, an evaluation fails and drops the old frequencies. *)
  Example stale_rows_dropped :
    let st := xrun xstart (sess1 ++ [NewArg false; AssignArg 0 6]) in
    let r := xstep st (Eval 0) in
    (sizes st 0, snd r <> None, sizes (fst r) 0) = (Some (4, 4), snd r <> None, Some (4, 0)) /\ snd r <> None.
  Proof. vm_compute. split; [reflexivity|discriminate]. Qed.
End Examples.

Print Assumptions private_objects_are_isolated.
Print Assumptions fresh_objects_are_private.
Print Assumptions default_processes_share_everything.
Print Assumptions deep_copy_is_independent.
Print Assumptions second_post_process_replaces_the_first.
Print Assumptions wrong_class_assignment_is_silent.
Print Assumptions cell_class_of_assignment.
Print Assumptions symmetry_object_keeps_its_cells.
Print Assumptions evaluation_matches_wave_vectors.
Print Assumptions rejected_k_file_drops_the_wave_vectors.
Print Assumptions unknown_k_style_keeps_old_frequencies.
Print Assumptions failed_evaluation.
Print Assumptions discrete_frequency_file.
Print Assumptions set_super_cell_builds_from_its_objects.
Print Assumptions one_object_as_both_cells.
Print Assumptions unknown_code_name.
Print Assumptions right_class_assignment.
Print Assumptions new_process_holds_its_objects.
Print Assumptions post_arguments_are_checked.
Print Assumptions mismatched_post_arguments_raise.
Print Assumptions evaluation_keeps_no_old_result.
