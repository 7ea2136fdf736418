(** Proofs about the model of whole runs (Run.v). *)
From Coq Require Import String Ascii ZArith Arith Bool Lia List Sorted QArith Qcanon.
From Verif Require Import Base Dec Field Args ArgsFacts Cell Super SuperFacts Displace DisplaceFacts Text TextFacts TextRound PropsText
  Check CheckFacts PropsCheck PropsCell KPoints Weight Force PropsForce Cli PropsArgs PropsCli Session Run.
Import ListNotations.
Local Open Scope list_scope.
Local Open Scope nat_scope.

(** ** files *)
Lemma same_path_refl p : same_path p p = true.
Proof. unfold same_path. destruct (list_eq_dec string_dec p p); congruence. Qed.
Lemma same_path_neq p q : p <> q -> same_path p q = false.
Proof. unfold same_path. destruct (list_eq_dec string_dec p q); congruence. Qed.
Lemma put_file_same w p t : w_file (put_file w p t) p = Some t.
Proof. cbn. now rewrite same_path_refl. Qed.
Lemma put_file_other w p q t : q <> p -> w_file (put_file w p t) q = w_file w q.
Proof. intro H. cbn. now rewrite same_path_neq. Qed.

(** ** one structure, written and read back *)
Definition name_ok (code t : string) : Prop :=
  (code = "vasp"%string /\ token t) \/ (code = "espresso"%string /\ espresso_species t) \/ (code = "aims"%string /\ aims_species t).

Section Structure.
  Variable species : cell Qc -> list string.
  Variable wt : string -> string.
  Hypothesis species_types : forall c ty a, c_type c = Some ty -> In a (species c) -> In a ty.
  Hypothesis weights_numeric : forall a, num_text (wt a).

  Lemma ungroup_In gs a : In a (ungroup gs) -> exists n, In (a, n) gs.
  Proof.
    induction gs as [|[t n] r IH]; cbn; [tauto|]. intros H. apply in_app_or in H as [H|H].
    - apply repeat_spec in H. subst. eauto.
    - destruct (IH H) as (m & Hm). eauto.
  Qed.
  Lemma ungroup_pos gs : gs <> [] -> (forall t n, In (t, n) gs -> 0 < n) -> 0 < length (ungroup gs).
  Proof.
    destruct gs as [|[t n] r]; [congruence|]. intros _ H. cbn. rewrite app_length, repeat_length.
    specialize (H t n (or_introl eq_refl)). lia.
  Qed.

  Lemma structure_roundtrip code (c : cell Qc) comment L gs pos tr :
    c_lat c = Some L -> c_type c = Some (ungroup gs) -> c_num c = Some (group_sizes gs) ->
    c_cart c = Some pos -> c_true c = Some tr ->
    gs <> [] -> (forall t n, In (t, n) gs -> name_ok code t /\ 0 < n) -> length (ungroup gs) = length pos ->
    no_nl comment = true ->
    exists text c', structure_text species wt code c comment = Ok (Some text) /\
      (forall w p, w_file w p = Some text -> read_structure code w p = Ok c') /\
      same_geometry L (ungroup gs) pos c' /\ same_selection (c_sel c) tr (length pos) c'.
  Proof.
    intros H1 H2 H3 H4 H5 Hne Hg Hl Hc.
    assert (P0 : 0 < length pos) by (rewrite <- Hl; apply ungroup_pos; [exact Hne|]; intros t n Hin; apply (Hg t n Hin)).
    destruct gs as [|[t0 n0] gr] eqn:EG; [congruence|]. rewrite <- EG in *. clear Hne.
    assert (Hne : gs <> []) by (subst; discriminate).
    assert (K : name_ok code t0) by (apply (Hg t0 n0); subst; now left).
    assert (Code : code = "vasp"%string \/ code = "espresso"%string \/ code = "aims"%string) by (destruct K as [[-> _]|[[-> _]|[-> _]]]; auto).
    destruct Code as [-> |[-> | ->]].
    - destruct (vasp_file_roundtrip c comment L gs pos tr cell_init H1 H2 H3 H4 H5 Hne) as (lines & c' & W & R & G & _ & _ & S); auto.
      { intros t n Hin. destruct (Hg t n Hin) as ([[_ T]|[[X _]|[X _]]] & Hp); [auto|discriminate..]. }
      exists (to_text lines), c'. split; [unfold structure_text; cbn; rewrite W; reflexivity|].
      split; [|auto]. intros w p Hw. unfold read_structure. cbn [reader_of String.eqb Ascii.eqb Bool.eqb]. rewrite Hw, R. reflexivity.
    - destruct (espresso_file_roundtrip c (species c) wt L (ungroup gs) pos tr cell_init H1 H2 H4 H5 P0 Hl) as (lines & c' & W & R & G & _ & S & _); auto.
      { intros a Ha. destruct (ungroup_In _ _ Ha) as (n & Hin). destruct (Hg a n Hin) as ([[X _]|[[_ X]|[X _]]] & Hp); [discriminate|exact X|discriminate]. }
      { intros a Ha. eapply species_types; eauto. }
      exists (to_text lines), c'. split; [unfold structure_text; cbn [String.eqb Ascii.eqb Bool.eqb]; rewrite W; reflexivity|].
      split; [|auto]. intros w p Hw. unfold read_structure. cbn [reader_of String.eqb Ascii.eqb Bool.eqb]. rewrite Hw, R. reflexivity.
    - destruct (aims_file_roundtrip c L (ungroup gs) pos tr cell_init H1 H2 H4 H5 P0 Hl) as (lines & c' & W & R & G & _ & S & _); auto.
      { intros a Ha. destruct (ungroup_In _ _ Ha) as (n & Hin). destruct (Hg a n Hin) as ([[X _]|[[X _]|[_ X]]] & Hp); [discriminate|discriminate|exact X]. }
      exists (to_text lines), c'. split; [unfold structure_text; cbn [String.eqb Ascii.eqb Bool.eqb]; rewrite W; reflexivity|].
      split; [|auto]. intros w p Hw. unfold read_structure. cbn [reader_of String.eqb Ascii.eqb Bool.eqb]. rewrite Hw, R. reflexivity.
  Qed.

  (** a list of files with different names *)
  Lemma write_all_ok code (l : list (path * out Qc)) : forall w,
    NoDup (map fst l) ->
    (forall p o, In (p, o) l -> exists t, structure_text species wt code (o_cell o) (o_comment o) = Ok (Some t)) ->
    exists w', write_all species wt code w l = (w', None) /\ w_rec w' = w_rec w /\
      (forall p o t, In (p, o) l -> structure_text species wt code (o_cell o) (o_comment o) = Ok (Some t) -> w_file w' p = Some t) /\
      (forall q, ~ In q (map fst l) -> w_file w' q = w_file w q).
  Proof.
    induction l as [|[p o] l IH]; intros w ND HT.
    - exists w. cbn. split; [reflexivity|]. split; [reflexivity|]. split; [intros ? ? ? []|reflexivity].
    - cbn [map fst] in ND. inversion ND as [|? ? N1 N2]; subst. destruct (HT p o (or_introl eq_refl)) as (t & Ht).
      destruct (IH (put_file w p t) N2) as (w' & E & RE & A & B); [intros p0 o0 Hin; apply (HT p0 o0); now right|].
      exists w'. cbn [write_all]. unfold write_structure. rewrite Ht. cbn [bind]. split; [exact E|]. split; [exact RE|]. split.
      + intros p0 o0 t0 [X|Hin] T0.
        * injection X as <- <-. rewrite B by exact N1. rewrite Ht in T0. injection T0 as <-. apply put_file_same.
        * eapply A; eauto.
      + intros q Hq. cbn [map fst] in Hq. rewrite B by (intro; apply Hq; now right). apply put_file_other. intros ->. apply Hq. now left.
  Qed.
  Lemma write_all_frame code (l : list (path * out Qc)) : forall w w' r,
    write_all species wt code w l = (w', r) -> w_rec w' = w_rec w /\ (forall q, ~ In q (map fst l) -> w_file w' q = w_file w q).
  Proof.
    induction l as [|[p o] l IH]; intros w w' r H; cbn [write_all] in H; [injection H as <- <-; auto|].
    destruct (write_structure species wt code w p (o_cell o) (o_comment o)) as [w1|er] eqn:E; [|injection H as <- <-; auto].
    destruct (IH _ _ _ H) as (A & B).
    unfold write_structure in E. apply bind_ok in E as (t & _ & E). injection E as <-.
    split.
    - rewrite A. destruct t; reflexivity.
    - intros q Hq. cbn [map fst] in Hq. rewrite B by (intro; apply Hq; now right).
      destruct t; [apply put_file_other; intros ->; apply Hq; now left|reflexivity].
  Qed.
End Structure.

(** ** the groups of the supercell *)
Definition scale_groups (E : nat) (gs : list (string * nat)) : list (string * nat) := map (fun g => (fst g, snd g * E)) gs.
Lemma flat_map_repeat_repeat (t : string) E n : flat_map (fun a => repeat a E) (repeat t n) = repeat t (n * E).
Proof. induction n as [|n IH]; cbn; [reflexivity|]. rewrite IH. now rewrite <- repeat_app. Qed.
Lemma flat_map_ungroup E gs : flat_map (fun a => repeat a E) (ungroup gs) = ungroup (scale_groups E gs).
Proof.
  induction gs as [|[t n] r IH]; [reflexivity|]. cbn [ungroup scale_groups map fst snd]. rewrite flat_map_app, flat_map_repeat_repeat. f_equal. exact IH.
Qed.
Lemma group_sizes_scale E gs : group_sizes (scale_groups E gs) = map (fun n => (n * Z.of_nat E)%Z) (group_sizes gs).
Proof. induction gs as [|[t n] r IH]; [reflexivity|]. cbn [scale_groups map fst snd group_sizes]. f_equal; [lia|exact IH]. Qed.
Lemma scale_groups_In E gs t n : In (t, n) (scale_groups E gs) -> exists m, In (t, m) gs /\ n = m * E.
Proof. intros H. apply in_map_iff in H as ([t0 m] & X & Hin). cbn in X. injection X as <- <-. eauto. Qed.

Lemma ungroup_scale_length E gs : length (ungroup (scale_groups E gs)) = length (ungroup gs) * E.
Proof.
  induction gs as [|[t n] r IH]; [reflexivity|]. cbn [scale_groups map ungroup fst snd]. rewrite !app_length, !repeat_length.
  fold (scale_groups E r). rewrite IH. lia.
Qed.

(** ** the supercell that is built *)
Lemma built_supercell (u : cell Qc) a L gs k pos tr N1 N2 N3 p1 p2 p3 :
  complete u L (ungroup gs) (group_sizes gs) k pos -> c_true u = Some tr ->
  valid_args a (Z.of_nat N1) (Z.of_nat N2) (Z.of_nat N3) p1 p2 p3 -> 0 < N1 -> 0 < N2 -> 0 < N3 ->
  let E := N1 * N2 * N3 in
  exists s cur ts, build_super u a = Ok s /\ ready s a cur E (length pos) /\
    super_spec u s L (ungroup gs) (group_sizes gs) k pos N1 N2 N3 /\
    c_lat s = Some (scaled (Z.of_nat N1) (Z.of_nat N2) (Z.of_nat N3) L) /\
    c_type s = Some (ungroup (scale_groups E gs)) /\ c_num s = Some (group_sizes (scale_groups E gs)) /\
    c_cart s = Some cur /\ length cur = length pos * E /\ c_sel s = true /\ c_true s = Some ts /\
    length ts = length tr * E /\
    (forall i b c, nth_error tr i = Some b -> c < E -> nth_error ts (E * i + c) = Some (b * Z.of_nat E + Z.of_nat c)%Z).
Proof.
  intros HC HT HV P1 P2 P3 E.
  destruct (super_cell_correct u a L _ _ k pos N1 N2 N3 p1 p2 p3 HC HV P1 P2 P3) as (s0 & E0 & SP).
  destruct (super_selection u s0 a tr N1 N2 N3 p1 p2 p3 HV HT) as (s & ts & E1 & Q1 & Q2 & Q3 & Q4 & Q5 & Q6 & Q7 & Q8 & _).
  destruct (built_supercell_is_ready u a L _ _ k pos tr N1 N2 N3 p1 p2 p3 HC HT HV P1 P2 P3) as (s' & cur & B & RD).
  assert (BS : build_super u a = Ok s) by (unfold build_super; rewrite E0; exact E1).
  rewrite BS in B. injection B as <-.
  pose proof SP as [S1 S2 S3 S4 S5].
  assert (TY : c_type s0 = Some (ungroup (scale_groups E gs))).
  { rewrite (set_super_cell_gen _ _ _ _ _ _ _ _ _ _ _ _ _ HC HV) in E0. rewrite super_array_pos in E0 by lia. cbn [bind] in E0. injection E0 as <-.
    cbn. f_equal. rewrite <- flat_map_ungroup. replace (Z.to_nat _) with E; [reflexivity|]. unfold E. lia. }
  exists s, cur, ts. split; [exact BS|]. split; [exact RD|]. split.
  { assert (KS : c_coord s = c_coord s0).
    { unfold set_super_ind_true in E1. apply bind_ok in E1 as (? & _ & E1). apply bind_ok in E1 as (? & _ & E1). apply bind_ok in E1 as (? & _ & E1).
      apply bind_ok in E1 as (? & _ & E1). injection E1 as <-. reflexivity. }
    split.
    - now rewrite Q5.
    - destruct S2 as (x & X). exists x. now rewrite Q4.
    - now rewrite Q6.
    - now rewrite KS.
    - destruct S5 as (x & X). exists x. now rewrite Q3. }
  split; [now rewrite Q5|]. split; [now rewrite Q4|]. split.
  { rewrite Q6, S3. f_equal. unfold E. now rewrite group_sizes_scale. }
  destruct RD as [R1 R2 _ _ _]. split; [exact R1|]. split; [exact R2|]. auto.
Qed.

(** ** the pre-process *)
Lemma suffix_not_supercell base k : (base ++ suffix k)%string <> "SUPERCELL"%string.
Proof.
  intros H. assert (C : contains "-" (base ++ suffix k)%string = true).
  { clear H. induction base as [|x r IH]; [unfold suffix; cbn; reflexivity|].
    cbn [append contains]. rewrite IH. now destruct (is_prefix _ _). }
  rewrite H in C. discriminate.
Qed.
Lemma string_app_inj_l (a b c : string) : (a ++ b = a ++ c)%string -> b = c.
Proof. induction a as [|x r IH]; cbn; [auto|]. intros H. injection H as H. auto. Qed.
Lemma snoc_inj {A} (p : list A) x y : p ++ [x] = p ++ [y] -> x = y.
Proof. intros H. apply app_inv_head in H. now injection H. Qed.

Definition super_path (p : path) : path := removelast p ++ ["SUPERCELL"%string].
Definition displaced_path (p : path) (k : nat) : path := removelast p ++ [(last p EmptyString ++ suffix k)%string].

Lemma NoDup_displaced p (outs : list (out Qc)) :
  (forall k f, nth_error outs k = Some f -> o_suffix f = suffix (k + 1)) ->
  NoDup (map fst (map (fun o => (removelast p ++ [(last p EmptyString ++ o_suffix o)%string], o)) outs)).
Proof.
  intros H. rewrite map_map. cbn [fst].
  apply NoDup_nth_error. intros i j Hi E. rewrite map_length in Hi.
  destruct (nth_error outs i) as [f|] eqn:Ei; [|apply nth_error_None in Ei; lia].
  rewrite !nth_error_map, Ei in E. cbn [option_map] in E. destruct (nth_error outs j) as [g|] eqn:Ej; [|discriminate]. cbn [option_map] in E. injection E as E.
  apply snoc_inj in E. apply string_app_inj_l in E. rewrite (H _ _ Ei), (H _ _ Ej) in E. apply suffix_inj in E. lia.
Qed.

Section Pre.
  Variable species : cell Qc -> list string.
  Variable wt : string -> string.
  Hypothesis species_types : forall c ty a, c_type c = Some ty -> In a (species c) -> In a ty.
  Hypothesis weights_numeric : forall a, num_text (wt a).
  Variable search : cell Qc -> cell Qc -> args -> result (option (string * list (nat * (v3 Qc * list (v3 Qc))))).

  Lemma pre_run_ok cwd ua unit sym w up code (u : cell Qc) a d L gs k pos tr N1 N2 N3 p1 p2 p3 s pg outs :
    code_of ua = code -> unit = VStr up -> set_user_arg args_init ua = Ok a -> a_disp a = Some d ->
    valid_args a (Z.of_nat N1) (Z.of_nat N2) (Z.of_nat N3) p1 p2 p3 -> 0 < N1 -> 0 < N2 -> 0 < N3 ->
    read_structure code w (resolve cwd up) = Ok u ->
    complete u L (ungroup gs) (group_sizes gs) k pos -> c_true u = Some tr ->
    gs <> [] -> (forall t n, In (t, n) gs -> name_ok code t /\ 0 < n) ->
    build_super u a = Ok s ->
    displaced_cells search u s a sym = Ok (pg, outs) ->
    (forall m f, nth_error outs m = Some f -> o_suffix f = suffix (m + 1) /\ no_nl (o_comment f) = true /\
       exists pf, o_cell f = put_cart (set_selective s false) pf /\ length pf = length pos * (N1 * N2 * N3)) ->
    let p := resolve cwd up in let E := N1 * N2 * N3 in
    exists w' cur ts sc r, pre_run species wt search cwd ua (VStr code) unit sym w = (w', None) /\
      c_cart s = Some cur /\ c_true s = Some ts /\
      read_structure code w' (super_path p) = Ok sc /\
      same_geometry (scaled (Z.of_nat N1) (Z.of_nat N2) (Z.of_nat N3) L) (ungroup (scale_groups E gs)) cur sc /\
      same_selection true ts (length pos * E) sc /\
      (forall m f pf, nth_error outs m = Some f -> c_cart (o_cell f) = Some pf ->
         exists c', read_structure code w' (displaced_path p (m + 1)) = Ok c' /\
           same_geometry (scaled (Z.of_nat N1) (Z.of_nat N2) (Z.of_nat N3) L) (ungroup (scale_groups E gs)) pf c' /\
           same_selection false ts (length pos * E) c') /\
      (forall q, q <> super_path p -> (forall m, m < length outs -> q <> displaced_path p (m + 1)) -> w_file w' q = w_file w q) /\
      make_record (last p EmptyString) (VStr code) pg a = Ok r /\
      w_rec w' cwd = Some r /\ (forall q, q <> cwd -> w_rec w' q = w_rec w q).
  Proof.
    intros HCode HU HA HD HV P1 P2 P3 HR HC HT Hne Hg HB HDC HO p E.
    destruct (built_supercell u a L gs k pos tr N1 N2 N3 p1 p2 p3 HC HT HV P1 P2 P3)
      as (s' & cur & ts & B' & RD & SP & SL & ST & SN & SC & SCl & SS & STr & STl & STn).
    rewrite HB in B'. injection B' as <-.
    assert (Gne : scale_groups E gs <> []) by (destruct gs; [congruence|discriminate]).
    assert (EP : 0 < E) by (unfold E; apply Nat.mul_pos_pos; [apply Nat.mul_pos_pos|]; assumption).
    assert (Gg : forall t n, In (t, n) (scale_groups E gs) -> name_ok code t /\ 0 < n).
    { intros t n Hin. apply scale_groups_In in Hin as (m & Hin & ->). destruct (Hg t m Hin). split; [assumption|]. now apply Nat.mul_pos_pos. }
    assert (Gl : length (ungroup (scale_groups E gs)) = length pos * E).
    { rewrite ungroup_scale_length. destruct HC as (_ & _ & _ & _ & _ & ->). reflexivity. }
    assert (RT : forall f pf, o_cell f = put_cart (set_selective s false) pf -> length pf = length pos * E -> no_nl (o_comment f) = true ->
       exists text c', structure_text species wt code (o_cell f) (o_comment f) = Ok (Some text) /\
         (forall w p, w_file w p = Some text -> read_structure code w p = Ok c') /\
         same_geometry (scaled (Z.of_nat N1) (Z.of_nat N2) (Z.of_nat N3) L) (ungroup (scale_groups E gs)) pf c' /\
         same_selection false ts (length pos * E) c').
    { intros f pf Ef Lf Cf. rewrite Ef.
      destruct (structure_roundtrip species wt species_types weights_numeric code (put_cart (set_selective s false) pf) (o_comment f)
                  _ (scale_groups E gs) pf ts SL ST SN eq_refl STr Gne Gg) as (t & c' & X1 & X2 & X3 & X4); [congruence|exact Cf|].
      exists t, c'. split; [exact X1|]. split; [exact X2|]. split; [exact X3|]. rewrite <- Lf. exact X4. }
    destruct (structure_roundtrip species wt species_types weights_numeric code s "Supercell" _ (scale_groups E gs) cur ts SL ST SN SC STr Gne Gg)
      as (t0 & sc & T0 & T1 & T2 & T3); [rewrite Gl; symmetry; exact SCl|reflexivity|].
    set (w1 := put_file w (super_path p) t0).
    set (files := map (fun o => (removelast p ++ [(last p EmptyString ++ o_suffix o)%string], o)) outs).
    assert (FS : forall q, In q (map fst files) -> exists m, m < length outs /\ q = displaced_path p (m + 1)).
    { intros q Hq. unfold files in Hq. rewrite map_map in Hq. apply in_map_iff in Hq as (o & <- & Hin). apply In_nth_error in Hin as (m & Hm).
      exists m. split; [apply nth_error_Some; congruence|]. cbn [fst]. destruct (HO m o Hm) as (-> & _). reflexivity. }
    destruct (write_all_ok species wt code files w1) as (w2 & W1 & W2 & W3 & W4).
    { apply NoDup_displaced. intros m f Hm. apply (HO m f Hm). }
    { intros q o Hin. apply in_map_iff in Hin as (o' & X & Hin). injection X as <- <-. apply In_nth_error in Hin as (m & Hm).
      destruct (HO m o' Hm) as (_ & Cf & pf & Ef & Lf). destruct (RT o' pf Ef Lf Cf) as (t & c' & Y & _). eauto. }
    assert (MR : exists r, make_record (last p EmptyString) (VStr code) pg a = Ok r).
    { destruct HV as (V1 & V2 & _). unfold make_record. rewrite V1, V2. cbn [of_option bind]. eauto. }
    destruct MR as (r & MR).
    exists (put_record w2 cwd r), cur, ts, sc, r.
    split.
    { unfold pre_run. rewrite HU. cbn [path_text bind]. rewrite HA. cbn [bind]. rewrite HCode, HR. cbn [bind]. rewrite HB. cbn [bind].
      unfold write_structure. rewrite T0. cbn [bind]. fold p. fold (super_path p). rewrite HDC. fold files. fold w1. rewrite W1, MR. reflexivity. }
    split; [exact SC|]. split; [exact STr|].
    assert (SP' : w_file w2 (super_path p) = Some t0).
    { rewrite W4; [apply put_file_same|]. intros Hin. apply FS in Hin as (m & _ & X). unfold super_path, displaced_path in X. apply snoc_inj in X.
      symmetry in X. now apply suffix_not_supercell in X. }
    split; [apply T1; exact SP'|]. split; [exact T2|]. split; [rewrite SS, SCl in T3; exact T3|]. split.
    { intros m f pf Hm Hpf. destruct (HO m f Hm) as (Sf & Cf & pf' & Ef & Lf).
      assert (pf' = pf) by (rewrite Ef in Hpf; cbn in Hpf; congruence). subst pf'.
      destruct (RT f pf Ef Lf Cf) as (t & c' & Y1 & Y2 & Y3 & Y4). exists c'. split; [|split; [exact Y3|exact Y4]].
      apply Y2. cbn [w_file put_record]. refine (W3 _ f t _ Y1). unfold files, displaced_path. rewrite <- Sf.
      apply in_map_iff. exists f. split; [reflexivity|]. eapply nth_error_In; eauto. }
    split.
    { intros q Q1 Q2. cbn [w_file put_record]. rewrite W4; [now apply put_file_other|].
      intros Hin. apply FS in Hin as (m & Hm & X). exact (Q2 m Hm X). }
    split; [exact MR|]. split.
    - cbn. now rewrite same_path_refl.
    - intros q Hq. cbn. rewrite same_path_neq by exact Hq. now rewrite W2.
  Qed.
End Pre.

(** ** the post-process *)
Lemma read_structure_ext code w1 w2 p q : w_file w1 p = w_file w2 q -> read_structure code w1 p = read_structure code w2 q.
Proof. intros H. unfold read_structure. now rewrite H. Qed.

Lemma set_mass_true_ok (u : cell Qc) ty tr :
  c_type u = Some ty -> c_true u = Some tr -> c_xyz u = Some (flat_map (fun i => [i; i; i]) tr) ->
  Forall (fun a => 0 <= a < Z.of_nat (length ty))%Z tr ->
  (forall t, In t ty -> exists we, get_atomic_weight t = Ok (Some we)) ->
  exists ms, set_mass_true u = Ok (mkCell (c_lat u) (c_type u) (c_num u) (c_sel u) (c_coord u) (c_cart u) (c_true u) (c_xyz u) (Some ms)).
Proof.
  intros HT HR HX HF HW. unfold set_mass_true. rewrite HT. cbn [of_option bind].
  pose (massof t := match atom_mass (A := Qc) t with Ok x => x | Err _ => Q2Qc 0 end).
  assert (M1 : mapM (atom_mass (A := Qc)) ty = Ok (map massof ty)).
  { apply mapM_total. intros t Ht. destruct (HW t Ht) as (we & E). unfold massof, atom_mass. rewrite E. reflexivity. }
  rewrite M1, HX. cbn [of_option bind].
  rewrite (mapM_total _ (fun z => nth (Z.to_nat z) (map massof ty) (Q2Qc 0))).
  - cbn [bind]. unfold set_mass_true_field. rewrite HR, map_length.
    rewrite (flat_map_const_length _ _ 3) by reflexivity. rewrite (Nat.mul_comm 3), Nat.eqb_refl. rewrite HT, HX. eauto.
  - intros z Hz. apply in_flat_map in Hz as (b & Hb & Hz).
    assert (b = z) by (cbn in Hz; tauto). subst b. rewrite Forall_forall in HF. specialize (HF z Hb).
    unfold np_index. rewrite map_length. rewrite (proj2 (Z.leb_le 0 z)) by lia. rewrite (proj2 (Z.ltb_lt _ _)) by lia. cbn [bind].
    unfold py_nth. rewrite (nth_error_nth' _ (Q2Qc 0)) by (rewrite map_length; lia). reflexivity.
Qed.

Definition mass_only (u u' : cell Qc) : Prop :=
  exists ms, u' = mkCell (c_lat u) (c_type u) (c_num u) (c_sel u) (c_coord u) (c_cart u) (c_true u) (c_xyz u) (Some ms).

Section Post.
  Variable search : cell Qc -> cell Qc -> args -> result (option (string * list (nat * (v3 Qc * list (v3 Qc))))).
  Variable sym_forces : cell Qc -> cell Qc -> args -> (string -> result (list (v3 Qc))) -> list string -> fmat Qc * option err.

  Lemma post_run_ok cwd ua up sp ff w code (u s sc sw : cell Qc) a d L gs k pos tr N1 N2 N3 p1 p2 p3 cur outs :
    let E := N1 * N2 * N3 in
    code_of ua = code -> set_user_arg args_init ua = Ok a -> a_disp a = Some d ->
    valid_args a (Z.of_nat N1) (Z.of_nat N2) (Z.of_nat N3) p1 p2 p3 -> 0 < N1 -> 0 < N2 -> 0 < N3 ->
    (Z.of_nat N1 <= 10000000)%Z -> (Z.of_nat N2 <= 10000000)%Z -> (Z.of_nat N3 <= 10000000)%Z ->
    read_structure code w (resolve cwd up) = Ok u -> read_structure code w (resolve cwd sp) = Ok sc ->
    complete u L (ungroup gs) (group_sizes gs) k pos -> c_true u = Some tr ->
    c_xyz u = Some (flat_map (fun i => [i; i; i]) tr) -> Forall (fun b => 0 <= b < Z.of_nat (length pos))%Z tr ->
    (forall t n, In (t, n) gs -> exists we, get_atomic_weight t = Ok (Some we)) ->
    build_super u a = Ok s -> c_cart s = Some cur ->
    same_geometry (scaled (Z.of_nat N1) (Z.of_nat N2) (Z.of_nat N3) L) (ungroup (scale_groups E gs)) cur sc ->
    write_displace_nosym u s a (Some d) = Ok (sw, outs) -> length ff = length outs ->
    (forall m f o pf, nth_error ff m = Some f -> nth_error outs m = Some o -> c_cart (o_cell o) = Some pf ->
       exists c' pf', read_structure code w (beside cwd f (last (resolve cwd up) EmptyString)) = Ok c' /\ c_cart c' = Some pf' /\ Forall2 vwithin pf pf') ->
    (forall f, In f ff -> exists G, read_forces code w cwd (length pos * E) f = Ok G /\ length G = length pos * E) ->
    exists u' s' fc, post_run search sym_forces cwd ua false (VStr up) (VStr sp) ff w = Ok (mkPrepared u' s' a fc) /\
      mass_only u u' /\ same_geometry (scaled (Z.of_nat N1) (Z.of_nat N2) (Z.of_nat N3) L) (ungroup (scale_groups E gs)) cur s' /\
      set_super_ind_true sc u a = Ok s' /\
      length ff = 6 * length tr /\
      (forall c f g G H t v x i, nth_error ff (2 * c) = Some f -> nth_error ff (2 * c + 1) = Some g ->
         read_forces code w cwd (length pos * E) f = Ok G -> read_forces code w cwd (length pos * E) g = Ok H ->
         nth_error G t = Some v -> nth_error H t = Some x -> i < 3 ->
         fc (3 * t + i) c = Some (fdiv (fopp (fsub (component v i) (component x i))) (fmul (fmul (fofZ 2) d) (fdiv f1 (fofZ (10 ^ 10)))))).
  Proof.
    intros E HCode HA HD HV P1 P2 P3 B1 B2 B3 HU HS HC HT HX HF HW HB HCur HG HWr HLf HFiles HForces.
    pose proof HC as (C1 & C2 & _ & _ & C5 & C6).
    destruct (built_supercell u a L gs k pos tr N1 N2 N3 p1 p2 p3 HC HT HV P1 P2 P3)
      as (s0 & cur0 & ts & B' & RD & SP & SL & ST & SN & SC & SCl & SS & STr & _).
    rewrite HB in B'. injection B' as <-. rewrite HCur in SC. injection SC as <-. fold E in RD, ST, SN, SCl.
    destruct (set_mass_true_ok u (ungroup gs) tr C2 HT HX) as (ms & HM).
    { rewrite C6. exact HF. }
    { intros t Ht. destruct (ungroup_In _ _ Ht) as (n & Hin). eapply HW; eauto. }
    set (u' := mkCell (c_lat u) (c_type u) (c_num u) (c_sel u) (c_coord u) (c_cart u) (c_true u) (c_xyz u) (Some ms)) in *.
    pose proof HG as ((SL' & GL & GW) & GT & (cur' & GC & GCW) & GK).
    assert (CM : check_match_argument u' sc a = Ok tt).
    { assert (MW : mwithin L L) by (repeat split; try (intros; reflexivity); (ring_simplify; apply Qle_bool_iff; reflexivity) || (unfold Qcminus; rewrite Qcplus_opp_r; apply Qle_bool_iff; reflexivity)).
      refine (generated_supercell_accepted u u' s sc a L _ _ k pos tr N1 N2 N3 p1 p2 p3 L _ SL' HC HT HV P1 P2 P3 B1 B2 B3 HB SL _ _); auto. }
    destruct (super_selection u' sc a tr N1 N2 N3 p1 p2 p3 HV) as (s' & ts' & E1 & Q1 & Q2 & Q3 & Q4 & Q5 & Q6 & _); [exact HT|].
    assert (EQS : set_super_ind_true sc u a = set_super_ind_true sc u' a) by reflexivity.
    assert (KS : c_coord s' = c_coord sc).
    { unfold set_super_ind_true in E1. apply bind_ok in E1 as (? & _ & E1). apply bind_ok in E1 as (? & _ & E1). apply bind_ok in E1 as (? & _ & E1).
      apply bind_ok in E1 as (? & _ & E1). injection E1 as <-. reflexivity. }
    assert (GS : same_geometry (scaled (Z.of_nat N1) (Z.of_nat N2) (Z.of_nat N3) L) (ungroup (scale_groups E gs)) cur s').
    { unfold same_geometry. rewrite Q3, Q4, Q5, KS. exact HG. }
    assert (LT : length (ungroup (scale_groups E gs)) = length pos * E) by (rewrite ungroup_scale_length, C6; reflexivity).
    assert (RD' : ready s' a cur' E (length pos)).
    { destruct RD as [R1 R2 R3 R4 R5]. split; [now rewrite Q3|rewrite <- R2; symmetry; exact (F2_length _ _ _ GCW)| |exact R4|exact R5].
      intros t Ht. rewrite Q4, GT in Ht. injection Ht as <-. exact LT. }
    set (base := last (resolve cwd up) EmptyString) in *.
    set (files := map (fun f => let! c := read_structure code w (beside cwd f base) in of_option EType (c_cart c)) ff).
    assert (CO : check_file_order_nosym u' s' a (Some d) files = Ok tt).
    { change (check_file_order_nosym u' s' a (Some d) files) with (check_file_order_nosym u s' a (Some d) files).
      refine (written_files_accepted u s s' sw a cur cur' E (length pos) d tr outs files RD HT HF HWr RD' GCW _).
      intros m o pf Hm Hpf. assert (Hml : m < length ff) by (rewrite HLf; apply nth_error_Some; congruence).
      destruct (nth_error ff m) as [f|] eqn:Ef; [|apply nth_error_None in Ef; lia].
      destruct (HFiles m f o pf Ef Hm Hpf) as (c' & pf' & R1 & R2 & R3).
      exists pf'. split; [|exact R3]. unfold files. rewrite nth_error_map, Ef. cbn [option_map]. rewrite R1. cbn [bind]. rewrite R2. reflexivity. }
    destruct (displaced_files_without_symmetry u s a cur E (length pos) d tr RD HT HF) as (sw' & outs' & W' & LO & _).
    rewrite HWr in W'. injection W' as <- <-.
    assert (LF : length ff = 6 * length tr) by congruence.
    destruct (pair_up ff (3 * length tr)) as (pairs & EP & LP & VP); [rewrite LF; ring|].
    destruct (finite_difference_columns (read_forces code w cwd (length pos * E)) (length pos * E) (length tr) d empty_mat pairs) as (fc & EF & V & _).
    { rewrite LP. apply Nat.le_refl. }
    { intros p Hp. destruct (HForces (fst p)) as (G & G1 & G2).
      { rewrite EP. apply in_flat_map. exists p. split; [exact Hp|now left]. }
      destruct (HForces (snd p)) as (H & H1 & H2).
      { rewrite EP. apply in_flat_map. exists p. split; [exact Hp|now right; left]. }
      exists G, H. auto. }
    exists u', s', fc. split.
    { unfold post_run. rewrite HCode. cbn [path_text bind]. rewrite HU. cbn [bind]. rewrite HM. cbn [bind]. rewrite HS. cbn [bind].
      rewrite HA. cbn [bind]. rewrite CM. cbn [bind]. rewrite E1. cbn [bind]. rewrite Q4, GT. cbn [of_option bind].
      change (c_true u') with (c_true u). rewrite HT. cbn [of_option bind]. destruct HV as (_ & V2 & _). rewrite V2. cbn [of_option bind].
      rewrite HD. fold base. fold files. rewrite CO. cbn [of_option bind]. rewrite LT, EP, EF. reflexivity. }
    split; [exists ms; reflexivity|]. split; [exact GS|]. split; [rewrite EQS; exact E1|]. split; [exact LF|].
    intros c f g G H t v x i Hf Hg RG RH Hv Hx Hi.
    destruct (nth_error pairs c) as [p|] eqn:Ep.
    - destruct (VP c p Ep) as (X1 & X2). rewrite Hf in X1. rewrite Hg in X2. injection X1 as X1. injection X2 as X2.
      apply (V c p G H t v x i Ep); try assumption; congruence.
    - apply nth_error_None in Ep. assert (2 * c < length ff) by (apply nth_error_Some; congruence). lia.
  Qed.
End Post.
