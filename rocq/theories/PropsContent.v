(** What the files of an analysis contain: the property C105.  Model: Report.v. *)
From Coq Require Import Reals Qreals.
From Coquelicot Require Import Complex.
From Coq Require Import String Ascii ZArith QArith Qcanon Bool Lia Lra Arith Sorting Permutation List.
From Verif Require Import Base Dec Field Args ArgsFacts Cell Text TextFacts Force KPoints Cli PropsCli Session Run Phonon PhononFacts PropsModes Band Thermal PropsThermal Dos DosFacts PropsDos PropsSmear Mode Output OutputFacts
  PropsOutput Plot PropsPlot Report ReportFacts PropsReport PropsFinish.
Import ListNotations.
Local Open Scope list_scope.
Local Open Scope nat_scope.

(** * Specification *)
(** lo and hi are the lowest and the highest of the frequencies *)
Definition lowest_highest (fs : list R) (lo hi : R) : Prop := In lo fs /\ In hi fs /\ forall w, In w fs -> (lo <= w <= hi)%R.
(** the normal distribution of width sigma around w *)
Definition bell (sigma w f : R) : R := (exp (- (f - w) ^ 2 / (2 * sigma ^ 2)) / (sigma * sqrt (2 * PI)))%R.
(** frequency number i of num, from 2 THz below the lowest to almost 2 THz above the highest one *)
Definition sample (lo hi : R) (num i : nat) : R := (lo - 2 + INR i * ((hi - lo + 4) / INR num))%R.
(** the frequencies at the k-points of a list *)
Definition frequencies_at (ms : list (list R * cmat)) : list R := concat (map fst ms).

Section Content.
  Variable search : cell Qc -> cell Qc -> args -> result (option (string * list (nat * (v3 Qc * list (v3 Qc))))).
  Variable sym_forces : fmat Qc -> cell Qc -> cell Qc -> args -> (string -> result (list (v3 Qc))) -> list string -> fmat Qc * option err.
  Variable eig : nat -> cmat -> list C * cmat.
  Variable argsort : list R -> list nat.
  Variable junk : nat -> nat -> R.
  Variable bad : string.
  Variable set_text : list Z -> string.
  Variable row : v3 R -> string.
  Variable kname : v3 Qc -> string.
  Variable ase : path -> string -> result (list (v3 R)).

  (** the k-points of a file and the modes of the prepared structures there *)
  Definition modes_of_file (g : setting) (x : prepared) (kv : pyval) (ks : list (v3 Qc)) (ms : list (list R * cmat)) : Prop :=
    exists f t kind L, k_file kv = Ok f /\ w_file (g_world g) (resolve (g_cwd g) f) = Some t /\
      set_k_points (readlines t) (a_pbc (pp_arg x)) = ((ks, kind), None) /\ c_lat (pp_unit x) = Some L /\
      eval_phonon eig argsort (cell_R (pp_unit x)) (cell_R (pp_super x)) (pp_arg x) (reciprocal PI (m3R L)) (fc_R junk (pp_force x)) (map kR ks) = Ok ms.
  (** the eigenvalue routine returns as many values as asked for, and vectors of length one *)
  Definition eig_unit : Prop :=
    (forall n D, length (fst (eig n D)) = n) /\
    (forall n D b, b < n -> sumR (map (fun j => (Cmod (snd (eig n D) b j) ^ 2)%R) (seq 0 n)) = 1%R).

  Lemma sorted_size l : argsort_ok argsort -> length (argsort l) = length l.
  Proof. intros A. destruct (A l) as (P & _). apply Permutation_length in P. now rewrite seq_length in P. Qed.
  Lemma modes_at_formed n D : eig_unit -> argsort_ok argsort -> length (fst (modes_at eig argsort n D)) = n /\
    forall b, b < n -> sumR (map (fun j => (Cmod (snd (modes_at eig argsort n D) b j) ^ 2)%R) (seq 0 n)) = 1%R.
  Proof.
    intros (E1 & E2) A. unfold modes_at. specialize (E1 n D). specialize (E2 n D). destruct (eig n D) as [ew ev]. cbn [fst snd] in *.
    set (w := map freq ew). assert (LW : length w = n) by (unfold w; rewrite map_length; exact E1).
    set (w' := map (fun i => nth i w 0%R) (argsort w)). assert (LW' : length w' = n) by (unfold w'; rewrite map_length, sorted_size by exact A; exact LW).
    split; [exact LW'|]. intros b Hb. apply E2.
    destruct (A w') as (P & _). assert (H : In (nth b (argsort w') 0) (seq 0 (length w'))) by (eapply Permutation_in; [exact P|apply nth_In; rewrite sorted_size by exact A; lia]).
    apply in_seq in H. lia.
  Qed.

  (** what the evaluation at the k-points of a file leaves *)
  Lemma evaluate_parts g x old kv l p : evaluate eig argsort junk bad g x old kv = (l, Ok p) -> p_k p <> [] \/ old = [] /\ p_modes p <> [] ->
    exists ks xyz, modes_of_file g x kv ks (p_modes p) /\ p_k p = map kR ks /\ c_xyz (pp_unit x) = Some xyz /\ p_n p = length xyz.
  Proof.
    intros H N. unfold evaluate in H. destruct (k_file kv) as [f|] eqn:E1; cbn [bind] in H; [|discriminate H].
    destruct (w_file (g_world g) (resolve (g_cwd g) f)) as [t|] eqn:E2; cbn [of_option] in H; [|discriminate H]. rewrite quiet_andthen in H.
    destruct (set_k_points (readlines t) (a_pbc (pp_arg x))) as [[ks kind] [er|]] eqn:E3; [discriminate H|]. rewrite quiet_andthen in H. cbn [fst snd cell_R c_lat c_xyz] in H.
    destruct (c_lat (pp_unit x)) as [L|] eqn:E4; cbn [option_map of_option bind] in H; [|discriminate H].
    destruct (a_pbc (pp_arg x)) as [pbc|] eqn:EP; cbn [of_option bind] in H; [|discriminate H].
    destruct (c_xyz (pp_unit x)) as [xyz|] eqn:EX; cbn [of_option bind] in H; [|discriminate H].
    destruct (map kR ks) as [|k0 kr] eqn:EK.
    - cbn [bind] in H. rewrite quiet_andthen in H. apply andthen_ok in H. destruct H as (l7 & [] & l8 & _ & H & _). injection H as _ <-. exfalso. cbn [p_k p_modes] in N. destruct N as [N|(-> & N)]; now apply N.
    - match type of H with andthen (quiet (let! m := ?T in _)) _ = _ => destruct T as [ms|] eqn:EM end; cbn [bind] in H; [|discriminate H].
      rewrite quiet_andthen in H. apply andthen_ok in H. destruct H as (l7 & [] & l8 & _ & H & _). injection H as _ <-. cbn [p_modes p_k p_n] in *.
      exists ks, xyz. split; [|auto]. unfold modes_of_file. exists f, t, kind, L. rewrite EK, EP. auto 10.
  Qed.
  Lemma evaluated_formed g x kv ks p xyz : eig_unit -> argsort_ok argsort -> modes_of_file g x kv ks (p_modes p) -> p_k p = map kR ks -> c_xyz (pp_unit x) = Some xyz -> p_n p = length xyz ->
    well_formed p /\ normalised p.
  Proof.
    intros EU A (f & t & kind & L & _ & _ & _ & _ & H) EK EX EN. apply phonon_results_in_k_order in H. cbn [cell_R c_xyz] in H. unfold well_formed, normalised. rewrite EK, EN.
    split; [split|].
    - clear -H. induction H; cbn [map length]; congruence.
    - clear -H EX EU A. induction H as [|k m0 l l' (D & at_ & _ & EA & ->) _ IH]; constructor; [|exact IH]. assert (at_ = xyz) by congruence. subst. apply modes_at_formed; assumption.
    - clear -H EX EU A. induction H as [|k m0 l l' (D & at_ & _ & EA & ->) _ IH]; constructor; [|exact IH]. assert (at_ = xyz) by congruence. subst. apply modes_at_formed; assumption.
  Qed.
  Lemma lowest_highest_fold fs lo hi : fold_minmax Rmin fs = Ok lo -> fold_minmax Rmax fs = Ok hi -> lowest_highest fs lo hi.
  Proof.
    destruct fs as [|x l]; [discriminate|]. cbn [fold_minmax]. intros H1 H2. injection H1 as <-. injection H2 as <-.
    destruct (fold_min_spec l x) as (A1 & A2 & A3). destruct (fold_max_spec l x) as (B1 & B2 & B3). split; [exact A3|]. split; [exact B3|].
    intros w [<-|Hw]; [lra|split; [apply A2|apply B2]; exact Hw].
  Qed.


  Lemma first_stage g e da kd th band mo E : analyses search sym_forces eig argsort junk bad set_text row kname ase g e (Some (da, kd)) th band mo = (E, Ok tt) ->
    exists x p d l1 l2 l3, prepared_as search sym_forces g x /\ evaluate eig argsort junk bad g x [] kd = (l1, Ok p) /\
      dos_part bad set_text (folder_text (removelast (resolve (g_cwd g) (g_unit g)))) e x p da th = (l2, Ok d) /\ E = l1 ++ l2 ++ l3.
  Proof.
    intros H. unfold analyses in H. cbv zeta in H. unfold maybe at 1 in H. cbn [fst snd] in H. apply andthen_ok in H. destruct H as (la & a & lb & H1 & _ & ->).
    apply andthen_ok in H1. destruct H1 as (lc & r & ld & H1 & H2 & ->). injection H2 as <- <-.
    unfold dos_stage in H1. destruct (let! x := new_process g in settle search sym_forces g x) as [x|] eqn:EP; [|discriminate H1]. rewrite quiet_andthen in H1.
    apply andthen_ok in H1. destruct H1 as (l1 & p & l2 & H1 & H2 & ->). apply andthen_ok in H2. destruct H2 as (l3 & d & l4 & H2 & H3 & ->).
    exists x, p, d, l1, l3, (l4 ++ [] ++ lb). split; [exact EP|]. split; [exact H1|]. split; [exact H2|]. rewrite <- !app_assoc. reflexivity.
  Qed.
  Lemma dos_part_parts folder e x p da th l d : dos_part bad set_text folder e x p da th = (l, Ok d) ->
    exists d0 fs l1 l2 l3, dos_init p (toR (da_sigma da)) (Z.to_nat (da_num da)) = Ok d0 /\ dos_set p d0 = Ok d /\
      dos_write bad folder (xyz_of x) d = (fs, None) /\ l = as_files fs ++ l1 ++ l2 ++ l3 /\
      match th with None => True | Some ts => thermal_part bad folder p ts = (l2, Ok tt) end.
  Proof.
    intros H. unfold dos_part in H. destruct (dos_init _ _ _) as [d0|]; [|discriminate H]. rewrite quiet_andthen in H.
    destruct (dos_set p d0) as [d'|] eqn:ED; [|discriminate H]. rewrite quiet_andthen in H.
    apply andthen_ok in H. destruct H as (la & [] & lb & H1 & H2 & ->). destruct (dos_write _ _ _ _) as [fs [er|]] eqn:EW; [discriminate H1|].
    assert (la = as_files fs) by (unfold writes in H1; cbn [fst snd] in H1; congruence). subst la.
    apply andthen_ok in H2. destruct H2 as (lc & [] & ld & H2 & H3 & ->). apply andthen_ok in H3. destruct H3 as (le & [] & lf & H3 & H4 & ->).
    injection H4 as <- <-. exists d0, fs, lc, le, []. split; [reflexivity|]. split; [exact ED|]. split; [exact EW|]. split; [reflexivity|]. destruct th; [exact H3|exact Logic.I].
  Qed.

  (** Every successful run that calculates a smeared density of states, whatever else it does,
      leaves these two files.  total_dos.dat names the width and has one line per sampled
      frequency, num_dos in all, with the average over the k-points of the file of the sum of
      normal distributions around the frequencies there; the columns of projected_dos.dat are
      named after the selected coordinates of the unit cell, in their order. *)
  Theorem dos_files_of_a_run : forall g e da kd th band mo E,
    TextFacts.word bad -> eig_unit -> argsort_ok argsort -> toR (da_sigma da) <> 0%R ->
    analyses search sym_forces eig argsort junk bad set_text row kname ase g e (Some (da, kd)) th band mo = (E, Ok tt) ->
    let folder := folder_text (removelast (resolve (g_cwd g) (g_unit g))) in
    let sigma := toR (da_sigma da) in let num := Z.to_nat (da_num da) in
    exists x ks ms xyz lo hi total projected,
      prepared_as search sym_forces g x /\ modes_of_file g x kd ks ms /\ lowest_highest (frequencies_at ms) lo hi /\ c_xyz (pp_unit x) = Some xyz /\
      In (File (folder ++ "/total_dos.dat") total) E /\ In (File (folder ++ "/projected_dos.dat") projected) E /\
      nth_error total 0 = Some (dos_comment "Total" sigma) /\
      is_table bad total (map (fun i => let f := sample lo hi num i in
         [Some f; Some (sumR (map (fun w => bell sigma w f) (frequencies_at ms)) / INR (length ks))%R]) (seq 0 num)) /\
      nth_error projected 0 = Some (dos_comment "Projected" sigma) /\
      option_map split_ws (nth_error projected 1) = Some ("Frequency" :: "(THz)" :: map atom_label xyz)%string.
  Proof.
    intros g e da kd th band mo E HB EU HA HS H folder sigma num.
    destruct (first_stage _ _ _ _ _ _ _ _ H) as (x & p & d & l1 & l2 & l3 & EP & H1 & H2 & ->). fold folder in H2.
    destruct (dos_part_parts _ _ _ _ _ _ _ _ H2) as (d0 & fs & m1 & m2 & m3 & D1 & D2 & D3 & -> & _). fold sigma num in D1.
    assert (N : p_modes p <> []) by (intros X; unfold dos_init in D1; rewrite X in D1; discriminate D1).
    destruct (evaluate_parts _ _ _ _ _ _ H1 (or_intror (conj eq_refl N))) as (ks & xyz & MF & PK & EX & EN).
    destruct (evaluated_formed _ _ _ _ _ _ EU HA MF PK EX EN) as (WF & NO).
    assert (XZ : xyz_of x = xyz) by (unfold xyz_of; rewrite EX; reflexivity). rewrite XZ in D3.
    unfold dos_init in D1. fold (frequencies_at (p_modes p)) in D1.
    destruct (fold_minmax Rmin (frequencies_at (p_modes p))) as [lo|] eqn:E1; cbn [bind] in D1; [|discriminate D1].
    destruct (fold_minmax Rmax (frequencies_at (p_modes p))) as [hi|] eqn:E2; cbn [bind] in D1; [|discriminate D1].
    pose proof (lowest_highest_fold _ _ _ E1 E2) as LH. injection D1 as <-.
    set (F := map (fun i => (lo - 2 + INR i * ((hi - lo + 4) / INR num))%R) (seq 0 num)) in *.
    assert (FS : fresh_smear (mkDos sigma F (map (fun _ _ => Dos.num 0) F) [])).
    { split; [exact HS|]. split; [cbn [d_pdos d_freq]; apply map_length|]. intros c m Hc. cbn [d_pdos] in Hc. apply in_map_iff in Hc. destruct Hc as (? & <- & _). reflexivity. }
    destruct (gaussian_dos_total p _ WF NO FS) as (d' & D4 & D5 & D6). rewrite D4 in D2. assert (d' = d) by congruence. subst d'. cbn [d_freq d_sigma] in D5, D6.
    assert (DP : d_sigma d = sigma /\ length (d_pdos d) = length F).
    { unfold dos_set in D4. cbn [d_sigma d_freq d_pdos] in D4. destruct (Req_EM_T sigma 0) as [Z|_]; [contradiction|]. cbv zeta in D4.
      assert (X : forall a b : dos, Ok a = Ok b -> a = b) by congruence. apply X in D4. subst d. split; [reflexivity|]. cbn [d_pdos]. rewrite map2_length; [reflexivity|]. unfold column. now rewrite map_length. }
    clear D2 D4. destruct DP as (DS & DL).
    destruct (projected_write bad folder xyz d) as [[pn pl] pe] eqn:EPW.
    unfold dos_write in D3. rewrite EPW in D3. injection D3 as <- ->.
    exists x, ks, (p_modes p), xyz, lo, hi, (snd (total_write bad folder d)), pl.
    split; [exact EP|]. split; [exact MF|]. split; [exact LH|]. split; [exact EX|].
    split; [apply in_or_app; right; apply in_or_app; left; apply in_or_app; left; left; reflexivity|].
    assert (PN : pn = (folder ++ "/projected_dos.dat")%string /\ nth_error pl 0 = Some (dos_comment "Projected" sigma) /\
       option_map split_ws (nth_error pl 1) = Some ("Frequency" :: "(THz)" :: map atom_label xyz)%string).
    { unfold projected_write in EPW. destruct (projected_lines _ _ _ _) as [ls er]. injection EPW as <- <- _. split; [reflexivity|]. cbn [app nth_error]. rewrite DS. split; [reflexivity|].
      exact (f_equal Some (header_split xyz)). }
    destruct PN as (-> & P0 & P1).
    split; [apply in_or_app; right; apply in_or_app; left; apply in_or_app; left; right; left; reflexivity|].
    split; [unfold total_write; cbn; rewrite DS; reflexivity|].
    split; [|split; [exact P0|exact P1]].
    replace (map _ (seq 0 num)) with (map (fun xy : R * option R => [Some (fst xy); snd xy]) (total_rows d)).
    - unfold total_write. cbn [snd app]. rewrite <- (map_map (fun xy : R * option R => [Some (fst xy); snd xy]) (table_line bad 16)).
      apply table_from; [exact HB|now apply comment_no_nl|reflexivity].
    - unfold total_rows. rewrite D5, D6. unfold F at 2. rewrite map_map. unfold F. generalize (seq 0 num). intros sq. induction sq as [|i sq IH]; [reflexivity|].
      cbn [map combine fst snd]. f_equal; [|exact IH]. unfold smeared. rewrite PK, map_length. reflexivity.
  Qed.

  (** The thermal properties of a run, whatever else it does: if there is an atom and no frequency
      is zero, the file has one line per temperature, with the free energy and the entropy per atom
      of independent harmonic oscillators at the frequencies of the k-point file. *)
  Theorem thermal_file_of_an_analysis : forall g e da kd ts band mo E,
    TextFacts.word bad -> Forall (fun T => 0 <= T)%Z ts -> at_most_one_zero (map IZR ts) ->
    analyses search sym_forces eig argsort junk bad set_text row kname ase g e (Some (da, kd)) (Some ts) band mo = (E, Ok tt) ->
    let folder := folder_text (removelast (resolve (g_cwd g) (g_unit g))) in
    exists x ks ms xyz lines,
      prepared_as search sym_forces g x /\ modes_of_file g x kd ks ms /\ c_xyz (pp_unit x) = Some xyz /\
      In (File (folder ++ "/thermal_properties.dat") lines) E /\
      (xyz <> [] -> ~ In 0%R (frequencies_at ms) ->
       is_table bad lines (map (fun T => [Some T;
          Some (if Req_EM_T T 0 then per_atom (map fst ms) (length xyz) zero_point else per_atom (map fst ms) (length xyz) (helmholtz T));
          Some (if Req_EM_T T 0 then 0 else 1000 * per_atom (map fst ms) (length xyz) (mode_entropy T))%R]) (map IZR ts))).
  Proof.
    intros g e da kd ts band mo E HB HT HZ H folder.
    destruct (first_stage _ _ _ _ _ _ _ _ H) as (x & p & d & l1 & l2 & l3 & EP & H1 & H2 & ->). fold folder in H2.
    destruct (dos_part_parts _ _ _ _ _ _ _ _ H2) as (d0 & fs & m1 & m2 & m3 & D1 & _ & _ & -> & TP).
    assert (N : p_modes p <> []) by (intros X; unfold dos_init in D1; rewrite X in D1; discriminate D1).
    destruct (evaluate_parts _ _ _ _ _ _ H1 (or_intror (conj eq_refl N))) as (ks & xyz & MF & PK & EX & EN).
    unfold thermal_part in TP. cbv zeta in TP. apply andthen_ok in TP. destruct TP as (la & [] & lb & T1 & _ & ->). unfold writes in T1. injection T1 as <-. cbn [as_files map] in *.
    exists x, ks, (p_modes p), xyz, (snd (thermal_write bad folder (fst (thermal_set (map fst (p_modes p)) (p_n p) (thermal_init (map IZR ts)))))).
    split; [exact EP|]. split; [exact MF|]. split; [exact EX|].
    split; [apply in_or_app; right; apply in_or_app; left; apply in_or_app; right; apply in_or_app; right; apply in_or_app; left; apply in_or_app; left; left; reflexivity|].
    intros HX HF. rewrite <- EN. apply thermal_file_of_a_run.
    - exact HB.
    - rewrite EN. destruct xyz; [congruence|cbn; lia].
    - intros X. apply map_eq_nil in X. contradiction.
    - intros rw v I1 I2 ->. apply HF. unfold frequencies_at. apply in_concat. eauto.
    - rewrite Forall_map. eapply Forall_impl; [|exact HT]. intros T HT'. cbn. apply IZR_le in HT'. exact HT'.
    - exact HZ.
  Qed.

  (** the structures of the second analysis: those of the first one, with the arguments set and the
      force constants filled again *)
  Definition prepared_second (g : setting) (dos : option (dos_args * pyval)) (x : prepared) : Prop :=
    match dos with
    | None => prepared_as search sym_forces g x
    | Some _ => exists x0, prepared_as search sym_forces g x0 /\ settle search sym_forces g x0 = Ok x
    end.
  Lemma second_stage g e dos th ba kb mo E : analyses search sym_forces eig argsort junk bad set_text row kname ase g e dos th (Some (ba, kb)) mo = (E, Ok tt) ->
    exists x old p b pic l1 l2 l3 l4, prepared_second g dos x /\ evaluate eig argsort junk bad g x old kb = (l1, Ok p) /\ band_set p (band_init p) = Ok b /\
      (let nl := band_write bad (folder_text (removelast (resolve (g_cwd g) (g_unit g)))) p b in
       band_plot set_text p b (xyz_of x) (band_options e ba) = Ok pic /\
       E = l2 ++ (l1 ++ (File (fst nl) (snd nl) :: match pic with Some f => [Picture f] | None => [] end) ++ l3) ++ l4).
  Proof.
    intros H. unfold analyses in H. cbv zeta in H. apply andthen_ok in H. destruct H as (l2 & first & lb & H1 & H & ->).
    unfold maybe at 1 in H. cbn [fst snd] in H. apply andthen_ok in H. destruct H as (lc & a & ld & H2 & _ & ->).
    apply andthen_ok in H2. destruct H2 as (le & a' & lf & H2 & H3 & ->). injection H3 as <- <-.
    unfold band_stage in H2. apply andthen_ok in H2. destruct H2 as (l0 & x & l5 & X1 & H2 & ->). unfold quiet in X1. assert (l0 = []) by congruence. subst l0.
    apply andthen_ok in H2. destruct H2 as (l1 & p & l6 & H2 & H3 & ->). apply andthen_ok in H3. destruct H3 as (l7 & [] & l8 & H3 & _ & ->).
    unfold band_part in H3. cbv zeta in H3. apply andthen_ok in H3. destruct H3 as (l9 & b & l10 & B1 & H3 & ->). unfold quiet in B1. assert (l9 = []) by congruence. subst l9.
    assert (B2 : band_set p (band_init p) = Ok b) by congruence. clear B1.
    apply andthen_ok in H3. destruct H3 as (l11 & [] & l12 & W1 & H3 & ->). unfold writes in W1. cbn [as_files map fst snd] in W1. injection W1 as <-.
    apply andthen_ok in H3. destruct H3 as (l13 & [] & l14 & P1 & _ & ->).
    destruct (band_plot set_text p b (xyz_of x) (band_options e ba)) as [pic|] eqn:EPL; [|discriminate P1].
    exists x, (match first with Some (_, p, _, _) => p_modes p | None => [] end), p, b, pic, l1, l2, (l14 ++ l8), ld.
    split.
    { unfold prepared_second. destruct dos as [[da kd]|].
      - unfold maybe in H1. cbn [fst snd] in H1. apply andthen_ok in H1. destruct H1 as (lx & r & ly & D1 & D2 & _). injection D2 as _ <-.
        unfold dos_stage in D1. destruct (let! x := new_process g in settle search sym_forces g x) as [x0|] eqn:EP; [|discriminate D1]. rewrite quiet_andthen in D1.
        apply andthen_ok in D1. destruct D1 as (m1 & p0 & m2 & _ & D1 & _). apply andthen_ok in D1. destruct D1 as (m3 & d0 & m4 & _ & D1 & _). injection D1 as _ <-.
        exists x0. split; [exact EP|congruence].
      - unfold maybe in H1. injection H1 as _ <-. unfold prepared_as. congruence. }
    split; [exact H2|]. split; [exact B2|]. cbv zeta. split; [exact EPL|].
    unfold as_files. cbn [app map]. f_equal. f_equal. rewrite app_nil_r. assert (EL : l13 = match pic with Some f => [Picture f] | None => [] end) by (destruct pic; unfold draws in P1; congruence). subst l13.
    rewrite <- !app_assoc. reflexivity.
  Qed.

  Lemma labels_split ws : Forall TextFacts.word ws -> label_list (VStr (String.concat " " ws)) = ws.
  Proof. intros H. unfold label_list. rewrite split_ws_strip. now apply split_ws_concat1. Qed.

  (** The band structure of a run, whatever else it does.  band.dat has one line per k-point of the
      file: its distance along the path, then the frequencies there.  With option plain the picture
      shows every branch over the same points, inside the requested range; the texts under the
      high-symmetry points are the words of the labels option, or left out; a number of words that
      does not fit is never met, because such a run does not succeed. *)
  Theorem band_files_of_an_analysis : forall g e dos th ba kb mo E ws,
    TextFacts.word bad -> Forall TextFacts.word ws -> (e "k_label_band"%string = VStr (String.concat " " ws) \/ e "k_label_band"%string = VNone /\ ws = []) ->
    analyses search sym_forces eig argsort junk bad set_text row kname ase g e dos th (Some (ba, kb)) mo = (E, Ok tt) ->
    let folder := folder_text (removelast (resolve (g_cwd g) (g_unit g))) in
    exists x ks p b lines w xyz,
      prepared_second g dos x /\ p_k p = map kR ks /\ modes_of_file g x kb ks (p_modes p) /\ band_set p (band_init p) = Ok b /\
      window p (option_map (map IZR) (ba_elimit ba)) = Ok w /\ c_xyz (pp_unit x) = Some xyz /\
      In (File (folder ++ "/band.dat") lines) E /\
      is_table bad lines (map (fun i => map Some (nth i (b_len b) 0%R :: fst (nth i (p_modes p) ([], fun _ _ => RtoC 0)))) (seq 0 (length ks))) /\
      (ba_option ba = "plain"%string ->
         (ws = [] \/ length ws = length (b_ticks b)) /\
         In (Picture (mkFigure "band.png" [band_picture_axes b w
           (map (fun j => Curve (map (fun xy => (Some (fst xy), Some (snd xy))) (branch_points p b j)) None) (seq 0 (branches p)))
           (labelled p b ws) None])) E) /\
      (ba_option ba = "projection"%string ->
         exists l, ba_atom ba = Some l /\ (ws = [] \/ length ws = length (b_ticks b)) /\
         (let place := text_or "right" (e "bar_loc_band"%string) in place = "right" \/ place = "bottom")%string /\
         In (Picture (mkFigure "band.png" [band_picture_axes b w
           (map (fun j => Coloured (branch_points p b j)
              (map (fun i => match nth_error (p_modes p) i with Some m => picked xyz l (fun c => Cmod (snd m j c) ^ 2)%R | None => 0%R end) (seq 0 (length ks)))) (seq 0 (branches p)))
           (labelled p b ws)
           (Some ("Contribution of " ++ match text_opt (e "bar_label_band"%string) with Some s => s | None => "atom-" ++ set_text l end)%string)])) E).
  Proof.
    intros g e dos th ba kb mo E ws HB HW HL H folder.
    destruct (second_stage _ _ _ _ _ _ _ _ H) as (x & old & p & b & pic & l1 & l2 & l3 & l4 & EP & H1 & H2 & H3 & ->). fold folder in H3. fold folder.
    assert (K2 : 2 <= length (p_k p)) by (unfold band_set in H2; destruct (p_k p) as [|? [|? ?]]; [discriminate H2|discriminate H2|cbn; lia]).
    destruct (evaluate_parts _ _ _ _ _ _ H1 ltac:(left; intros X; rewrite X in K2; cbn in K2; lia)) as (ks & xyz & MF & PK & EX & EN).
    assert (LM : length (p_modes p) = length (p_k p)).
    { destruct MF as (f & t & kind & L & _ & _ & _ & _ & M). apply phonon_results_in_k_order in M. rewrite PK. clear -M. induction M; cbn [map length]; congruence. }
    assert (LB : label_list (e "k_label_band"%string) = ws) by (destruct HL as [-> |(-> & ->)]; [now apply labels_split|reflexivity]).
    destruct (window p (option_map (map IZR) (ba_elimit ba))) as [w|] eqn:EW; [|unfold band_plot in H3; cbn [band_options bo_elimit] in H3; rewrite EW in H3; discriminate H3].
    assert (EW' : window p (bo_elimit (band_options e ba)) = Ok w) by exact EW.
    assert (XZ : xyz_of x = xyz) by (unfold xyz_of; rewrite EX; reflexivity). rewrite XZ in H3.
    assert (PIC : forall f, pic = Some f -> In (Picture f) (l2 ++ (l1 ++ (File (fst (band_write bad folder p b)) (snd (band_write bad folder p b)) :: match pic with Some f => [Picture f] | None => [] end) ++ l3) ++ l4)).
    { intros f ->. apply in_or_app; right. apply in_or_app; left. apply in_or_app; right. apply in_or_app; left. right. now left. }
    exists x, ks, p, b, (snd (band_write bad folder p b)), w, xyz. split; [exact EP|]. split; [exact PK|]. split; [exact MF|]. split; [exact H2|]. split; [exact EW|]. split; [exact EX|].
    split; [apply in_or_app; right; apply in_or_app; left; apply in_or_app; right; apply in_or_app; left; left; reflexivity|].
    destruct (set_facts p b H2) as (LL & _).
    split; [|split].
    - unfold band_write. cbn [snd app].
      replace (map _ (seq 0 (length ks))) with (map (fun xy : R * list R => Some (fst xy) :: map Some (snd xy)) (combine (b_len b) (map fst (p_modes p)))).
      + rewrite <- (map_map (fun xy : R * list R => Some (fst xy) :: map Some (snd xy)) (table_line bad 16)). apply table_from; [exact HB|reflexivity|reflexivity].
      + assert (LK : length ks = length (b_len b)) by (rewrite LL, PK; now rewrite map_length). rewrite LK. rewrite PK in LM. rewrite map_length, LK in LM.
        revert LM. generalize (p_modes p) as ms. generalize (b_len b) as bl. clear. intros bl. induction bl as [|y bl IH]; intros [|m ms] LM; try discriminate LM; [reflexivity|].
        cbn [map combine length seq]. f_equal. rewrite <- seq_shift, map_map. cbn [nth]. apply IH. cbn in LM. lia.
    - intros HO. destruct (band_plain_picture set_text p b xyz (band_options e ba) w H2 LM HO EW) as (A1 & A2). cbn [band_options bo_labels] in A1, A2. rewrite LB in A1, A2.
      assert (OKL : ws = [] \/ length ws = length (b_ticks b)).
      { destruct ws as [|w0 ws0]; [left; reflexivity|]. right. destruct (Nat.eq_dec (length (w0 :: ws0)) (length (b_ticks b))) as [Q|Q]; [exact Q|].
        rewrite (A2 ltac:(discriminate) Q) in H3. discriminate H3. }
      split; [exact OKL|]. apply PIC. rewrite (A1 OKL) in H3. congruence.
    - intros HO. assert (HA : exists l, ba_atom ba = Some l).
      { destruct (ba_atom ba) as [l|] eqn:EA; [eauto|]. exfalso. destruct (band_requests_without_picture set_text p b xyz (band_options e ba) w H2 LM EW) as (_ & Q & _).
        rewrite (Q HO EA) in H3. discriminate H3. }
      destruct HA as (l & HA). exists l. split; [exact HA|].
      assert (PL : (text_or "right" (e "bar_loc_band"%string) = "right" \/ text_or "right" (e "bar_loc_band"%string) = "bottom")%string).
      { destruct (string_dec (text_or "right" (e "bar_loc_band"%string)) "right") as [Q1|Q1]; [now left|]. destruct (string_dec (text_or "right" (e "bar_loc_band"%string)) "bottom") as [Q2|Q2]; [now right|].
        exfalso. destruct (band_requests_without_picture set_text p b xyz (band_options e ba) w H2 LM EW) as (_ & _ & Q).
        rewrite (Q HO ltac:(cbn [band_options bo_atoms]; congruence) Q1 Q2) in H3. discriminate H3. }
      assert (OKL : ws = [] \/ length ws = length (b_ticks b)).
      { destruct ws as [|w0 ws0]; [left; reflexivity|]. right. destruct (Nat.eq_dec (length (w0 :: ws0)) (length (b_ticks b))) as [Q|Q]; [exact Q|]. exfalso.
        unfold band_plot in H3. rewrite EW' in H3. change (bo_option (band_options e ba)) with (ba_option ba) in H3. rewrite HO in H3. cbn [bind String.eqb Ascii.eqb Bool.eqb] in H3.
        destruct (coloured_bands _ _ _ _ _ _ _) as [r|]; cbn [bind] in H3; [|discriminate H3].
        destruct (band_axes_ok p b (bo_labels (band_options e ba)) w (fst r) (Some (snd r)) H2) as (_ & A2).
        change (bo_labels (band_options e ba)) with (label_list (e "k_label_band"%string)) in A2, H3. rewrite LB in A2, H3. rewrite (A2 ltac:(discriminate) Q) in H3. discriminate H3. }
      assert (HBr : 0 < branches p).
      { destruct (branches p) as [|n] eqn:EB; [exfalso|lia].
        unfold band_plot in H3. rewrite EW' in H3. change (bo_option (band_options e ba)) with (ba_option ba) in H3. rewrite HO in H3. cbn [bind String.eqb Ascii.eqb Bool.eqb] in H3.
        unfold coloured_bands in H3. rewrite EB in H3. cbn [seq] in H3. change (bo_atoms (band_options e ba)) with (ba_atom ba) in H3. rewrite HA in H3.
        destruct (negb _); [discriminate H3|]. destruct (negb _); discriminate H3. }
      split; [exact OKL|]. split; [exact PL|]. apply PIC.
      destruct (band_projection_picture set_text p b xyz (band_options e ba) w l H2 LM HO EW HA HBr PL) as (A1 & _); [cbn [band_options bo_labels]; rewrite LB; exact OKL|].
      cbn [band_options bo_labels bo_bar_label] in A1. rewrite LB, PK, map_length in A1. congruence.
  Qed.

  (** A run with an option file is the run with the options changed by that file; the first call,
      which has no force files, leaves nothing in the post-process. *)
  Variable glob : string -> list string.
  Theorem option_file_of_a_report : forall cwd e lines e1 forces w, with_option_file e (Some lines) = Ok e1 ->
    report search sym_forces eig argsort junk bad set_text row kname ase glob cwd e (Some lines) forces w =
    report search sym_forces eig argsort junk bad set_text row kname ase glob cwd e1 None forces w.
  Proof. intros cwd e lines e1 forces w H. unfold report, main_plan. rewrite H. reflexivity. Qed.
  Theorem first_call_leaves_nothing : forall cwd e file e1 w, with_option_file e file = Ok e1 -> truthy (e1 "process"%string) = true ->
    report search sym_forces eig argsort junk bad set_text row kname ase glob cwd e file [] w = ([], Ok tt).
  Proof. intros cwd e file e1 w H P. unfold report, main_plan. rewrite H. cbn [bind]. rewrite !quiet_andthen. rewrite P. reflexivity. Qed.
End Content.

(** ---- one atom in a square layer: both analyses and thermal properties ---- *)
Definition unit_vectors (n : nat) (D : cmat) : list C * cmat := (repeat (RtoC 1) n, fun b j => if Nat.eqb b j then RtoC 1 else RtoC 0).
Lemma unit_vectors_unit : eig_unit unit_vectors.
Proof.
  split; [intros n D; apply repeat_length|]. intros n D b Hb. cbn [unit_vectors snd].
  assert (G : forall a m, sumR (map (fun j => (Cmod (if Nat.eqb b j then RtoC 1 else RtoC 0) ^ 2)%R) (seq a m)) = (if (a <=? b) && (b <? a + m) then 1 else 0)%R).
  { intros a m. revert a. induction m as [|m IH]; intros a; cbn [seq map sumR].
    - rewrite Nat.add_0_r. destruct (Nat.leb_spec a b), (Nat.ltb_spec b a); cbn [andb]; try lia; reflexivity.
    - unfold sumR in *. cbn [fold_right]. rewrite IH. rewrite <- Nat.add_succ_comm.
      destruct (Nat.eqb_spec b a), (Nat.leb_spec (S a) b), (Nat.leb_spec a b), (Nat.ltb_spec b (S a + m)); cbn [andb]; try lia; rewrite ?Cmod_1, ?Cmod_0; lra. }
  rewrite G. destruct (Nat.leb_spec 0 b), (Nat.ltb_spec b (0 + n)); cbn [andb]; try lia; reflexivity.
Qed.
Example content_conditions_met : forall junk set_text row kname ase, exists search sf g e da ba E,
  TextFacts.word "nan" /\ eig_unit unit_vectors /\ argsort_ok isort /\ toR (da_sigma da) <> 0%R /\ Forall (fun T => 0 <= T)%Z [0; 300]%Z /\ at_most_one_zero (map IZR [0; 300]%Z) /\
  e "k_label_band"%string = VNone /\ ba_option ba = "plain"%string /\
  analyses search sf unit_vectors isort junk "nan" set_text row kname ase g e (Some (da, VStr "KPOINTS"%string)) (Some [0; 300]%Z) (Some (ba, VStr "KPATH"%string)) None = (E, Ok tt).
Proof.
  intros junk set_text row kname ase.
  destruct (both_analyses_example unit_vectors isort junk "nan" set_text row kname ase (fun n D => repeat_length _ _) (fun l => sorted_size isort l argsort_witness)) as (x & _ & _ & _ & _ & _ & E & HE & _).
  do 7 eexists. split; [split; [discriminate|reflexivity]|]. split; [exact unit_vectors_unit|]. split; [exact argsort_witness|].
  split; [|split; [|split; [|split; [|split; [|exact HE]]]]].
  - unfold toR. cbn [da_sigma]. replace (this (Q2Qc (1 # 10))) with (1 # 10)%Q by (vm_compute; reflexivity). unfold Q2R. cbn [Qnum Qden]. lra.
  - repeat constructor; lia.
  - unfold at_most_one_zero. cbn [map count_occ]. destruct (Req_EM_T 0 0), (Req_EM_T 300 0); try lra; lia.
  - reflexivity.
  - reflexivity.
Qed.
Example labels_of_a_path : label_list (VStr "  GAMMA X   M GAMMA ") = ["GAMMA"; "X"; "M"; "GAMMA"]%string.
Proof. vm_compute. reflexivity. Qed.
Print Assumptions dos_files_of_a_run.
Print Assumptions thermal_file_of_an_analysis.
Print Assumptions band_files_of_an_analysis.
Print Assumptions option_file_of_a_report.
Print Assumptions first_call_leaves_nothing.
Print Assumptions content_conditions_met.
