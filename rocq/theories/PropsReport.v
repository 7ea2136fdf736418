(** Whole post-processes: the properties C98-C101. *)
From Coq Require Import Reals Qreals.
From Coquelicot Require Import Complex.
From Coq Require Import String Ascii ZArith QArith Qcanon Bool Lia Lra Arith List.
From Verif Require Import Base Dec Field Args Cell Super Displace Text Check KPoints Weight Force Cli Session Run Phonon Band Thermal Dos Mode Output Plot Report ReportFacts PropsMode Sym SymRun.
Import ListNotations.
Local Open Scope list_scope.
Local Open Scope nat_scope.

(** ---- specification: reading the list of what a run leaves ---- *)
(** the record post_process.yaml *)
Definition is_record (ev : event) : bool := match ev with Final _ _ _ => true | _ => false end.
(** the picture of bands and density of states side by side *)
Definition is_combined (ev : event) : bool := match ev with Picture f => String.eqb (fig_name f) "band_dos.png" | _ => false end.
(** everything else: the results *)
Definition results (E : list event) : list event := filter (fun ev => negb (is_record ev || is_combined ev)%bool) E.
(** the file an event creates *)
Definition file_of (ev : event) : string :=
  match ev with
  | File n _ => n | Picture f => fig_name f | Animation n _ => n | Structure n _ _ => n | Final _ _ _ => "post_process.yaml"
  end.

(** a file in a directory *)
Definition in_folder (folder n : string) : string := (folder ++ "/" ++ n)%string.

Definition result_ev (ev : event) : Prop := is_record ev = false /\ is_combined ev = false.
Lemma results_app a b : results (a ++ b) = results a ++ results b.
Proof. apply filter_app. Qed.
Lemma results_all l : Forall result_ev l -> results l = l.
Proof. induction 1 as [|x l [H1 H2] _ IH]; cbn; [reflexivity|]. rewrite H1, H2. cbn. f_equal. exact IH. Qed.
Lemma andthen_all {A B} (P : event -> Prop) (m : act A) (f : A -> act B) :
  Forall P (fst m) -> (forall a, snd m = Ok a -> Forall P (fst (f a))) -> Forall P (fst (andthen m f)).
Proof.
  destruct m as [l [a|e]]; cbn; intros H1 H2; [|exact H1]. specialize (H2 a eq_refl). destruct (f a) as [l2 r]. cbn in *. apply Forall_app. auto.
Qed.
Lemma quiet_all {A} P (r : result A) : Forall P (fst (quiet r)).
Proof. constructor. Qed.
Lemma files_all l : Forall result_ev (as_files l).
Proof. induction l as [|[n c] l IH]; constructor; [split; reflexivity|exact IH]. Qed.

Section Props.
  Variable search : cell Qc -> cell Qc -> args -> result (option (string * list (nat * (v3 Qc * list (v3 Qc))))).
  Variable sym_forces : fmat Qc -> cell Qc -> cell Qc -> args -> (string -> result (list (v3 Qc))) -> list string -> fmat Qc * option err.
  Variable eig : nat -> cmat -> list C * cmat.
  Variable argsort : list R -> list nat.
  Variable junk : nat -> nat -> R.
  Variable bad : string.
  Variable set_text : list Z -> string.
  Variable row : v3 R -> string.
  Variable kname : v3 Qc -> string.
  Variable ase : path -> string -> result (list (v3 R)).

  Local Notation settle := (settle search sym_forces).
  Local Notation evaluate := (evaluate eig argsort junk bad).
  Local Notation dos_part := (dos_part bad set_text).
  Local Notation band_part := (band_part bad set_text row kname ase).
  Local Notation mode_part := (mode_part row kname ase).
  Local Notation dos_stage := (dos_stage search sym_forces eig argsort junk bad set_text).
  Local Notation band_stage := (band_stage search sym_forces eig argsort junk bad set_text row kname ase).
  Local Notation analyses := (analyses search sym_forces eig argsort junk bad set_text row kname ase).

  Lemma dos_plot_name p d xyz o f : dos_plot set_text p d xyz o = Ok (Some f) -> fig_name f = "dos.png"%string.
  Proof.
    unfold dos_plot. destruct (_ || _)%bool; [|discriminate]. destruct (window p (do_elimit o)); cbn [bind]; [|discriminate].
    destruct (dos_arts _ _ _ _ _ _) as [[arts|]|]; cbn [bind]; try discriminate. intro H. injection H as <-. reflexivity.
  Qed.
  Lemma band_plot_name p b xyz o f : band_plot set_text p b xyz o = Ok (Some f) -> fig_name f = "band.png"%string.
  Proof.
    unfold band_plot. destruct (window p (bo_elimit o)); cbn [bind]; [|discriminate].
    destruct (String.eqb (bo_option o) "plain").
    - destruct (plain_bands p b); cbn [bind]; [|discriminate]. destruct (band_axes _ _ _ _ _ _); cbn [bind]; [|discriminate]. intro H. injection H as <-. reflexivity.
    - destruct (String.eqb (bo_option o) "projection"); [|discriminate].
      destruct (coloured_bands _ _ _ _ _ _ _); cbn [bind]; [|discriminate]. destruct (band_axes _ _ _ _ _ _); cbn [bind]; [|discriminate]. intro H. injection H as <-. reflexivity.
  Qed.
  Lemma thermal_plot_name t f : thermal_plot t = Ok f -> fig_name f = "thermal_properties.png"%string.
  Proof.
    unfold thermal_plot. destruct (fold_minmax Rmin (t_temp t)); cbn [bind]; [|discriminate]. destruct (fold_minmax Rmax (t_temp t)); cbn [bind]; [|discriminate].
    destruct (points false (t_temp t) (t_free t)); cbn [bind]; [|discriminate]. destruct (points _ _ _); cbn [bind]; [|discriminate]. intro H. injection H as <-. reflexivity.
  Qed.
  Lemma draws_all r : (forall f, r = Ok (Some f) -> fig_name f <> "band_dos.png"%string) -> Forall result_ev (fst (draws r)).
  Proof.
    intro H. destruct r as [[f|]|]; cbn; constructor; [|constructor]. split; [reflexivity|]. cbn. apply String.eqb_neq. apply H. reflexivity.
  Qed.
  Lemma evaluate_all g x old kv : Forall result_ev (fst (evaluate g x old kv)).
  Proof.
    unfold Report.evaluate. repeat (apply andthen_all; [apply quiet_all|intros ? _]).
    apply andthen_all; [|intros; apply quiet_all]. unfold writes. cbn [fst].
    destruct (gamma_write bad a1) as [[[n l] er]|]; cbn; repeat constructor.
  Qed.
  Lemma thermal_all folder p ts : Forall result_ev (fst (thermal_part bad folder p ts)).
  Proof.
    unfold thermal_part. apply andthen_all; [cbn; repeat constructor|intros ? _]. apply draws_all. intros f H.
    destruct (thermal_plot _) as [f'|] eqn:E; cbn [bind] in H; [|discriminate]. injection H as <-. rewrite (thermal_plot_name _ _ E). discriminate.
  Qed.
  Lemma dos_part_all folder e x p da th : Forall result_ev (fst (dos_part folder e x p da th)).
  Proof.
    unfold Report.dos_part. repeat (apply andthen_all; [apply quiet_all|intros ? _]).
    apply andthen_all.
    { destruct (dos_write bad folder (xyz_of x) a0) as [fs er]. cbn. apply files_all. }
    intros ? _. apply andthen_all.
    { apply draws_all. intros f H. rewrite (dos_plot_name _ _ _ _ _ H). discriminate. }
    intros ? _. apply andthen_all; [|intros; apply quiet_all]. destruct th; [apply thermal_all|apply quiet_all].
  Qed.
  Lemma dos_stage_all g folder e da kd th : Forall result_ev (fst (dos_stage g folder e da kd th)).
  Proof.
    unfold Report.dos_stage. apply andthen_all; [apply quiet_all|intros ? _]. apply andthen_all; [apply evaluate_all|intros ? _].
    apply andthen_all; [apply dos_part_all|intros; apply quiet_all].
  Qed.
  Lemma animate_all folder n o idx cur w inds : forall atom, Forall result_ev (fst (animate folder n o atom idx cur w inds)).
  Proof.
    induction inds as [|i r IH]; intro atom; cbn [animate]; [constructor|].
    destruct (let! V := _ in _) as [[a1 l]|]; [|constructor]. specialize (IH a1). destruct (animate folder n o a1 idx cur w r) as [fs er]. cbn in *.
    constructor; [split; reflexivity|exact IH].
  Qed.
  Lemma mode_part_all g folder x p ma : Forall result_ev (fst (mode_part g folder x p ma)).
  Proof.
    unfold Report.mode_part. repeat (apply andthen_all; [apply quiet_all|intros ? _]).
    apply andthen_all. { destruct (mode_write _ _ _ _ _) as [fs er]. cbn. apply files_all. }
    intros ? _. apply andthen_all.
    { unfold writes, mode_plot. cbn [fst]. destruct (let! atom := _ in _) as [[[[? ?] ?] ?]|]; [apply animate_all|constructor]. }
    intros ? _. destruct (ma_write ma); [|apply quiet_all].
    repeat (apply andthen_all; [apply quiet_all|intros ? _]).
    destruct (write_mode_displace _ _ _ _ _ _ _ _) as [fs er]. cbn. clear. induction fs as [|[[n c] s] fs IH]; constructor; [split; reflexivity|exact IH].
  Qed.
  Lemma band_part_all g folder e x p ba mo : Forall result_ev (fst (band_part g folder e x p ba None mo)).
  Proof.
    unfold Report.band_part. apply andthen_all; [apply quiet_all|intros b _]. apply andthen_all; [cbn; repeat constructor|intros ? _].
    apply andthen_all. { apply draws_all. intros f H. rewrite (band_plot_name _ _ _ _ _ H). discriminate. }
    intros ? _. apply andthen_all; [apply quiet_all|intros ? _]. destruct mo; [apply mode_part_all|apply quiet_all].
  Qed.
  Lemma band_stage_all g folder e ba kb mo : Forall result_ev (fst (band_stage g folder e None ba kb mo)).
  Proof.
    unfold Report.band_stage. apply andthen_all; [apply quiet_all|intros ? _]. apply andthen_all; [apply evaluate_all|intros ? _].
    apply andthen_all; [apply band_part_all|intros; apply quiet_all].
  Qed.

  (** ---- the second stage on a copied process ---- *)
  Lemma evaluate_old g x old kv l p : evaluate g x old kv = (l, Ok p) -> p_k p <> [] -> forall old', evaluate g x old' kv = (l, Ok p).
  Proof.
    unfold Report.evaluate. intros H N old'.
    destruct (let! f := k_file kv in _) as [t|]; [|discriminate H]. rewrite quiet_andthen in *.
    destruct (set_k_points (readlines t) (a_pbc (pp_arg x))) as [ka [er|]]; [discriminate H|]. rewrite quiet_andthen in *.
    destruct (map kR (fst ka)) as [|k ks] eqn:EK; [|exact H]. exfalso.
    apply andthen_ok in H. destruct H as (l1 & p1 & l2 & H1 & H2 & _). apply andthen_ok in H2. destruct H2 as (l3 & [] & l4 & _ & H3 & _).
    injection H3 as <- ->. unfold quiet in H1. injection H1 as <- H1.
    repeat match type of H1 with (let! x := ?t in _) = _ => destruct t; cbn [bind] in H1; [|discriminate] end. injection H1 as <-. apply N. reflexivity.
  Qed.
  Lemma band_set_points p b b' : band_set p b = Ok b' -> p_k p <> [].
  Proof. unfold band_set. destruct (p_k p); [discriminate|discriminate]. Qed.

  (** ---- the picture of both ---- *)
  Lemma points_any v v' fs ds l : points v fs ds = Ok l -> exists l', points v' fs ds = Ok l'.
  Proof. unfold points. destruct (Nat.eqb _ _); [|discriminate]. intros _. eexists. reflexivity. Qed.
  Lemma add_row_length acc r l : add_row acc r = Ok l -> length l = length acc.
  Proof.
    unfold add_row. destruct (Nat.eqb_spec (length acc) (length r)) as [E|E].
    - intro H. injection H as <-. clear -E. revert r E. induction acc as [|a acc IH]; intros [|b r] E; cbn in *; try reflexivity; try discriminate. rewrite IH by lia. reflexivity.
    - destruct r as [|x [|? ?]]; try discriminate. intro H. injection H as <-. apply map_length.
  Qed.
  Lemma fold_rows_length d ms : forall acc l, fold_left (fun acc m => let! a := acc in add_row a (map (fun c : column => c m) (d_pdos d))) ms acc = Ok l ->
    exists a0, acc = Ok a0 /\ length l = length a0.
  Proof.
    induction ms as [|m ms IH]; cbn [fold_left]; intros acc l H; [exists l; auto|].
    destruct (IH _ _ H) as (a1 & H1 & L). destruct acc as [a0|]; cbn [bind] in H1; [|discriminate].
    exists a0. split; [reflexivity|]. rewrite L. exact (add_row_length _ _ _ H1).
  Qed.
  Lemma set_curve_length d xyz s l : set_curve d xyz s = Ok l -> length l = length (d_freq d).
  Proof. intro H. destruct (fold_rows_length _ _ _ _ H) as (a0 & H0 & L). injection H0 as <-. rewrite L. apply map_length. Qed.
  Lemma set_curves_length d xyz sets rows : set_curves d xyz sets = Ok rows -> Forall (fun r => length r = length (d_freq d)) rows.
  Proof.
    unfold set_curves. destruct sets as [sets|]; [|discriminate]. intro H. apply mapM_ok_Forall2 in H.
    induction H as [|s r ss rs H _ IH]; constructor; [exact (set_curve_length _ _ _ _ H)|exact IH].
  Qed.
  Lemma map2_oadd_length (a b : list (option R)) : length a = length b -> length (map2 oadd a b) = length a.
  Proof. revert b. induction a as [|x a IH]; intros [|y b] E; cbn in *; try reflexivity; try discriminate. rewrite IH by lia. reflexivity. Qed.
  Lemma cumulate_length n rows : forall acc, length acc = n -> Forall (fun r => length r = n) rows -> Forall (fun r => length r = n) (cumulate acc rows).
  Proof.
    induction rows as [|r rs IH]; intros acc HA H; cbn [cumulate]; [constructor|]. inversion H; subst.
    constructor; [apply map2_oadd_length; lia|]. apply IH; [apply map2_oadd_length; lia|assumption].
  Qed.
  (** labels as main() accepts them *)
  Definition labels_fit (da : dos_args) : Prop :=
    match da_legend da, da_atom da with Some l, Some a => length l = length a | _, _ => True end.
  Lemma mapM_some {X Y} (f : X -> result Y) l : Forall (fun x => exists y, f x = Ok y) l -> exists r, mapM f l = Ok r /\ length r = length l.
  Proof.
    induction 1 as [|x l [y Hy] _ [r [Hr L]]]; cbn [mapM]; [exists []; auto|]. rewrite Hy. cbn [bind]. rewrite Hr. cbn [bind]. exists (y :: r). cbn. auto.
  Qed.
  Lemma nth_all {X} (l : list X) n : n <= length l -> exists r, mapM (py_nth l) (seq 0 n) = Ok r /\ length r = n.
  Proof.
    intro H. destruct (mapM_some (py_nth l) (seq 0 n)) as (r & Hr & L).
    - apply Forall_forall. intros a HA. apply in_seq in HA. unfold py_nth. destruct (nth_error l a) as [y|] eqn:E; [exists y; reflexivity|].
      apply nth_error_None in E. lia.
    - exists r. rewrite seq_length in L. auto.
  Qed.
  Lemma combine_left {X Y} (P : X -> Prop) (l : list X) (m : list Y) : Forall P l -> Forall (fun xy => P (fst xy)) (combine l m).
  Proof. intro H. revert m. induction H as [|x l H _ IH]; intros [|y m]; constructor; auto. Qed.
  Lemma combine_right {X Y} (P : Y -> Prop) (l : list X) (m : list Y) : Forall P m -> Forall (fun xy => P (snd xy)) (combine l m).
  Proof. intro H. revert l. induction H as [|x m H _ IH]; intros [|y l]; constructor; auto. Qed.

  Lemma labels_any sets legends : (match legends with Some l => length l = length sets | None => True end) -> exists r, set_labels set_text sets legends = Ok r.
  Proof.
    unfold set_labels. destruct legends as [l|]; intro H; [|eexists; reflexivity]. destruct (nth_all l (length sets)) as (r & Hr & _); [lia|]. exists r. exact Hr.
  Qed.
  (** what can be drawn lying down can be drawn upright *)
  Lemma upright v d xyz o arts : do_total o = true ->
    match do_legends o, do_atoms o with Some l, Some a => length l = length a | _, _ => True end ->
    dos_arts set_text v true d xyz o = Ok (Some arts) -> exists arts', dos_arts set_text true true d xyz o = Ok (Some arts').
  Proof.
    intros _ HL H. unfold dos_arts in *. destruct (String.eqb (do_option o) "plain").
    - unfold total_art in *. destruct (points v (d_freq d) (d_tdos d)) as [l|] eqn:E; cbn [bind] in H; [|discriminate].
      destruct (points_any _ true _ _ _ E) as [l' ->]. cbn [bind]. eexists. reflexivity.
    - destruct (String.eqb (do_option o) "line" || String.eqb (do_option o) "stack")%bool; [|discriminate].
      unfold total_art in *. destruct (points v (d_freq d) (d_tdos d)) as [l|] eqn:E; cbn [bind] in H; [|discriminate].
      destruct (points_any _ true _ _ _ E) as [l' ->]. cbn [bind].
      destruct (set_curves d xyz (do_atoms o)) as [rows|] eqn:ER; cbn [bind] in *; [|discriminate].
      pose proof (set_curves_length _ _ _ _ ER) as LR.
      assert (HS : exists sets, do_atoms o = Some sets) by (unfold set_curves in ER; destruct (do_atoms o); [eexists; reflexivity|discriminate]).
      destruct HS as [sets HS]. rewrite HS in *.
      destruct (labels_any sets (do_legends o)) as [labels HLB]; [destruct (do_legends o); [exact HL|exact I]|].
      assert (P : forall (fs : list R) ds, length ds = length fs -> exists l, points true fs ds = Ok l).
      { intros fs ds EL. unfold points. rewrite EL, Nat.eqb_refl. eexists. reflexivity. }
      destruct (String.eqb (do_option o) "line").
      + rewrite HLB. cbn [bind].
        destruct (mapM_some (fun rl : list (option R) * string => let! pts := points true (d_freq d) (fst rl) in Ok (Curve pts (Some (snd rl)))) (combine rows labels)) as (cs & -> & _).
        * eapply Forall_impl; [|apply (combine_left (fun r => length r = length (d_freq d))); exact LR]. intros [r lb] L. cbn [fst snd] in *.
          destruct (P _ _ L) as [pts ->]. cbn [bind]. eexists. reflexivity.
        * cbn [bind]. eexists. reflexivity.
      + rewrite HLB. cbn [bind]. set (bounds := cumulate _ rows).
        assert (LB : Forall (fun r => length r = length (d_freq d)) bounds) by (apply cumulate_length; [apply map_length|exact LR]).
        match goal with |- context [mapM ?f ?l] => destruct (mapM_some f l) as (cs & -> & _) end.
        * eapply Forall_impl; [|apply (combine_right (fun rl : list (option R) * string => length (fst rl) = length (d_freq d))); apply (combine_left (fun r => length r = length (d_freq d))); exact LB].
          intros [i [r lb]] L. cbn [fst snd] in *. destruct (P _ _ L) as [pts ->]. cbn [bind]. eexists. reflexivity.
        * cbn [bind]. eexists. reflexivity.
  Qed.

  (** Both pictures were drawn: the one with both can be drawn too. *)
  Lemma both_pictures p b xyz o d od pd fb rd :
    band_plot set_text p b xyz o = Ok (Some fb) -> do_total od = true ->
    match do_legends od, do_atoms od with Some l, Some a => length l = length a | _, _ => True end ->
    do_orient od = "horizontal"%string \/ do_orient od = "vertical"%string ->
    dos_plot set_text pd d xyz od = Ok rd ->
    exists f ab ad, plot_with_dos set_text p b xyz o d od = Ok f /\ fig_name f = "band_dos.png"%string /\
      fig_axes fb = [ab] /\ fig_axes f = [ab; ad] /\ ax_y ad = ax_y ab /\
      (forall fd0 ax, do_orient od = "vertical"%string -> rd = Some fd0 -> fig_axes fd0 = [ax] -> ax_arts ad = ax_arts ax).
  Proof.
    intros HB HT HL HO HD. unfold band_plot in HB. unfold plot_with_dos.
    destruct (window p (bo_elimit o)) as [w|]; cbn [bind] in *; [|discriminate].
    assert (DA : exists r, dos_arts set_text true true d xyz od = Ok r /\ (forall fd0 ax, do_orient od = "vertical"%string -> rd = Some fd0 -> fig_axes fd0 = [ax] -> exists arts, r = Some arts /\ ax_arts ax = arts)).
    { unfold dos_plot in HD. replace (String.eqb (do_orient od) "horizontal" || String.eqb (do_orient od) "vertical")%bool with true in HD by (destruct HO as [-> | ->]; reflexivity).
      destruct (window pd (do_elimit od)) as [wd|]; cbn [bind] in HD; [|discriminate]. rewrite HT in HD.
      destruct HO as [HO|HO]; rewrite HO in HD |- *; cbn [String.eqb Ascii.eqb Bool.eqb] in HD.
      - destruct (dos_arts set_text false true d xyz od) as [[arts|]|] eqn:E; cbn [bind] in HD; try discriminate.
        + destruct (upright _ _ _ _ _ HT HL E) as [arts' ->]. eexists. split; [reflexivity|]. intros fd0 ax HV. discriminate HV.
        + exists None. split; [|intros fd0 ax HV; discriminate HV]. clear -E. unfold dos_arts in *. destruct (String.eqb (do_option od) "plain").
          * destruct (total_art false d); cbn [bind] in E; discriminate.
          * destruct (String.eqb (do_option od) "line" || String.eqb (do_option od) "stack")%bool; [|reflexivity]. exfalso.
            repeat match type of E with
                   | (let! x := ?t in _) = _ => destruct t; cbn [bind] in E; [|discriminate]
                   | (if ?t then _ else _) = _ => destruct t
                   | match ?t with [] => _ | _ :: _ => _ end = _ => destruct t
                   end; discriminate.
      - destruct (dos_arts set_text true true d xyz od) as [r|] eqn:E; cbn [bind] in HD; [|discriminate]. exists r. split; [reflexivity|].
        intros fd0 ax _ HF HAX. subst rd. destruct r as [arts|]; [|discriminate]. injection HD as <-. cbn [fig_axes] in HAX. injection HAX as <-. exists arts. auto. }
    destruct DA as (r & HR & HV).
    assert (AX : forall labels arts0 bar ax, band_axes p b labels w arts0 bar = Ok ax -> ax_y ax = (Some (fst w), Some (snd w))).
    { intros labels arts0 bar ax H. unfold band_axes in H. repeat (match type of H with (let! x := ?t in _) = _ => destruct t; cbn [bind] in H; [|discriminate] end).
      injection H as <-. reflexivity. }
    assert (K : exists ab, fig_axes fb = [ab] /\ ax_y ab = (Some (fst w), Some (snd w)) /\
       (if String.eqb (bo_option o) "plain" then let! arts := plain_bands p b in let! ax := band_axes p b (bo_labels o) w arts None in Ok (Some ax)
        else if String.eqb (bo_option o) "projection" then
           let! r := coloured_bands set_text p b xyz (bo_atoms o) (bo_bar_label o) true in
           let! ax := band_axes p b (bo_labels o) w (fst r) (Some (snd r)) in Ok (Some ax)
        else Ok None) = Ok (Some ab)).
    { destruct (String.eqb (bo_option o) "plain").
      - destruct (plain_bands p b) as [arts|]; cbn [bind] in *; [|discriminate]. destruct (band_axes _ _ _ _ _ _) as [ax|] eqn:E; cbn [bind] in *; [|discriminate].
        injection HB as <-. exists ax. split; [reflexivity|]. split; [exact (AX _ _ _ _ E)|reflexivity].
      - destruct (String.eqb (bo_option o) "projection"); [|discriminate].
        assert (PL : (String.eqb (bo_bar_loc o) "right" || String.eqb (bo_bar_loc o) "bottom")%bool = true).
        { destruct (_ || _)%bool; [reflexivity|]. exfalso. unfold coloured_bands in HB. destruct (bo_atoms o); cbn [negb bind] in HB; discriminate. }
        rewrite PL in HB. destruct (coloured_bands _ _ _ _ _ _ _) as [cb|]; cbn [bind] in *; [|discriminate].
        destruct (band_axes _ _ _ _ _ _) as [ax|] eqn:E; cbn [bind] in *; [|discriminate].
        injection HB as <-. exists ax. split; [reflexivity|]. split; [exact (AX _ _ _ _ E)|reflexivity]. }
    destruct K as (ab & FA & YA & HK). rewrite HK. cbn [bind]. rewrite HR. cbn [bind].
    eexists _, ab, _. split; [reflexivity|]. split; [reflexivity|]. split; [exact FA|]. split; [reflexivity|]. split.
    { rewrite YA. destruct r; reflexivity. }
    intros fd0 ax HO' HF HAX. destruct (HV fd0 ax HO' HF HAX) as (arts & -> & <-). reflexivity.
  Qed.
  (** ---- C98: both analyses in one run ---- *)
  Lemma analyses_dos g e dk th : analyses g e (Some dk) th None None =
    let folder := folder_text (removelast (resolve (g_cwd g) (g_unit g))) in
    andthen (dos_stage g folder e (fst dk) (snd dk) th) (fun r => let '(x, _, _, _) := r in writes ([Final (a_disp (pp_arg x)) (a_enl (pp_arg x)) (a_pbc (pp_arg x))], None)).
  Proof.
    unfold Report.analyses. cbn [maybe]. cbv zeta. rewrite andthen_assoc. destruct (dos_stage _ _ _ _ _ _) as [l [[[[x p] d] od]|er]]; cbn; rewrite ?app_nil_r; reflexivity.
  Qed.
  Lemma analyses_band g e th bk mo : analyses g e None th (Some bk) mo =
    let folder := folder_text (removelast (resolve (g_cwd g) (g_unit g))) in
    andthen (band_stage g folder e None (fst bk) (snd bk) mo) (fun a => writes ([Final (a_disp a) (a_enl a) (a_pbc a)], None)).
  Proof.
    unfold Report.analyses. cbn [maybe]. cbv zeta. rewrite quiet_andthen, andthen_assoc. destruct (band_stage _ _ _ _ _ _ _) as [l [a|er]]; cbn; rewrite ?app_nil_r; reflexivity.
  Qed.
  Lemma analyses_both g e dk th bk mo : analyses g e (Some dk) th (Some bk) mo =
    let folder := folder_text (removelast (resolve (g_cwd g) (g_unit g))) in
    andthen (dos_stage g folder e (fst dk) (snd dk) th) (fun r =>
      andthen (band_stage g folder e (Some r) (fst bk) (snd bk) mo) (fun a => writes ([Final (a_disp a) (a_enl a) (a_pbc a)], None))).
  Proof.
    unfold Report.analyses. cbn [maybe]. cbv zeta. rewrite andthen_assoc. destruct (dos_stage _ _ _ _ _ _) as [l [r|er]]; [|reflexivity].
    cbn [andthen quiet]. destruct (band_stage _ _ _ _ _ _ _) as [l1 [a|er]]; cbn; rewrite ?app_nil_r; reflexivity.
  Qed.

  (** the order of the events of a band run, with the place where the picture of both goes *)
  Lemma band_part_with g folder e x p ba d od mo l :
    band_part g folder e x p ba None mo = (l, Ok tt) ->
    (ba_option ba = "plain"%string \/ ba_option ba = "projection"%string) ->
    exists b fb l1 l2, band_set p (band_init p) = Ok b /\ l = l1 ++ l2 /\ In (Picture fb) l1 /\ fig_name fb = "band.png"%string /\
      band_plot set_text p b (xyz_of x) (band_options e ba) = Ok (Some fb) /\
      (forall f, plot_with_dos set_text p b (xyz_of x) (band_options e ba) d od = Ok f ->
         band_part g folder e x p ba (Some (d, od)) mo = (l1 ++ [Picture f] ++ l2, Ok tt)).
  Proof.
    unfold Report.band_part. intros H HO. destruct (band_set p (band_init p)) as [b|] eqn:EB; [|discriminate H]. rewrite quiet_andthen in H.
    destruct (band_plot set_text p b (xyz_of x) (band_options e ba)) as [[fb|]|] eqn:EP.
    - exists b, fb, (as_files [band_write bad folder p b] ++ [Picture fb]).
      unfold writes, draws in H. cbn [fst snd andthen quiet app as_files map] in H.
      match type of H with context [match mo with None => _ | Some ma => _ end] => destruct (match mo with None => quiet (Ok tt) | Some ma => mode_part g folder x p ma end) as [l2 r2] eqn:EM end.
      cbn [app] in H. injection H as <- ->. exists l2. split; [reflexivity|]. split; [reflexivity|].
      split; [apply in_or_app; right; left; reflexivity|]. split; [exact (band_plot_name _ _ _ _ _ EP)|]. split; [exact EP|].
      intros f Hf. rewrite quiet_andthen. rewrite EP, Hf. unfold writes, draws. cbn [fst snd andthen bind]. rewrite ?EM. rewrite <- ?app_assoc. reflexivity.
    - exfalso. unfold band_plot in EP. destruct (window p _); cbn [bind] in EP; [|discriminate].
      cbn [band_options bo_option] in EP. destruct HO as [HO|HO]; rewrite HO in EP; cbn [String.eqb Ascii.eqb Bool.eqb] in EP;
        repeat match type of EP with (let! x := ?t in _) = _ => destruct t; cbn [bind] in EP; [|discriminate] end; discriminate.
    - exfalso. unfold writes, draws in H. cbn [fst snd andthen] in H. discriminate H.
  Qed.

  (** the orientation is one of the two that click and the option file accept *)
  Definition orientation_known (e : env) : Prop :=
    forall s, e "orientation_dos"%string = VStr s -> s = "horizontal"%string \/ s = "vertical"%string.
  (** repeating the symmetric evaluation of the force constants on its own result (proved for the
      model of Force.v below) *)
  Definition repeatable (g : setting) : Prop :=
    g_sym g = true -> forall m u s a rd m', sym_forces m u s a rd (g_forces g) = (m', None) -> sym_forces m' u s a rd (g_forces g) = (m', None).

  (** One run with both analyses leaves the results of the two separate runs, the picture of
      both, whose left part is the picture of the bands, and the same record. *)
  Theorem both_analyses_in_one_run : forall g e da kd th ba kb mo E1 E2,
    repeatable g -> labels_fit da -> orientation_known e -> (ba_option ba = "plain"%string \/ ba_option ba = "projection"%string) ->
    analyses g e (Some (da, kd)) th None None = (E1, Ok tt) ->
    analyses g e None None (Some (ba, kb)) mo = (E2, Ok tt) ->
    exists E f fb ab ad, analyses g e (Some (da, kd)) th (Some (ba, kb)) mo = (E, Ok tt) /\
      results E = results E1 ++ results E2 /\
      filter is_combined E = [Picture f] /\ filter is_record E = filter is_record E2 /\ filter is_record E1 = filter is_record E2 /\
      In (Picture fb) E2 /\ fig_name fb = "band.png"%string /\ fig_axes fb = [ab] /\ fig_axes f = [ab; ad] /\ ax_y ad = ax_y ab /\
      (forall fd0 ax, e "orientation_dos"%string = VStr "vertical" -> In (Picture fd0) E1 -> fig_name fd0 = "dos.png"%string -> fig_axes fd0 = [ax] -> ax_arts ad = ax_arts ax).
  Proof.
    intros g e da kd th ba kb mo E1 E2 HS HL HO HB H1 H2.
    rewrite analyses_dos in H1. rewrite analyses_band in H2. rewrite analyses_both. cbv zeta in *. cbn [fst snd] in *.
    set (folder := folder_text _) in *.
    pose proof (dos_stage_all g folder e da kd th) as A1. pose proof (band_stage_all g folder e ba kb mo) as A2.
    apply andthen_ok in H1. destruct H1 as (l1 & [[[x p] d] od] & l1' & D1 & F1 & ->). injection F1 as <-.
    apply andthen_ok in H2. destruct H2 as (l2 & a & l2' & D2 & F2 & ->). injection F2 as <-.
    rewrite D1 in A1. rewrite D2 in A2. cbn [fst] in A1, A2.
    (* the first stage *)
    pose proof D1 as D1'. unfold Report.dos_stage in D1'.
    destruct (let! x := new_process g in settle g x) as [x'|] eqn:EX; [|discriminate D1']. rewrite quiet_andthen in D1'.
    apply andthen_ok in D1'. destruct D1' as (m1 & p' & m2 & P1 & P2 & EL1). apply andthen_ok in P2. destruct P2 as (m3 & d' & m4 & P3 & P4 & EL2).
    injection P4 as <- -> -> -> <-.
    (* the second stage alone *)
    pose proof D2 as D2'. unfold Report.band_stage in D2'. rewrite EX in D2'. rewrite quiet_andthen in D2'.
    apply andthen_ok in D2'. destruct D2' as (n1 & pb & n2 & Q1 & Q2 & EM1). apply andthen_ok in Q2. destruct Q2 as (n3 & [] & n4 & Q3 & Q4 & EM2).
    injection Q4 as <- <-. rewrite app_nil_r in EM2. subst n2.
    destruct (band_part_with _ _ _ _ _ _ d (dos_options e da) _ _ Q3 HB) as (b & fb & q1 & q2 & EB & EQ & IF & NF & EBP & WITH).
    (* the picture of the density of states *)
    assert (DP : exists rd, dos_plot set_text p d (xyz_of x) (dos_options e da) = Ok rd /\ (forall f, In (Picture f) m3 -> fig_name f = "dos.png"%string -> rd = Some f)).
    { unfold Report.dos_part in P3. destruct (dos_init _ _ _) as [d0|]; [|discriminate P3]. rewrite quiet_andthen in P3.
      destruct (dos_set p d0) as [d1|]; [|discriminate P3]. rewrite quiet_andthen in P3.
      apply andthen_ok in P3. destruct P3 as (r1 & [] & r2 & R1 & R2 & ER1). apply andthen_ok in R2. destruct R2 as (r3 & [] & r4 & R3 & R4 & ER2).
      apply andthen_ok in R4. destruct R4 as (r5 & [] & r6 & R5 & R6 & ER3). injection R6 as <- ->.
      destruct (dos_plot set_text p d (xyz_of x) (dos_options e da)) as [rd|] eqn:EDP; [|discriminate R3].
      exists rd. split; [reflexivity|]. intros f0 IN NM. subst m3 r2 r4. rewrite app_nil_r in IN. apply in_app_or in IN. destruct IN as [IN|IN].
      { exfalso. destruct (dos_write bad folder (xyz_of x) d) as [fs er]. unfold writes in R1. injection R1 as <- _. cbn [fst] in IN.
        clear -IN. induction fs as [|[n c] fs IH]; [destruct IN|]. destruct IN as [IN|IN]; [discriminate IN|auto]. }
      apply in_app_or in IN. destruct IN as [IN|IN].
      - unfold draws in R3. destruct rd as [fr|]; injection R3 as <-; [|destruct IN]. destruct IN as [IN|[]]. injection IN as ->. reflexivity.
      - exfalso. destruct th as [ts|]; [|injection R5 as <-; destruct IN]. unfold thermal_part in R5.
        apply andthen_ok in R5. destruct R5 as (t1 & [] & t2 & T1 & T2 & ->). injection T1 as <-.
        destruct IN as [IN|IN]; [discriminate IN|]. cbn [app] in IN. unfold draws in T2.
        destruct (thermal_plot _) as [tf|] eqn:ET; cbn [bind] in T2; [|discriminate]. injection T2 as <-. destruct IN as [IN|[]].
        injection IN as ->. rewrite (thermal_plot_name _ _ ET) in NM. discriminate NM. }
    destruct DP as (rd & DP & RD).
    assert (OR : do_orient (dos_options e da) = "horizontal"%string \/ do_orient (dos_options e da) = "vertical"%string).
    { cbn [dos_options do_orient]. unfold text_or. destruct (e "orientation_dos"%string) eqn:EO; auto. }
    destruct (both_pictures _ _ _ _ d (dos_options e da) p fb rd EBP eq_refl HL OR DP) as (f & ab & ad & PF & NAME & FB & FF & YY & VV).
    specialize (WITH f PF).
    (* the second stage after the first *)
    assert (D3 : band_stage g folder e (Some (x, p, d, dos_options e da)) ba kb mo = ((n1 ++ q1) ++ [Picture f] ++ q2, Ok (pp_arg x))).
    { unfold Report.band_stage. destruct (new_process g) as [x0|]; cbn [bind] in EX; [|discriminate].
      rewrite (settle_twice _ _ _ _ _ HS EX). rewrite quiet_andthen.
      rewrite (evaluate_old _ _ _ _ _ _ Q1 (band_set_points _ _ _ EB) (p_modes p)).
      cbn [andthen]. rewrite WITH. cbn [andthen quiet]. rewrite !app_nil_r. rewrite <- !app_assoc. reflexivity. }
    rewrite D1. cbn [andthen]. rewrite D3. unfold writes. cbn [andthen fst snd].
    exists (l1 ++ (((n1 ++ q1) ++ [Picture f] ++ q2) ++ [Final (a_disp (pp_arg x)) (a_enl (pp_arg x)) (a_pbc (pp_arg x))])), f, fb, ab, ad.
    split; [reflexivity|].
    assert (IC : is_combined (Picture f) = true) by (cbn; rewrite NAME; reflexivity).
    assert (HC : forall l, Forall result_ev l -> filter is_combined l = [] /\ filter is_record l = []).
    { clear. induction 1 as [|z l [Z1 Z2] _ [IH1 IH2]]; cbn; [auto|]. rewrite Z1, Z2. auto. }
    subst n3. rewrite app_assoc in EM1. rewrite EM1 in A2. apply Forall_app in A2. destruct A2 as [A2 A3].
    split.
    { subst l2. rewrite !results_app. replace (results [Picture f]) with (@nil event) by (unfold results; cbn [filter]; rewrite IC; rewrite orb_true_r; reflexivity).
      cbn [results filter is_record is_combined orb negb app]. rewrite !app_nil_r. reflexivity. }
    apply Forall_app in A2. destruct A2 as [A2 A4].
    destruct (HC _ A1) as [C1 R1]. destruct (HC _ A2) as [C2 R2]. destruct (HC _ A3) as [C3 R3]. destruct (HC _ A4) as [C4 R4].
    split. { rewrite !filter_app, C1, C2, C3, C4. cbn [filter is_combined app]. cbn in IC. rewrite IC. reflexivity. }
    split. { subst l2. rewrite !filter_app, R1, R2, R3, R4. reflexivity. }
    split. { subst l2. rewrite !filter_app, R1, R2, R3, R4. reflexivity. }
    split. { subst l2. apply in_or_app. left. apply in_or_app. left. apply in_or_app. right. exact IF. }
    split; [exact NF|]. split; [exact FB|]. split; [exact FF|]. split; [exact YY|].
    intros fd0 ax HV IN NM HAX. apply (VV fd0 ax); [cbn [dos_options do_orient]; rewrite HV; reflexivity| |exact HAX].
    apply RD; [|exact NM]. subst l1 m2. apply in_app_or in IN. destruct IN as [IN|IN].
    2: { destruct IN as [IN|[]]; discriminate IN. }
    rewrite app_nil_r in IN. apply in_app_or in IN. destruct IN as [IN|IN]; [|exact IN]. exfalso.
    clear -P1 IN. unfold Report.evaluate in P1. destruct (let! f := k_file kd in _) as [t|]; [|discriminate P1]. rewrite quiet_andthen in P1.
    destruct (set_k_points _ _) as [ka [er|]]; [discriminate P1|]. rewrite quiet_andthen in P1.
    apply andthen_ok in P1. destruct P1 as (z1 & zp & z2 & Z1 & Z2 & ->). injection Z1 as <- _. apply andthen_ok in Z2. destruct Z2 as (z3 & [] & z4 & Z3 & Z4 & ->).
    injection Z4 as <- _. cbn [app] in IN. rewrite app_nil_r in IN. unfold writes in Z3. injection Z3 as <- _.
    destruct (gamma_write bad zp) as [[[n c] er]|]; [destruct IN as [IN|[]]; discriminate IN|destruct IN].
  Qed.

  (** A failure of the first analysis ends the run: nothing of the second is tried. *)
  Theorem failing_dos_ends_the_run : forall g e dk th bk mo E er,
    analyses g e (Some dk) th None None = (E, Err er) -> analyses g e (Some dk) th (Some bk) mo = (E, Err er).
  Proof.
    intros g e dk th bk mo E er H. rewrite analyses_dos in H. rewrite analyses_both. cbv zeta in *.
    destruct (dos_stage _ _ _ _ _ _) as [l [[[[x p] d] od]|er']]; cbn [andthen] in *; [discriminate H|exact H].
  Qed.
  (** Whatever happens to the second analysis, all results of the first are there. *)
  Theorem failing_band_keeps_the_dos : forall g e dk th bk mo E1,
    analyses g e (Some dk) th None None = (E1, Ok tt) ->
    exists E' r, analyses g e (Some dk) th (Some bk) mo = (results E1 ++ E', r).
  Proof.
    intros g e dk th bk mo E1 H. rewrite analyses_dos in H. rewrite analyses_both. cbv zeta in *.
    match type of H with context [dos_stage ?g0 ?f0 ?e0 ?a0 ?b0 ?c0] => pose proof (dos_stage_all g0 f0 e0 a0 b0 c0) as A end.
    destruct (dos_stage _ _ _ _ _ _) as [l [r|er']]; cbn [andthen] in *; [|discriminate H].
    destruct r as [[[x p] d] od]. unfold writes in H. cbn [fst snd] in H. injection H as <-.
    destruct (andthen (band_stage _ _ _ _ _ _ _) _) as [l' rr]. exists l', rr. rewrite results_app, (results_all l) by exact A.
    cbn [results filter is_record orb negb]. rewrite app_nil_r. reflexivity.
  Qed.

  Lemma settle_parts g x0 x : settle g x0 = Ok x -> set_user_arg (pp_arg x0) (g_args g) = Ok (pp_arg x) /\ pp_unit x = pp_unit x0.
  Proof.
    unfold Report.settle. intro H. destruct (set_user_arg _ _) as [a|]; cbn [bind] in H; [|discriminate].
    repeat match type of H with (let! x := ?t in _) = _ => destruct t; cbn [bind] in H; [|discriminate] end.
    destruct (g_sym g).
    - destruct (search _ _ _) as [[[pg req]|]|]; cbn [bind] in H; try discriminate.
      destruct (check_file_order_sym _ _ _ _ _ _); cbn [bind] in H; [|discriminate].
      destruct (if Nat.eqb _ 2 then _ else _) as [fc [er|]]; [discriminate|]. injection H as <-. auto.
    - destruct (check_file_order_nosym _ _ _ _ _); cbn [bind] in H; [|discriminate].
      destruct (of_option EType (a_disp a)); cbn [bind] in H; [|discriminate].
      destruct (set_force_constant_nosym _ _ _ _ _ _) as [fc [er|]]; [discriminate|]. injection H as <-. auto.
  Qed.
  Lemma fresh_arg g x : (let! x0 := new_process g in settle g x0) = Ok x -> set_user_arg args_init (g_args g) = Ok (pp_arg x).
  Proof.
    unfold new_process. intro H. repeat match type of H with (let! x := (let! y := ?t in _) in _) = _ => destruct t; cbn [bind] in H; [|discriminate] end.
    cbn [bind] in H. destruct (settle_parts _ _ _ H) as [H1 _]. exact H1.
  Qed.

  (** The record is written exactly when the run succeeds, once, after everything else, and it
      holds the accepted user arguments. *)
  Theorem record_iff_success : forall g e dos th band mo E r, analyses g e dos th band mo = (E, r) ->
    match r with
    | Ok _ => exists a E0, set_user_arg args_init (g_args g) = Ok a /\ E = E0 ++ [Final (a_disp a) (a_enl a) (a_pbc a)] /\ filter is_record E0 = []
    | Err _ => filter is_record E = []
    end.
  Proof.
    intros g e dos th band mo E r H.
    assert (NB : forall f b kb m folder, filter is_record (fst (band_stage g folder e f b kb m)) = []).
    { intros f b kb m folder.
      assert (Q : Forall (fun ev => is_record ev = false) (fst (band_stage g folder e f b kb m))).
      { assert (W : forall l, Forall result_ev l -> Forall (fun ev => is_record ev = false) l) by (intros l; apply Forall_impl; intros ev [H0 _]; exact H0).
        unfold Report.band_stage. apply andthen_all; [apply quiet_all|intros ? _]. apply andthen_all; [apply W, evaluate_all|intros ? _].
        apply andthen_all; [|intros; apply quiet_all]. unfold Report.band_part.
        apply andthen_all; [apply quiet_all|intros ? _]. apply andthen_all; [cbn; repeat constructor|intros ? _].
        apply andthen_all. { destruct (band_plot _ _ _ _ _) as [[?|]|]; cbn; repeat constructor. }
        intros ? _. apply andthen_all.
        { destruct f as [[[[? ?] ?] ?]|]; [|apply quiet_all]. destruct (plot_with_dos _ _ _ _ _ _ _); cbn; repeat constructor. }
        intros ? _. destruct m; [apply W, mode_part_all|apply quiet_all]. }
      induction Q as [|z l HZ _ IH]; cbn; [reflexivity|]. rewrite HZ. exact IH. }
    assert (ND : forall da kd m folder, filter is_record (fst (dos_stage g folder e da kd m)) = []).
    { intros da kd m folder. pose proof (dos_stage_all g folder e da kd m) as Q. induction Q as [|z l [HZ _] _ IH]; cbn; [reflexivity|]. rewrite HZ. exact IH. }
    assert (AB : forall folder b kb m a l, band_stage g folder e None b kb m = (l, Ok a) -> set_user_arg args_init (g_args g) = Ok a).
    { intros folder b kb m a l HB. unfold Report.band_stage in HB. destruct (let! x0 := new_process g in _) as [x|] eqn:EX; [|discriminate HB]. rewrite quiet_andthen in HB.
      apply andthen_ok in HB. destruct HB as (? & ? & ? & _ & HB & _). apply andthen_ok in HB. destruct HB as (? & ? & ? & _ & HB & _). injection HB as _ <-. exact (fresh_arg _ _ EX). }
    assert (AD : forall folder da kd m x p d od l, dos_stage g folder e da kd m = (l, Ok (x, p, d, od)) -> set_user_arg args_init (g_args g) = Ok (pp_arg x)).
    { intros folder da kd m x p d od l HB. unfold Report.dos_stage in HB. destruct (let! x0 := new_process g in _) as [x'|] eqn:EX; [|discriminate HB]. rewrite quiet_andthen in HB.
      apply andthen_ok in HB. destruct HB as (? & ? & ? & _ & HB & _). apply andthen_ok in HB. destruct HB as (? & ? & ? & _ & HB & _). injection HB as _ <- _ _ _. exact (fresh_arg _ _ EX). }
    destruct dos as [dk|]; destruct band as [bk|].
    - rewrite analyses_both in H. cbv zeta in H. specialize (ND (fst dk) (snd dk) th (folder_text (removelast (resolve (g_cwd g) (g_unit g))))).
      destruct (dos_stage g _ e (fst dk) (snd dk) th) as [l [r1|er]] eqn:E1; cbn [andthen fst] in *; [|injection H as <- <-; exact ND].
      specialize (NB (Some r1) (fst bk) (snd bk) mo (folder_text (removelast (resolve (g_cwd g) (g_unit g))))).
      destruct (band_stage g _ e (Some r1) (fst bk) (snd bk) mo) as [l2 [a|er]] eqn:E2; cbn [andthen fst] in *.
      + unfold writes in H. cbn [fst snd] in H. injection H as <- <-. exists a, (l ++ l2). split.
        * destruct r1 as [[[x p] d] od]. pose proof (AD _ _ _ _ _ _ _ _ _ E1) as HA. unfold Report.band_stage in E2.
          destruct (settle g x) as [x'|] eqn:ES; [|discriminate E2]. rewrite quiet_andthen in E2.
          apply andthen_ok in E2. destruct E2 as (? & ? & ? & _ & HB & _). apply andthen_ok in HB. destruct HB as (? & ? & ? & _ & HB & _). injection HB as _ <-.
          destruct (settle_parts _ _ _ ES) as [H1 _]. rewrite (set_user_arg_twice _ _ _ HA) in H1. injection H1 as <-. exact HA.
        * split; [apply app_assoc|]. rewrite filter_app, ND, NB. reflexivity.
      + injection H as <- <-. rewrite filter_app, ND, NB. reflexivity.
    - replace (analyses g e (Some dk) th None mo) with (analyses g e (Some dk) th None None) in H by reflexivity.
      rewrite analyses_dos in H. cbv zeta in H. specialize (ND (fst dk) (snd dk) th (folder_text (removelast (resolve (g_cwd g) (g_unit g))))).
      destruct (dos_stage g _ e (fst dk) (snd dk) th) as [l [[[[x p] d] od]|er]] eqn:E1; cbn [andthen fst] in *; [|injection H as <- <-; exact ND].
      unfold writes in H. cbn [fst snd] in H. injection H as <- <-. exists (pp_arg x), l. split; [exact (AD _ _ _ _ _ _ _ _ _ E1)|auto].
    - rewrite analyses_band in H. cbv zeta in H. specialize (NB None (fst bk) (snd bk) mo (folder_text (removelast (resolve (g_cwd g) (g_unit g))))).
      destruct (band_stage g _ e None (fst bk) (snd bk) mo) as [l2 [a|er]] eqn:E2; cbn [andthen fst] in *; [|injection H as <- <-; exact NB].
      unfold writes in H. cbn [fst snd] in H. injection H as <- <-. exists a, l2. split; [exact (AB _ _ _ _ _ _ E2)|auto].
    - cbv in H. injection H as <- <-. reflexivity.
  Qed.

  (** ---- C99: the files of a run ---- *)
  (** all directions are non-periodic: the frequencies at the zone centre get a file of their own *)
  Definition cluster (a : args) : bool := match a_pbc a with Some l => forallb (Z.eqb 0) l | None => false end.
  Definition gamma_names (a : args) : list string := if cluster a then ["./freqency_at_gamma_point.dat"%string] else [].
  Definition dos_names (folder : string) (a : args) (e : env) (da : dos_args) (th : option (list Z)) : list string :=
    gamma_names a ++ [in_folder folder "total_dos.dat"; in_folder folder "projected_dos.dat"]
    ++ (if existsb (String.eqb (da_option da)) ["plain"; "line"; "stack"]%string then ["dos.png"%string] else [])
    ++ match th with Some _ => [in_folder folder "thermal_properties.dat"; "thermal_properties.png"%string] | None => [] end.
  Definition mode_names (folder code : string) (ma : mode_args) : list string :=
    match ma_k ma with
    | [a; b; c] =>
        map (fun i => in_folder folder ("XDATCAR_phonon_mode_" ++ z_string i ++ "_" ++ kname (V3 a b c))) (ma_index ma)
        ++ map (fun i => in_folder folder ("Trajectory_" ++ z_string i ++ ".traj")) (ma_index ma)
        ++ (if ma_write ma then if existsb (String.eqb code) ["vasp"; "espresso"; "aims"]%string then map (fun i => ("./MPOSCAR-" ++ z_string i)%string) (ma_index ma) else [] else [])
    | _ => []
    end.
  Definition band_names (folder code : string) (a : args) (ba : band_args) (both : bool) (mo : option mode_args) : list string :=
    gamma_names a ++ [in_folder folder "band.dat"]
    ++ (if existsb (String.eqb (ba_option ba)) ["plain"; "projection"]%string then ["band.png"%string] else [])
    ++ (if both then ["band_dos.png"%string] else [])
    ++ match mo with Some ma => mode_names folder code ma | None => [] end.

  Lemma ind_pbc_empty l : ind_pbc l = [] <-> forallb (Z.eqb 0) l = true.
  Proof.
    unfold ind_pbc. generalize 0 as n. induction l as [|z l IH]; intro n; cbn [length seq combine filter map forallb snd]; [tauto|].
    rewrite (Z.eqb_sym 0 z). destruct (Z.eqb z 0); cbn [negb map]; [rewrite IH; reflexivity|]. split; discriminate.
  Qed.
  Lemma evaluate_names g x old kv l p : evaluate g x old kv = (l, Ok p) -> map file_of l = gamma_names (pp_arg x).
  Proof.
    unfold Report.evaluate. intro H. destruct (let! f := k_file kv in _) as [t|]; [|discriminate H]. rewrite quiet_andthen in H.
    destruct (set_k_points _ _) as [ka [er|]]; [discriminate H|]. rewrite quiet_andthen in H.
    apply andthen_ok in H. destruct H as (z1 & zp & z2 & Z1 & Z2 & ->). injection Z1 as <- Z1. apply andthen_ok in Z2. destruct Z2 as (z3 & [] & z4 & Z3 & Z4 & ->).
    injection Z4 as <- _. cbn [app]. rewrite app_nil_r.
    assert (PB : a_pbc (pp_arg x) = Some (p_pbc zp)).
    { match type of Z1 with (let! x := ?t in _) = _ => destruct t; cbn [bind] in Z1; [|discriminate] end.
      destruct (a_pbc (pp_arg x)) as [pb|]; cbn [of_option bind] in Z1; [|discriminate].
      repeat match type of Z1 with (let! x := ?t in _) = _ => destruct t; cbn [bind] in Z1; [|discriminate] end. injection Z1 as <-. reflexivity. }
    unfold gamma_names, cluster. rewrite PB. unfold gamma_write in Z3.
    destruct (ind_pbc (p_pbc zp)) as [|i r] eqn:EI.
    - rewrite (proj1 (ind_pbc_empty _) EI). destruct (p_modes zp) as [|m ms]; [discriminate Z3|]. injection Z3 as <-. reflexivity.
    - destruct (forallb (Z.eqb 0) (p_pbc zp)) eqn:EF; [apply ind_pbc_empty in EF; congruence|]. injection Z3 as <-. reflexivity.
  Qed.
  Lemma as_files_names l : map file_of (as_files l) = map fst l.
  Proof. induction l as [|[n c] l IH]; cbn; [reflexivity|]. f_equal. exact IH. Qed.

  Lemma dos_part_names folder e x p da th l d : dos_part folder e x p da th = (l, Ok d) -> orientation_known e ->
    map file_of l = [in_folder folder "total_dos.dat"; in_folder folder "projected_dos.dat"]
      ++ (if existsb (String.eqb (da_option da)) ["plain"; "line"; "stack"]%string then ["dos.png"%string] else [])
      ++ match th with Some _ => [in_folder folder "thermal_properties.dat"; "thermal_properties.png"%string] | None => [] end.
  Proof.
    unfold Report.dos_part. intros H HO.
    destruct (dos_init _ _ _) as [d0|]; [|discriminate H]. rewrite quiet_andthen in H.
    destruct (dos_set p d0) as [d1|]; [|discriminate H]. rewrite quiet_andthen in H.
    apply andthen_ok in H. destruct H as (r1 & [] & r2 & R1 & R2 & ->). apply andthen_ok in R2. destruct R2 as (r3 & [] & r4 & R3 & R4 & ->).
    apply andthen_ok in R4. destruct R4 as (r5 & [] & r6 & R5 & R6 & ->). injection R6 as <- ->. rewrite app_nil_r, !map_app.
    f_equal; [|f_equal].
    - unfold dos_write, projected_write in R1. destruct (projected_lines _ _ _ _) as [ls er]. unfold writes in R1. injection R1 as <- _. reflexivity.
    - unfold dos_plot in R3.
      replace (String.eqb (do_orient (dos_options e da)) "horizontal" || String.eqb (do_orient (dos_options e da)) "vertical")%bool with true in R3.
      2: { cbn [dos_options do_orient]. unfold text_or. destruct (e "orientation_dos"%string) eqn:EO; try reflexivity. destruct (HO _ EO) as [-> | ->]; reflexivity. }
      destruct (window p _); cbn [bind] in R3; [|discriminate R3].
      destruct (dos_arts _ _ _ _ _ _) as [r|] eqn:ED; cbn [bind] in R3; [|discriminate R3].
      unfold dos_arts in ED. cbn [dos_options do_option] in ED. cbn [existsb]. rewrite orb_false_r.
      destruct (String.eqb (da_option da) "plain").
      { cbn [orb]. match type of ED with (let! x := ?t in _) = _ => destruct t; cbn [bind] in ED; [|discriminate] end. injection ED as <-. injection R3 as <-. reflexivity. }
      cbn [orb]. destruct (String.eqb (da_option da) "line" || String.eqb (da_option da) "stack")%bool.
      + destruct r as [arts|]; [injection R3 as <-; reflexivity|]. exfalso.
        repeat match type of ED with
               | (let! x := ?t in _) = _ => destruct t; cbn [bind] in ED; [|discriminate]
               | (if ?t then _ else _) = _ => destruct t
               | match ?t with [] => _ | _ :: _ => _ end = _ => destruct t
               end; discriminate.
      + injection ED as <-. injection R3 as <-. reflexivity.
    - destruct th as [ts|]; [|injection R5 as <-; reflexivity]. unfold thermal_part in R5.
      apply andthen_ok in R5. destruct R5 as (t1 & [] & t2 & T1 & T2 & ->). injection T1 as <-.
      destruct (thermal_plot _) as [tf|] eqn:ET; cbn [bind] in T2; [|discriminate]. injection T2 as <-. cbn [map app file_of]. rewrite (thermal_plot_name _ _ ET). reflexivity.
  Qed.

  Lemma ints_kept l : mapM py_int (map VInt l) = Ok l.
  Proof. induction l as [|z l IH]; cbn; [reflexivity|]. rewrite IH. reflexivity. Qed.
  Lemma mode_set_parts p l k o : mode_set p mode_init (VSeq (map VInt l)) k = (o, None) -> m_inds o = l /\ m_k o = Some k /\ exists V, m_mode o = Some V.
  Proof.
    unfold mode_set. cbn [to_int_numpy]. rewrite ints_kept. destruct (last_close _ _ _ _) as [i|]; [|discriminate].
    destruct (nth_error (p_modes p) i) as [m|]; [|discriminate]. intro H. injection H as <-. cbn. eauto.
  Qed.
  Lemma write_modes_names n o idx cur w k : m_k o = Some k -> forall inds c fs, write_modes row kname n o c idx cur w inds = (fs, None) ->
    map fst fs = map (fun i => traj_name kname i k) inds.
  Proof.
    intro HK. induction inds as [|i r IH]; intros c fs H; cbn [write_modes] in H; [injection H as <-; reflexivity|].
    rewrite HK in H. destruct (m_mode o) as [V|]; cbn [of_option bind] in H; [|discriminate].
    destruct (mode_rows n V i) as [ms|]; cbn [bind] in H; [|discriminate].
    destruct (frames _ _ _ _ _ _ _ _ _) as [[c1 lines]|]; cbn [bind] in H; [|discriminate].
    destruct (write_modes row kname n o c1 idx cur w r) as [fs' er] eqn:E. injection H as <- ->. cbn [map fst]. f_equal. exact (IH _ _ E).
  Qed.
  Lemma mode_write_names n u o k fs : m_k o = Some k -> mode_write row kname n u o = (fs, None) -> map fst fs = map (fun i => traj_name kname i k) (m_inds o).
  Proof.
    intros HK H. unfold mode_write in H. destruct (let! t := true_rows _ in _) as [[[[? idx] cur] w]|]; [|discriminate]. exact (write_modes_names _ _ _ _ _ _ HK _ _ _ H).
  Qed.
  Lemma animate_names folder n o idx cur w inds : forall atom fs, animate folder n o atom idx cur w inds = (fs, None) ->
    map file_of fs = map (fun i => in_folder folder ("Trajectory_" ++ z_string i ++ ".traj")) inds.
  Proof.
    induction inds as [|i r IH]; intros atom fs H; cbn [animate] in H; [injection H as <-; reflexivity|].
    destruct (let! V := _ in _) as [[a1 l]|]; [|discriminate]. destruct (animate folder n o a1 idx cur w r) as [fs' er] eqn:E. injection H as <- ->.
    cbn [map file_of]. f_equal. exact (IH _ _ E).
  Qed.
  Lemma write_commensurate_names n E0 V k amp code idx cur w ph inds : forall s fs, write_commensurate kname n E0 V k amp code s idx cur w ph inds = (fs, None) ->
    map (fun x => fst (fst x)) fs = if known_code code then map mposcar inds else [].
  Proof.
    induction inds as [|i r IH]; intros s fs H; cbn [write_commensurate] in H; [injection H as <-; cbn; destruct (known_code code); reflexivity|].
    destruct (let! rows := _ in _) as [s1|]; [|discriminate].
    destruct (write_commensurate kname n E0 V k amp code s1 idx cur w ph r) as [fs' er] eqn:E. specialize (IH s1 fs').
    destruct (known_code code); injection H as <- ->; cbn [map fst]; [f_equal|]; exact (IH E).
  Qed.
  Lemma mode_part_names g folder x p ma l : mode_part g folder x p ma = (l, Ok tt) -> map file_of l = mode_names folder (code_of (g_args g)) ma.
  Proof.
    unfold Report.mode_part, mode_names. intro H. destruct (ma_k ma) as [|k1 [|k2 [|k3 [|? ?]]]]; try discriminate H. rewrite quiet_andthen in H.
    destruct (mode_set _ _ _ _) as [o [er|]] eqn:EO; [discriminate H|]. rewrite quiet_andthen in H.
    destruct (mode_set_parts _ _ _ _ EO) as (I1 & I2 & V & I3).
    apply andthen_ok in H. destruct H as (r1 & [] & r2 & R1 & R2 & ->). apply andthen_ok in R2. destruct R2 as (r3 & [] & r4 & R3 & R4 & ->).
    rewrite !map_app. f_equal; [|f_equal].
    - destruct (mode_write _ _ _ _ _) as [fs er] eqn:EM. unfold writes in R1. cbn [fst snd] in R1. destruct er; [discriminate|]. injection R1 as <-.
      rewrite as_files_names, map_map. cbn [fst]. rewrite <- map_map with (f := fst) (g := fun s => (folder ++ s)%string).
      rewrite (mode_write_names _ _ _ _ _ I2 EM), I1, map_map. reflexivity.
    - unfold mode_plot, writes in R3. destruct (let! atom := _ in _) as [[[[at0 idx] cur] w]|]; [|discriminate R3].
      destruct (animate _ _ _ _ _ _ _ _) as [fs er] eqn:EA. cbn [fst snd] in R3. destruct er; [discriminate|]. injection R3 as <-. rewrite I1 in EA. exact (animate_names _ _ _ _ _ _ _ _ _ EA).
    - destruct (ma_write ma); [|injection R4 as <-; reflexivity]. rewrite I1 in R4.
      match type of R4 with andthen (quiet ?t) _ = _ => destruct t as [amp|]; [|discriminate R4] end. rewrite quiet_andthen in R4.
      match type of R4 with andthen (quiet ?t) _ = _ => destruct t as [L|]; [|discriminate R4] end. rewrite quiet_andthen in R4.
      destruct (write_mode_displace _ _ _ _ _ _ _ _) as [fs er] eqn:EW. unfold writes in R4. cbn [fst snd] in R4. destruct er; [discriminate|]. injection R4 as <-.
      unfold write_mode_displace in EW. match type of EW with match ?t with Ok _ => _ | Err _ => _ end = _ => destruct t as [[[[[[[[? ?] ?] ?] ?] ?] ?] ?]|]; [|discriminate EW] end.
      apply write_commensurate_names in EW. rewrite I1 in EW.
      replace (existsb (String.eqb (code_of (g_args g))) ["vasp"; "espresso"; "aims"]%string) with (known_code (code_of (g_args g))) by (unfold known_code; cbn [existsb]; rewrite orb_false_r, orb_assoc; reflexivity).
      rewrite map_map.
      transitivity (map (fun n0 => ("." ++ n0)%string) (map (fun x0 : string * string * cell R => fst (fst x0)) fs)).
      { rewrite map_map. apply map_ext. intros [[? ?] ?]. reflexivity. }
      rewrite EW. destruct (known_code _); [|reflexivity]. rewrite map_map. reflexivity.
  Qed.
  Lemma band_part_names g folder e x p ba dos mo l : band_part g folder e x p ba dos mo = (l, Ok tt) ->
    map file_of l = [in_folder folder "band.dat"]
      ++ (if existsb (String.eqb (ba_option ba)) ["plain"; "projection"]%string then ["band.png"%string] else [])
      ++ (match dos with Some _ => ["band_dos.png"%string] | None => [] end)
      ++ match mo with Some ma => mode_names folder (code_of (g_args g)) ma | None => [] end.
  Proof.
    unfold Report.band_part. intro H. destruct (band_set p (band_init p)) as [b|]; [|discriminate H]. rewrite quiet_andthen in H.
    apply andthen_ok in H. destruct H as (r1 & [] & r2 & R1 & R2 & ->). apply andthen_ok in R2. destruct R2 as (r3 & [] & r4 & R3 & R4 & ->).
    apply andthen_ok in R4. destruct R4 as (r5 & [] & r6 & R5 & R6 & ->). rewrite !map_app. injection R1 as <-. f_equal; f_equal; [|f_equal].
    - destruct (band_plot set_text p b (xyz_of x) (band_options e ba)) as [[f|]|] eqn:EP; cbn [draws] in R3; try discriminate R3; injection R3 as <-.
      + cbn [map file_of]. rewrite (band_plot_name _ _ _ _ _ EP).
        unfold band_plot in EP. destruct (window p _); cbn [bind] in EP; [|discriminate]. cbn [band_options bo_option] in EP. cbn [existsb]. rewrite orb_false_r.
        destruct (String.eqb (ba_option ba) "plain"); [reflexivity|]. destruct (String.eqb (ba_option ba) "projection"); [reflexivity|discriminate].
      + unfold band_plot in EP. destruct (window p _); cbn [bind] in EP; [|discriminate]. cbn [band_options bo_option] in EP. cbn [existsb]. rewrite orb_false_r.
        destruct (String.eqb (ba_option ba) "plain").
        { repeat match type of EP with (let! x := ?t in _) = _ => destruct t; cbn [bind] in EP; [|discriminate] end. discriminate. }
        destruct (String.eqb (ba_option ba) "projection"); [|reflexivity].
        repeat match type of EP with (let! x := ?t in _) = _ => destruct t; cbn [bind] in EP; [|discriminate] end. discriminate.
    - destruct dos as [[d od]|]; [|injection R5 as <-; reflexivity].
      destruct (plot_with_dos set_text p b (xyz_of x) (band_options e ba) d od) as [f|] eqn:EP; cbn [bind draws] in R5; [|discriminate]. injection R5 as <-. cbn [map file_of].
      f_equal. unfold plot_with_dos in EP. destruct (window p _); cbn [bind] in EP; [|discriminate].
      match type of EP with (let! x := ?t in _) = _ => destruct t as [[ax|]|]; cbn [bind] in EP; try discriminate end.
      + destruct (dos_arts _ _ _ _ _ _); cbn [bind] in EP; [|discriminate]. injection EP as <-. reflexivity.
      + destruct (_ || _)%bool in EP; [discriminate|]. injection EP as <-. reflexivity.
    - destruct mo as [ma|]; [exact (mode_part_names _ _ _ _ _ _ R6)|injection R6 as <-; reflexivity].
  Qed.

  (** A run that succeeds creates exactly these files, in this order. *)
  Theorem files_of_a_run : forall g e dos th band mo E, orientation_known e ->
    analyses g e dos th band mo = (E, Ok tt) ->
    exists a, set_user_arg args_init (g_args g) = Ok a /\
      let folder := folder_text (removelast (resolve (g_cwd g) (g_unit g))) in
      map file_of E =
        match dos with Some (da, _) => dos_names folder a e da th | None => [] end
        ++ match band with Some (ba, _) => band_names folder (code_of (g_args g)) a ba (match dos with Some _ => true | None => false end) mo | None => [] end
        ++ ["post_process.yaml"%string].
  Proof.
    intros g e dos th band mo E HO H.
    assert (DN : forall folder da kd l x p d od, dos_stage g folder e da kd th = (l, Ok (x, p, d, od)) ->
       set_user_arg args_init (g_args g) = Ok (pp_arg x) /\ map file_of l = dos_names folder (pp_arg x) e da th).
    { intros folder da kd l x p d od HD. unfold Report.dos_stage in HD. destruct (let! x0 := new_process g in _) as [x'|] eqn:EX; [|discriminate HD]. rewrite quiet_andthen in HD.
      apply andthen_ok in HD. destruct HD as (m1 & p' & m2 & P1 & P2 & ->). apply andthen_ok in P2. destruct P2 as (m3 & d' & m4 & P3 & P4 & ->).
      injection P4 as <- <- <- <- <-. split; [exact (fresh_arg _ _ EX)|]. rewrite app_nil_r, map_app. rewrite (evaluate_names _ _ _ _ _ _ P1), (dos_part_names _ _ _ _ _ _ _ _ P3 HO). reflexivity. }
    assert (BN : forall folder f ba kb l a, (forall x p d od, f = Some (x, p, d, od) -> set_user_arg args_init (g_args g) = Ok (pp_arg x)) ->
       band_stage g folder e f ba kb mo = (l, Ok a) ->
       set_user_arg args_init (g_args g) = Ok a /\ map file_of l = band_names folder (code_of (g_args g)) a ba (match f with Some _ => true | None => false end) mo).
    { intros folder f ba kb l a HF HD. unfold Report.band_stage in HD.
      match type of HD with andthen (quiet ?t) _ = _ => destruct t as [x|] eqn:EX; [|discriminate HD] end. rewrite quiet_andthen in HD.
      apply andthen_ok in HD. destruct HD as (m1 & p' & m2 & P1 & P2 & ->). apply andthen_ok in P2. destruct P2 as (m3 & [] & m4 & P3 & P4 & ->). injection P4 as <- <-.
      split.
      - destruct f as [[[[x0 p0] d0] od0]|]; [|exact (fresh_arg _ _ EX)]. pose proof (HF _ _ _ _ eq_refl) as HA. destruct (settle_parts _ _ _ EX) as [H1 _].
        rewrite (set_user_arg_twice _ _ _ HA) in H1. injection H1 as <-. exact HA.
      - rewrite app_nil_r, map_app. rewrite (evaluate_names _ _ _ _ _ _ P1), (band_part_names _ _ _ _ _ _ _ _ _ P3). unfold band_names. destruct f as [[[[? ?] ?] ?]|]; reflexivity. }
    destruct dos as [[da kd]|]; destruct band as [[ba kb]|].
    - rewrite analyses_both in H. cbv zeta in *. cbn [fst snd] in H. apply andthen_ok in H. destruct H as (l1 & [[[x p] d] od] & l1' & D1 & H & ->).
      apply andthen_ok in H. destruct H as (l2 & a & l3 & D2 & H & ->). injection H as <-. destruct (DN _ _ _ _ _ _ _ _ D1) as [A1 N1].
      destruct (BN _ (Some (x, p, d, od)) _ _ _ _ ltac:(intros; congruence) D2) as [A2 N2]. rewrite A1 in A2. injection A2 as <-.
      exists (pp_arg x). split; [exact A1|]. rewrite !map_app, N1, N2. reflexivity.
    - replace (analyses g e (Some (da, kd)) th None mo) with (analyses g e (Some (da, kd)) th None None) in H by reflexivity.
      rewrite analyses_dos in H. cbv zeta in *. cbn [fst snd] in H. apply andthen_ok in H. destruct H as (l1 & [[[x p] d] od] & l1' & D1 & H & ->). injection H as <-.
      destruct (DN _ _ _ _ _ _ _ _ D1) as [A1 N1]. exists (pp_arg x). split; [exact A1|]. rewrite !map_app, N1. reflexivity.
    - rewrite analyses_band in H. cbv zeta in *. cbn [fst snd] in H. apply andthen_ok in H. destruct H as (l2 & a & l3 & D2 & H & ->). injection H as <-.
      destruct (BN _ None _ _ _ _ ltac:(intros; discriminate) D2) as [A2 N2]. exists a. split; [exact A2|]. rewrite !map_app, N2. reflexivity.
    - cbv in H. discriminate H.
  Qed.
End Props.

(** ---- C101: the animation ---- *)
Section Animation.
  Lemma images_gen pos idx cur modes w : length modes = length cur -> length w = length cur -> length cur = length idx -> NoDup idx ->
    Forall (fun i => i < length pos) idx -> forall xs P, length P = length pos ->
    (forall rows, length rows = length idx -> assign_rows P idx rows = assign_rows pos idx rows) ->
    exists P', images_of P idx cur modes w xs = Ok (P', map (fun x => image pos idx cur modes w x) xs) /\ length P' = length pos /\
      (forall rows, length rows = length idx -> assign_rows P' idx rows = assign_rows pos idx rows).
  Proof.
    intros Lm Lw Lc ND Rg. induction xs as [|x xs IH]; intros P LP HP; cbn [images_of map]; [exists P; auto|].
    destruct (zip3_spec (fun p d m => vadd p (vdivsqrt (vscale (sin x) d) m)) cur modes w Lm Lw) as (rows & Ez & Lr & _). rewrite Ez. cbn [bind].
    rewrite HP by lia. destruct (IH (assign_rows pos idx rows)) as (P' & E & L' & H'); [apply assign_rows_length| |].
    { intros r2 L2. apply assign_rows_twice; [exact ND|exact Rg|lia|exact L2]. }
    rewrite E. cbn [bind]. exists P'. split; [|auto]. f_equal. f_equal. f_equal. unfold image. rewrite Ez. reflexivity.
  Qed.

  (** What Mode.plot stores: for every selected mode one file with the thirty structures of one
      period, displaced from the positions ASE read by the same amounts as in the trajectory
      (is_frame and amplitude are the specification of C53). *)
  Theorem animation_content : forall folder n (u : cell R) o pos tr ms mx V,
    c_true u = Some tr -> Forall (fun z => 0 <= z < Z.of_nat (length pos))%Z tr -> NoDup tr -> tr <> [] ->
    c_mass u = Some ms -> length ms = 3 * length tr -> largest ms mx -> n = 3 * length tr -> m_mode o = Some V ->
    Forall (fun ind => - Z.of_nat n <= ind < Z.of_nat n)%Z (m_inds o) ->
    exists evs, mode_plot folder n u o (Ok pos) = (evs, None) /\
      Forall2 (fun ind ev => exists i images, row_number n ind i /\
          ev = Animation (in_folder folder ("Trajectory_" ++ z_string ind ++ ".traj")) images /\ length images = 30 /\
          forall j f, nth_error images j = Some f -> is_frame pos tr (amplitude V i ms mx) (sin (phase j)) f) (m_inds o) evs.
  Proof.
    intros folder n u o pos tr ms mx V Htr Rg ND NE Hms Lms Hmx Hn HV Hinds.
    assert (T0 : 0 < length tr) by (destruct tr; [congruence|cbn; lia]).
    destruct (true_rows_ok (put_cart u pos) pos tr eq_refl Htr Rg) as (cur & Et & Lcur & Ncur).
    destruct (mass_weight_ok u ms mx (length tr) Hms Lms T0 Hmx) as (w & Ew & Lw & Nw).
    unfold mode_plot. cbn [bind]. rewrite Htr. cbn [of_option bind].
    unfold true_rows in Et. cbn [put_cart c_cart c_true of_option bind] in Et. rewrite Htr in Et. cbn [of_option bind] in Et.
    destruct (mapM (np_index (length pos)) tr) as [idx|]; cbn [bind] in *; [|discriminate].
    destruct (mapM (fun i => py_nth pos i) idx) as [cur'|]; cbn [bind] in *; [|discriminate]. injection Et as -> ->.
    rewrite Ew. cbn [bind].
    pose proof (NoDup_to_nat tr (length pos) Rg ND) as NDi.
    assert (Rgi : Forall (fun i => i < length pos) (map Z.to_nat tr)).
    { rewrite Forall_forall in *. intros i Hi. apply in_map_iff in Hi. destruct Hi as (z & <- & Hz). specialize (Rg z Hz). lia. }
    assert (Main : forall inds P, Forall (fun ind => - Z.of_nat n <= ind < Z.of_nat n)%Z inds -> length P = length pos ->
      (forall rows, length rows = length (map Z.to_nat tr) -> assign_rows P (map Z.to_nat tr) rows = assign_rows pos (map Z.to_nat tr) rows) ->
      exists evs, animate folder n o P (map Z.to_nat tr) cur w inds = (evs, None) /\
      Forall2 (fun ind ev => exists i images, row_number n ind i /\
          ev = Animation (in_folder folder ("Trajectory_" ++ z_string ind ++ ".traj")) images /\ length images = 30 /\
          forall j f, nth_error images j = Some f -> is_frame pos tr (amplitude V i ms mx) (sin (phase j)) f) inds evs).
    { induction inds as [|ind inds IH]; intros P Hr LP HP; [exists []; split; [reflexivity|constructor]|].
      inversion Hr as [|? ? Hr1 Hr2]; subst. cbn [animate]. rewrite HV. cbn [of_option bind].
      destruct (np_index_row _ ind Hr1) as (i & Ei & Ri).
      destruct (mode_rows_ok (3 * length tr) V ind i (length tr) eq_refl Ei) as (modes & Em & Lm & Nm). rewrite Em. cbn [bind].
      assert (Lcm : length modes = length cur) by lia.
      assert (Lcw : length w = length cur) by lia.
      assert (Lci : length cur = length (map Z.to_nat tr)) by (rewrite map_length; exact Lcur).
      destruct (images_gen pos (map Z.to_nat tr) cur modes w Lcm Lcw Lci NDi Rgi phases P LP HP) as (P' & EP & LP' & HP'). rewrite EP.
      destruct (IH P' Hr2 LP' HP') as (evs & Ef & Ff). rewrite Ef. eexists. split; [reflexivity|].
      constructor; [|exact Ff]. exists i, (map (fun x => image pos (map Z.to_nat tr) cur modes w x) phases). split; [exact Ri|]. split; [reflexivity|].
      split; [unfold phases, num_images; rewrite !map_length, seq_length; reflexivity|].
      intros j f Hf. rewrite nth_error_map in Hf. unfold phases in Hf. rewrite nth_error_map in Hf.
      destruct (nth_error (seq 0 num_images) j) as [j'|] eqn:EJ; [|discriminate].
      assert (HS : forall (a b : list (v3 R)), Some a = Some b -> a = b) by congruence.
      assert (Hf2 : f = image pos (map Z.to_nat tr) cur modes w (INR j' * (2 * PI / INR num_images))%R) by (symmetry; apply HS; exact Hf).
      assert (Hj : j < num_images) by (rewrite <- (seq_length num_images 0); apply nth_error_Some; congruence).
      assert (j' = j).
      { rewrite (nth_error_nth' _ 0) in EJ by (rewrite seq_length; assumption). rewrite seq_nth in EJ by assumption. clear -EJ. cbn [plus] in EJ. congruence. }
      subst j'. rewrite Hf2. clear Hf Hf2.
      unfold image. set (X := (INR j * (2 * PI / INR num_images))%R).
      assert (EX : X = phase j) by (unfold X, phase, num_images; replace (INR 30) with 30%R by (cbn; lra); field).
      destruct (zip3_spec (fun p d m => vadd p (vdivsqrt (vscale (sin X) d) m)) cur modes w Lcm Lcw) as (rows & Ez & Lr & Nr).
      rewrite Ez. apply (assigned_frame pos tr cur); try assumption; [lia|].
      intros a p Ha. assert (Ha' : a < length tr) by (rewrite <- Lcur; apply nth_error_Some; congruence).
      rewrite (Nr a p _ _ Ha (Nm a Ha') (Nw a Ha')). f_equal. f_equal. rewrite <- EX.
      unfold vdivsqrt, vscale, amplitude, part. cbn [vx vy vz]. f_equal; change (@fmul R Fld_R) with Rmult; unfold Rdiv; ring. }
    apply Main; [exact Hinds|reflexivity|reflexivity].
  Qed.
  (** A frame is determined by the positions, the selection and the phase. *)
  Lemma frame_unique pos tr amp t f f' : Forall (fun z => 0 <= z)%Z tr -> is_frame pos tr amp t f -> is_frame pos tr amp t f' -> f = f'.
  Proof.
    intros Rg (L & U & S0) (L' & U' & S'). apply nth_ext_eq; [congruence|]. intro i.
    destruct (nth_error pos i) as [p|] eqn:Ep.
    - destruct (in_dec Z.eq_dec (Z.of_nat i) tr) as [I|I].
      + destruct (In_nth_error _ _ I) as [a Ha]. rewrite (S0 a i p Ha Ep), (S' a i p Ha Ep). reflexivity.
      + rewrite (U i p Ep I), (U' i p Ep I). reflexivity.
    - apply nth_error_None in Ep. rewrite (proj2 (nth_error_None f i)) by lia. rewrite (proj2 (nth_error_None f' i)) by lia. reflexivity.
  Qed.
  (** When ASE reads the positions the unit cell has, the animation and the trajectory file show
      the same structures: each animation holds exactly the thirty frames printed in the file of
      the same mode. *)
  Theorem animation_is_the_trajectory : forall row kname folder n (u : cell R) o pos tr ms mx lns V k,
    c_cart u = Some pos -> c_true u = Some tr -> Forall (fun z => 0 <= z < Z.of_nat (length pos))%Z tr -> NoDup tr -> tr <> [] ->
    c_mass u = Some ms -> length ms = 3 * length tr -> largest ms mx -> n = 3 * length tr ->
    vasp_lines row (set_selective u false) "unknown system" = Ok lns -> m_mode o = Some V -> m_k o = Some k ->
    Forall (fun ind => - Z.of_nat n <= ind < Z.of_nat n)%Z (m_inds o) ->
    exists files evs, mode_write row kname n u o = (files, None) /\ mode_plot folder n u o (Ok pos) = (evs, None) /\
      Forall2 (fun f ev => exists name images, ev = Animation name images /\ length images = 30 /\
         snd f = firstn 7 lns ++ flat_map (fun j => frame_lines row (nth j images []) j) (seq 0 30)) files evs.
  Proof.
    intros row kname folder n u o pos tr ms mx lns V k Hp Htr Rg ND NE Hms Lms Hmx Hn Hl HV Hk Hi.
    destruct (trajectory_content row kname n u o pos tr ms mx lns V k Hp Htr Rg ND NE Hms Lms Hmx Hn Hl HV Hk Hi) as (files & EF & FF).
    destruct (animation_content folder n u o pos tr ms mx V Htr Rg ND NE Hms Lms Hmx Hn HV Hi) as (evs & EE & FE).
    exists files, evs. split; [exact EF|]. split; [exact EE|].
    assert (Rg0 : Forall (fun z => 0 <= z)%Z tr) by (eapply Forall_impl; [|exact Rg]; cbv beta; intros; lia).
    clear EF EE Hi. revert evs FE. induction FF as [|ind f inds fs (N & i & frame & RN & FR & SF) _ IH]; intros evs FE; inversion FE as [|? ev ? evs' (i' & images & RN' & -> & LI & FI) FE']; subst; constructor; [|apply IH; exact FE'].
    exists (in_folder folder ("Trajectory_" ++ z_string ind ++ ".traj")), images. split; [reflexivity|]. split; [exact LI|]. rewrite SF. f_equal.
    assert (i' = i) by (destruct RN as [? [?|?]]; destruct RN' as [? [?|?]]; lia). subst i'.
    rewrite !flat_map_concat_map. f_equal. apply map_ext_in. intros j Hj. apply in_seq in Hj. f_equal.
    apply (frame_unique pos tr (amplitude V i ms mx) (sin (phase j))); [exact Rg0|apply FR; lia|]. apply FI. apply nth_error_nth'. lia.
  Qed.
End Animation.

(** ---- the premises of C98 hold for the program's own parts ---- *)
(** the symmetric force constants of the model (SymRun.v), with the lengths of the lattice
    vectors, 1/sqrt(2) and the axes of the plane as parameters *)
Definition program_forces (fuel : nat) (norms : cell Qc -> v3 Qc) (hs : Qc) (plane : args -> nat * nat * nat)
    (m : fmat Qc) (u s : cell Qc) (a : args) (rd : string -> result (list (v3 Qc))) (files : list string) : fmat Qc * option err :=
  match a_disp a with
  | None => (m, Some EType)
  | Some d => SymRun.postprocess_sym rd fuel (norms u) hs (plane a) u s d m files
  end.
Theorem program_forces_repeatable : forall fuel norms hs plane g, repeatable (program_forces fuel norms hs plane) g.
Proof.
  intros fuel norms hs plane g _ m u s a rd m' H. unfold program_forces in *. destruct (a_disp a) as [d|]; [|discriminate]. exact (postprocess_sym_twice _ _ _ _ _ _ _ _ _ _ _ H).
Qed.
Theorem accepted_labels_fit : forall e da, get_dos_args e = Ok da -> labels_fit da.
Proof.
  intros e da H. unfold get_dos_args in H.
  destruct (py_float _); cbn [bind] in H; [|discriminate]. destruct (py_int _); cbn [bind] in H; [|discriminate]. destruct (as_str (e "option_dos"%string)) as [opt|]; cbn [bind] in H; [|discriminate].
  match type of H with (let! (x, y) := ?t in _) = _ => destruct t as [[atom opt']|]; cbn [bind] in H; [|discriminate] end.
  match type of H with (let! x := ?t in _) = _ => destruct t as [legend|] eqn:EL; cbn [bind] in H; [|discriminate] end.
  destruct (energy_limit _); cbn [bind] in H; [|discriminate]. injection H as <-. unfold labels_fit. cbn [da_legend da_atom].
  assert (X : legend = None \/ exists l a, legend = Some l /\ atom = Some a /\ length l = length a).
  { destruct (e "legend_dos"%string) eqn:EE.
    { injection EL as <-. auto. }
    all: match type of EL with (let! x := ?t in _) = _ => destruct t as [s0|]; cbn [bind] in EL; [|discriminate] end.
    all: destruct (String.eqb opt' "plain"); [injection EL as <-; auto|].
    all: destruct atom as [ats|]; [|discriminate].
    all: destruct (Nat.eqb_spec (length (map strip (split_on "," (strip s0)))) (length ats)) as [E|]; [|discriminate].
    all: injection EL as <-; right; eexists _, _; repeat split; exact E. }
  destruct X as [-> |(l & ats & -> & -> & E)]; [exact I|exact E].
Qed.

(** ---- C102: an amplitude given in the option file (a text, C66) ---- *)
(** structures MPOSCAR *)
Definition is_structure (ev : event) : bool := match ev with Structure _ _ _ => true | _ => false end.
Theorem text_amplitude_fails : forall search sym_forces eig argsort junk bad set_text row kname ase g e dos th ba kb ma s,
  ma_write ma = true -> ma_index ma <> [] -> ma_amplitude ma = VStr s ->
  let '(E, r) := analyses search sym_forces eig argsort junk bad set_text row kname ase g e dos th (Some (ba, kb)) (Some ma) in
  (exists er, r = Err er) /\ filter is_structure E = [].
Proof.
  intros search sym_forces eig argsort junk bad set_text row kname ase g e dos th ba kb ma s HW HI HA.
  assert (W : forall l, Forall (fun ev => is_structure ev = false) l -> filter is_structure l = []).
  { induction 1 as [|z l HZ _ IH]; cbn; [reflexivity|]. rewrite HZ. exact IH. }
  set (P := fun ev => is_structure ev = false) in *.
  assert (FA : forall l, Forall P (as_files l)) by (induction l as [|[n c] l IH]; constructor; [reflexivity|exact IH]).
  assert (DR : forall r, Forall P (fst (draws r))) by (intros [[f|]|]; cbn; repeat constructor).
  assert (EV : forall x old kv, Forall P (fst (evaluate eig argsort junk bad g x old kv))).
  { intros x old kv. unfold evaluate. repeat (apply andthen_all; [apply quiet_all|intros ? _]). apply andthen_all; [|intros; apply quiet_all].
    unfold writes. cbn [fst]. destruct (gamma_write bad a1) as [[[n l] er]|]; cbn; repeat constructor. }
  assert (MP : forall folder x p, Forall P (fst (mode_part row kname ase g folder x p ma)) /\ forall u, snd (mode_part row kname ase g folder x p ma) <> Ok u).
  { intros folder x p. unfold mode_part. rewrite HW.
    destruct (match ma_k ma with [a; b; c] => Ok (V3 a b c) | _ => Err EExc end) as [k|]; [|split; [constructor|discriminate]]. rewrite quiet_andthen.
    destruct (mode_set _ _ _ _) as [o [er|]] eqn:EO; [split; [constructor|discriminate]|]. rewrite quiet_andthen.
    destruct (mode_set_parts _ _ _ _ EO) as (I1 & _).
    destruct (mode_write row kname (p_n p) (cell_R (pp_unit x)) o) as [fs er]. unfold writes at 1 3. cbn [fst snd].
    destruct er as [er|]; [cbn [andthen]; split; [apply FA|discriminate]|].
    set (w2 := mode_plot _ _ _ _ _).
    assert (W2 : Forall P (fst w2)).
    { unfold w2, mode_plot. destruct (let! atom := _ in _) as [[[[at0 idx] cur] w]|]; [|constructor]. clear I1. generalize at0 as at1. induction (m_inds o) as [|i r IH]; intro at1; cbn [animate]; [constructor|].
      destruct (let! V := _ in _) as [[a1 l]|]; [|constructor]. specialize (IH a1). destruct (animate folder _ o a1 idx cur w r). cbn in *. constructor; [reflexivity|exact IH]. }
    destruct w2 as [l2 [er|]]; unfold writes; cbn [fst snd andthen] in *.
    - split; [apply Forall_app; split; [apply FA|exact W2]|discriminate].
    - rewrite I1, HA. destruct (ma_index ma) as [|i0 r0]; [congruence|]. cbn [amplitude_value quiet andthen]. rewrite app_nil_r.
      split; [apply Forall_app; split; [apply FA|exact W2]|discriminate]. }
  assert (BS : forall folder f, Forall P (fst (band_stage search sym_forces eig argsort junk bad set_text row kname ase g folder e f ba kb (Some ma))) /\
    forall a, snd (band_stage search sym_forces eig argsort junk bad set_text row kname ase g folder e f ba kb (Some ma)) <> Ok a).
  { intros folder f. split.
    - unfold band_stage. apply andthen_all; [apply quiet_all|intros ? _]. apply andthen_all; [apply EV|intros ? _]. apply andthen_all; [|intros; apply quiet_all].
      unfold band_part. apply andthen_all; [apply quiet_all|intros ? _]. apply andthen_all; [apply FA|intros ? _]. apply andthen_all; [apply DR|intros ? _].
      apply andthen_all; [destruct f as [[[[? ?] ?] ?]|]; [apply DR|apply quiet_all]|intros ? _]. apply MP.
    - intros a H.
      destruct (band_stage search sym_forces eig argsort junk bad set_text row kname ase g folder e f ba kb (Some ma)) as [l r] eqn:H'. cbn [snd] in H. subst r. unfold band_stage in H'.
      apply andthen_ok in H'. destruct H' as (? & x & ? & _ & H' & _). apply andthen_ok in H'. destruct H' as (? & p & ? & _ & H' & _).
      apply andthen_ok in H'. destruct H' as (? & [] & ? & H' & _ & _). unfold band_part in H'.
      apply andthen_ok in H'. destruct H' as (? & ? & ? & _ & H' & _). apply andthen_ok in H'. destruct H' as (? & ? & ? & _ & H' & _).
      apply andthen_ok in H'. destruct H' as (? & ? & ? & _ & H' & _). apply andthen_ok in H'. destruct H' as (? & ? & ? & _ & H' & _).
      apply (proj2 (MP folder x p) tt). rewrite H'. reflexivity. }
  assert (DS : forall folder da kd, Forall P (fst (dos_stage search sym_forces eig argsort junk bad set_text g folder e da kd th))).
  { intros folder da kd. unfold dos_stage. apply andthen_all; [apply quiet_all|intros ? _]. apply andthen_all; [apply EV|intros ? _]. apply andthen_all; [|intros; apply quiet_all].
    unfold dos_part. repeat (apply andthen_all; [apply quiet_all|intros ? _]). apply andthen_all; [destruct (dos_write _ _ _ _); apply FA|intros ? _]. apply andthen_all; [apply DR|intros ? _].
    apply andthen_all; [|intros; apply quiet_all]. destruct th; [|apply quiet_all]. unfold thermal_part. apply andthen_all; [apply FA|intros; apply DR]. }
  destruct dos as [dk|].
  - rewrite analyses_both. cbv zeta. set (folder := folder_text _). specialize (DS folder (fst dk) (snd dk)).
    destruct (dos_stage _ _ _ _ _ _ _ _ _ _ _ _ _) as [l [r|er]]; cbn [andthen fst snd] in *; [|split; [eexists; reflexivity|apply W; exact DS]].
    destruct (BS folder (Some r)) as [B1 B2]. destruct (band_stage _ _ _ _ _ _ _ _ _ _ _ _ _ _ _ _ _) as [l2 [a|er]]; cbn [andthen fst snd] in *; [destruct (B2 a); reflexivity|].
    split; [eexists; reflexivity|]. apply W. apply Forall_app. auto.
  - rewrite analyses_band. cbv zeta. set (folder := folder_text _). destruct (BS folder None) as [B1 B2].
    cbn [fst snd]. destruct (band_stage _ _ _ _ _ _ _ _ _ _ _ _ _ _ _ _ _) as [l2 [a|er]]; cbn [andthen fst snd] in *; [destruct (B2 a); reflexivity|].
    split; [eexists; reflexivity|]. apply W. exact B1.
Qed.

(** One of two atoms is selected, one mode, taken from the end: thirty structures. *)
Example animation_example :
  let pos := [V3 0 0 0; V3 1 2 3]%R in
  let u := mkCell (A := R) None None None false None (Some pos) (Some [1%Z]) (Some [1; 1; 1]%Z) (Some [2; 2; 2]%R) in
  let o := mkMode [(-1)%Z] (Some (V3 (Q2Qc 0) (Q2Qc 0) (Q2Qc 0))) (Some (fun _ _ => RtoC 1)) in
  exists images, mode_plot "here" 3 u o (Ok pos) = ([Animation "here/Trajectory_-1.traj" images], None) /\ length images = 30.
Proof.
  intros pos u o.
  destruct (animation_content "here" 3 u o pos [1%Z] [2; 2; 2]%R 2%R (fun _ _ => RtoC 1) eq_refl) as (evs & H & F); try reflexivity.
  - repeat constructor; cbn; lia.
  - repeat constructor. intros [].
  - discriminate.
  - split; [left; reflexivity|]. intros m [<-|[<-|[<-|[]]]]; lra.
  - repeat constructor; cbn; lia.
  - inversion F as [|? ev ? evs' (i & images & _ & -> & L & _) F']; subst. inversion F'; subst. exists images. split; [exact H|exact L].
Qed.

Print Assumptions both_analyses_in_one_run.
Print Assumptions failing_dos_ends_the_run.
Print Assumptions failing_band_keeps_the_dos.
Print Assumptions record_iff_success.
Print Assumptions files_of_a_run.
Print Assumptions animation_content.
Print Assumptions animation_is_the_trajectory.
Print Assumptions program_forces_repeatable.
Print Assumptions accepted_labels_fit.
Print Assumptions text_amplitude_fails.
