(** The smeared density of states holds every mode once: the property C107.  Model: Report.v; the
    integral of the normal distribution is in Gauss.v. *)
From Coq Require Import Reals Qreals.
From Coquelicot Require Import Coquelicot.
From Coq Require Import String Ascii ZArith QArith Qcanon Bool Lia Lra Arith Sorting Permutation List.
From Verif Require Import PropsSmear Base Dec Field Args ArgsFacts Cell Text TextFacts Force KPoints Cli PropsCli Session Run Phonon PhononFacts PropsModes Band Thermal PropsThermal Dos DosFacts PropsDos Mode Output OutputFacts
  PropsOutput Plot PropsPlot Report ReportFacts PropsReport PropsFinish PropsContent.
From Verif Require Gauss.
Import ListNotations.
Local Open Scope R_scope.

(** * The normal distribution *)
Definition whole_line (f : R -> R) (m : R) : Prop := is_RInt_gen f (Rbar_locally m_infty) (Rbar_locally p_infty) m.

Lemma G_odd t : Gauss.G (- t) = - Gauss.G t.
Proof.
  unfold Gauss.G. apply (is_RInt_unique (V := R_CompleteNormedModule)).
  apply (is_RInt_ext (V := R_NormedModule) (fun y => opp (opp (Gauss.e2 (- y))))).
  { intros y _. unfold opp. cbn. rewrite Ropp_involutive. unfold Gauss.e2. f_equal. ring. }
  apply (is_RInt_opp (V := R_NormedModule) (fun y => opp (Gauss.e2 (- y)))).
  apply (is_RInt_comp_opp (V := R_NormedModule) Gauss.e2 0 (- t)).
  rewrite Ropp_0, Ropp_involutive. apply (RInt_correct (V := R_CompleteNormedModule)), Gauss.e2_int.
Qed.
Lemma sigma_scale sigma : 0 < sigma -> 0 < sigma * sqrt 2.
Proof. intros S. apply Rmult_lt_0_compat; [exact S|apply sqrt_lt_R0; lra]. Qed.
Lemma bell_e2 sigma w f : 0 < sigma ->
  bell sigma w f = / sqrt PI * (/ (sigma * sqrt 2) * Gauss.e2 (/ (sigma * sqrt 2) * f + - (/ (sigma * sqrt 2) * w))).
Proof.
  intros S. pose proof (sigma_scale sigma S) as SS. pose proof PI_RGT_0. assert (0 < sqrt 2) by (apply sqrt_lt_R0; lra). assert (0 < sqrt PI) by (apply sqrt_lt_R0; lra).
  unfold bell, Gauss.e2. rewrite sqrt_mult by lra. assert (Q : sqrt 2 * sqrt 2 = 2) by (apply sqrt_sqrt; lra).
  replace (- ((/ (sigma * sqrt 2) * f + - (/ (sigma * sqrt 2) * w)) * (/ (sigma * sqrt 2) * f + - (/ (sigma * sqrt 2) * w)))) with (- (f - w) ^ 2 / (2 * sigma ^ 2)).
  - field. repeat split; lra.
  - rewrite <- Q at 1. field. split; lra.
Qed.
(** the distribution function *)
Definition below (sigma w x : R) : R := / sqrt PI * Gauss.G (/ (sigma * sqrt 2) * x + - (/ (sigma * sqrt 2) * w)).
Lemma bell_between sigma w a b : 0 < sigma -> is_RInt (bell sigma w) a b (below sigma w b - below sigma w a).
Proof.
  intros S. set (c := / (sigma * sqrt 2)). set (v := - (c * w)).
  apply (is_RInt_ext (V := R_NormedModule) (fun f => scal (/ sqrt PI) (scal c (Gauss.e2 (c * f + v))))).
  { intros f _. rewrite bell_e2 by exact S. reflexivity. }
  replace (below sigma w b - below sigma w a) with (scal (/ sqrt PI) (minus (Gauss.G (c * b + v)) (Gauss.G (c * a + v)))).
  2:{ unfold below, scal, minus, plus, opp. cbn. unfold mult. cbn. fold c. fold v. ring. }
  apply (is_RInt_scal (V := R_NormedModule)). apply (is_RInt_comp_lin (V := R_NormedModule) Gauss.e2 c v a b).
  apply (is_RInt_ext (V := R_NormedModule) Gauss.e2); [reflexivity|].
  replace (minus (Gauss.G (c * b + v)) (Gauss.G (c * a + v))) with (plus (opp (Gauss.G (c * a + v))) (Gauss.G (c * b + v))) by (unfold minus, plus, opp; cbn; ring).
  apply (is_RInt_Chasles (V := R_NormedModule)) with 0.
  - apply (is_RInt_swap (V := R_NormedModule)), (RInt_correct (V := R_CompleteNormedModule)), Gauss.e2_int.
  - apply (RInt_correct (V := R_CompleteNormedModule)), Gauss.e2_int.
Qed.
Lemma below_high sigma w : 0 < sigma -> is_lim (below sigma w) p_infty (1 / 2).
Proof.
  intros S. pose proof (Rinv_0_lt_compat _ (sigma_scale sigma S)) as C. set (c := / (sigma * sqrt 2)) in *.
  assert (P : 0 < sqrt PI) by (apply sqrt_lt_R0, PI_RGT_0).
  replace (Finite (1 / 2)) with (Rbar_mult (/ sqrt PI) (sqrt PI / 2)) by (cbn; f_equal; field; lra).
  apply is_lim_scal_l. apply (is_lim_comp Gauss.G _ p_infty _ p_infty); [apply Gauss.G_limit| |exists 0; intros; discriminate].
  fold c. apply is_lim_spec. intros M. exists (w + M / c). intros x Hx.
  apply (Rmult_lt_compat_l c) in Hx; [|exact C]. replace (c * (w + M / c)) with (c * w + M) in Hx by (field; lra). lra.
Qed.
Lemma below_mirror sigma w x : below sigma w x = - below sigma w (2 * w - x).
Proof.
  unfold below. set (c := / (sigma * sqrt 2)). replace (c * x + - (c * w)) with (- (c * (2 * w - x) + - (c * w))) by ring. rewrite G_odd. ring.
Qed.
Lemma below_low sigma w : 0 < sigma -> is_lim (below sigma w) m_infty (- (1 / 2)).
Proof.
  intros S. apply (is_lim_ext (fun x => - below sigma w (2 * w - x))); [intros; symmetry; apply below_mirror|].
  apply (is_lim_opp (fun x => below sigma w (2 * w - x)) m_infty (1 / 2)).
  apply (is_lim_comp (below sigma w) _ m_infty _ p_infty); [apply below_high; exact S| |exists 0; intros; discriminate].
  apply is_lim_spec. intros M. exists (2 * w - M). intros x Hx. lra.
Qed.
Lemma whole_bell sigma w : 0 < sigma -> whole_line (bell sigma w) 1.
Proof.
  intros S. unfold whole_line, is_RInt_gen. intros P HP.
  assert (L : filterlim (fun ab : R * R => plus (below sigma w (snd ab)) (opp (below sigma w (fst ab)))) (filter_prod (Rbar_locally m_infty) (Rbar_locally p_infty)) (locally 1)).
  { replace (locally 1) with (locally (plus (1 / 2) (opp (- (1 / 2))))) by (f_equal; unfold plus, opp; cbn; lra).
    apply (filterlim_comp_2 (G := locally (1 / 2)) (H := locally (opp (- (1 / 2))))).
    - apply (filterlim_comp _ _ _ snd (below sigma w) _ (Rbar_locally p_infty)); [apply filterlim_snd|exact (below_high sigma w S)].
    - apply (filterlim_comp _ _ _ (fun ab : R * R => below sigma w (fst ab)) opp _ (locally (- (1 / 2)))).
      + apply (filterlim_comp _ _ _ fst (below sigma w) _ (Rbar_locally m_infty)); [apply filterlim_fst|exact (below_low sigma w S)].
      + apply (filterlim_opp (V := R_NormedModule)).
    - apply (filterlim_plus (V := R_NormedModule)). }
  specialize (L P HP). unfold filtermap in L. unfold filtermapi. revert L. apply filter_imp. intros [a b] H. cbn [fst snd] in *.
  exists (below sigma w b - below sigma w a). split; [apply bell_between; exact S|exact H].
Qed.
(** at most exp (-t^2 / (2 sigma^2)) of it is further than t from its centre *)
Lemma bell_tail sigma w t a b : 0 < sigma -> 0 <= t -> a <= w - t -> w + t <= b ->
  1 - exp (- t ^ 2 / (2 * sigma ^ 2)) <= below sigma w b - below sigma w a.
Proof.
  intros S T A B. pose proof (Rinv_0_lt_compat _ (sigma_scale sigma S)) as C. set (c := / (sigma * sqrt 2)) in *. pose proof PI_RGT_0.
  assert (P : 0 < sqrt PI) by (apply sqrt_lt_R0, PI_RGT_0).
  assert (Q : forall x, 0 <= x -> sqrt PI / 2 * (1 - exp (- (x * x))) <= Gauss.G x).
  { intros x X. pose proof (Gauss.G_pos x X) as GP. pose proof (Gauss.sum_const x X) as SC. pose proof (Gauss.H_sharp x) as HB.
    assert (E : 0 < exp (- (x * x)) <= 1) by (split; [apply exp_pos|]; rewrite <- exp_0; destruct (Req_dec x 0) as [->|N]; [right; f_equal; ring|left; apply exp_increasing; nra]).
    set (e := exp (- (x * x))) in *. assert (SP : sqrt PI * sqrt PI = PI) by (apply sqrt_sqrt; lra). set (s := sqrt PI) in *.
    assert (LE : (s / 2 * (1 - e)) * (s / 2 * (1 - e)) <= Gauss.G x * Gauss.G x).
    { replace ((s / 2 * (1 - e)) * (s / 2 * (1 - e))) with (s * s / 4 * ((1 - e) * (1 - e))) by field. rewrite SP. nra. }
    apply Rsqr_incr_0; [exact LE| |exact GP]. apply Rmult_le_pos; lra. }
  assert (MONO : forall x y, x <= y -> Gauss.G x <= Gauss.G y).
  { intros x y XY. unfold Gauss.G. assert (CH : RInt Gauss.e2 0 x + RInt Gauss.e2 x y = RInt Gauss.e2 0 y) by exact (RInt_Chasles (V := R_CompleteNormedModule) Gauss.e2 0 x y (Gauss.e2_int 0 x) (Gauss.e2_int x y)).
    assert (0 <= RInt Gauss.e2 x y) by (apply RInt_ge_0; [exact XY|apply Gauss.e2_int|intros z _; apply Rlt_le, Gauss.e2_pos]). lra. }
  assert (B1 : Gauss.G (c * t) <= Gauss.G (c * b + - (c * w))) by (apply MONO; nra).
  assert (A1 : Gauss.G (c * a + - (c * w)) <= - Gauss.G (c * t)) by (rewrite <- G_odd; apply MONO; nra).
  specialize (Q (c * t) ltac:(nra)).
  replace (- t ^ 2 / (2 * sigma ^ 2)) with (- (c * t * (c * t))).
  2:{ unfold c. assert (0 < sqrt 2) by (apply sqrt_lt_R0; lra). assert (Q2 : sqrt 2 * sqrt 2 = 2) by (apply sqrt_sqrt; lra). rewrite <- Q2 at 3. field. split; lra. }
  unfold below. fold c. replace (/ sqrt PI * Gauss.G (c * b + - (c * w)) - / sqrt PI * Gauss.G (c * a + - (c * w))) with ((Gauss.G (c * b + - (c * w)) - Gauss.G (c * a + - (c * w))) / sqrt PI) by (field; lra).
  apply Rmult_le_reg_r with (sqrt PI); [exact P|]. match goal with |- _ <= ?X / _ * _ => replace (X / sqrt PI * sqrt PI) with X by (field; lra) end. lra.
Qed.

(** * Sums of them *)
Definition density (sigma : R) (fs : list R) (nk : nat) (f : R) : R := sumR (map (fun w => bell sigma w f) fs) / INR nk.
Lemma zero_int a b : is_RInt (fun _ : R => 0) a b 0.
Proof. exact (eq_ind _ (fun z : R => is_RInt (fun _ : R => 0) a b z) (is_RInt_const (V := R_NormedModule) a b 0) 0 (Rmult_0_r (b - a))). Qed.
Lemma whole_sum sigma fs : 0 < sigma -> whole_line (fun f => sumR (map (fun w => bell sigma w f) fs)) (INR (length fs)).
Proof.
  intros S. induction fs as [|w fs IH].
  - cbn [map sumR length INR]. unfold whole_line, is_RInt_gen. intros P HP. unfold filtermapi. apply filter_forall. intros [a b]. exists 0. split; [|apply locally_singleton; exact HP].
    apply zero_int.
  - cbn [length map sumR]. rewrite S_INR, Rplus_comm. 
    exact (is_RInt_gen_plus (V := R_NormedModule) (Fa := Rbar_locally m_infty) (Fb := Rbar_locally p_infty) (bell sigma w) (fun f => sumR (map (fun w => bell sigma w f) fs)) 1 (INR (length fs)) (whole_bell sigma w S) IH).
Qed.
Lemma whole_density sigma fs nk : 0 < sigma -> whole_line (density sigma fs nk) (INR (length fs) / INR nk).
Proof.
  intros S. unfold density, Rdiv. rewrite Rmult_comm.
  pose proof (is_RInt_gen_scal (V := R_NormedModule) (Fa := Rbar_locally m_infty) (Fb := Rbar_locally p_infty) (fun f => sumR (map (fun w => bell sigma w f) fs)) (/ INR nk) (INR (length fs)) (whole_sum sigma fs S)) as H.
  unfold whole_line. revert H. unfold scal. cbn. unfold mult. cbn. intros H.
  apply (is_RInt_gen_ext (V := R_NormedModule) (fun y => / INR nk * sumR (map (fun w => bell sigma w y) fs))); [|exact H].
  apply filter_forall. intros ab y _. apply Rmult_comm.
Qed.
Lemma sum_between sigma fs a b t : 0 < sigma -> 0 <= t -> (forall w, In w fs -> a <= w - t /\ w + t <= b) ->
  exists m, is_RInt (fun f => sumR (map (fun w => bell sigma w f) fs)) a b m /\ INR (length fs) * (1 - exp (- t ^ 2 / (2 * sigma ^ 2))) <= m.
Proof.
  intros S T. induction fs as [|w fs IH]; intros HF.
  - exists 0. split; [cbn [map sumR]; apply zero_int|]. cbn. lra.
  - destruct IH as (m & I1 & I2); [intros; apply HF; right; assumption|]. destruct (HF w (or_introl eq_refl)) as (A & B).
    exists (plus (below sigma w b - below sigma w a) m). split.
    + cbn [map sumR]. exact (is_RInt_plus (V := R_NormedModule) (bell sigma w) (fun f => sumR (map (fun w => bell sigma w f) fs)) a b _ m (bell_between sigma w a b S) I1).
    + pose proof (bell_tail sigma w t a b S T A B). cbn [length]. rewrite S_INR, Rmult_plus_distr_r, Rmult_1_l, Rplus_comm. apply Rplus_le_compat; assumption.
Qed.
Lemma bell_pos sigma w f : 0 < sigma -> 0 < bell sigma w f.
Proof. intros S. unfold bell. apply Rdiv_lt_0_compat; [apply exp_pos|]. apply Rmult_lt_0_compat; [exact S|]. apply sqrt_lt_R0. pose proof PI_RGT_0. lra. Qed.

Section Run.
  Variable search : cell Qc -> cell Qc -> args -> result (option (string * list (nat * (v3 Qc * list (v3 Qc))))).
  Variable sym_forces : fmat Qc -> cell Qc -> cell Qc -> args -> (string -> result (list (v3 Qc))) -> list string -> fmat Qc * option err.
  Variable eig : nat -> cmat -> list C * cmat.
  Variable argsort : list R -> list nat.
  Variable junk : nat -> nat -> R.
  Variable bad : string.
  Variable set_text : list Z -> string.
  Variable row : v3 R -> string.
  Variable kname : v3 Qc -> string.
  Variable ase : path -> string -> result (list (v3 R)).

  (** A post-process with a smeared density of states that succeeds: the values in
      total_dos.dat are those of a positive density whose integral over all frequencies is the
      number of selected coordinates of the unit cell: every mode counts once.  The printed range
      of frequencies, from lo - 2 to hi + 2 THz, holds all of it but a part exp (-2 / sigma^2). *)
  Theorem smeared_states_hold_every_mode : forall g e da kd th band mo E,
    TextFacts.word bad -> eig_unit eig -> argsort_ok argsort -> (0 < toR (da_sigma da))%R ->
    analyses search sym_forces eig argsort junk bad set_text row kname ase g e (Some (da, kd)) th band mo = (E, Ok tt) ->
    let sigma := toR (da_sigma da) in let num := Z.to_nat (da_num da) in
    exists x xyz lo hi total (states : R -> R) inside,
      prepared_as search sym_forces g x /\ c_xyz (pp_unit x) = Some xyz /\
      In (Report.File (folder_text (removelast (resolve (g_cwd g) (g_unit g))) ++ "/total_dos.dat") total) E /\
      is_table bad total (map (fun i => let f := sample lo hi num i in [Some f; Some (states f)]) (seq 0 num)) /\
      (forall f, 0 < states f)%R /\ whole_line states (INR (length xyz)) /\
      is_RInt states (lo - 2) (hi + 2) inside /\ (INR (length xyz) * (1 - exp (- 2 / sigma ^ 2)) <= inside)%R.
  Proof.
    intros g e da kd th band mo E HB EU HA HS H sigma num.
    destruct (dos_files_of_a_run search sym_forces eig argsort junk bad set_text row kname ase g e da kd th band mo E HB EU HA (Rgt_not_eq _ _ HS) H)
      as (x & ks & ms & xyz & lo & hi & total & projected & P1 & P2 & P3 & P4 & P5 & _ & _ & P8 & _).
    fold sigma num in P8, HS.
    assert (CNT : length (frequencies_at ms) = (length ks * length xyz)%nat /\ length ks <> 0%nat).
    { destruct P2 as (f & t & kind & L & F1 & F2 & F3 & F4 & F5). apply phonon_results_in_k_order in F5. cbn [cell_R c_xyz] in F5.
      assert (LF : length (frequencies_at ms) = (length ks * length xyz)%nat).
      { unfold frequencies_at. rewrite <- (map_length kR ks). clear -F5 EU HA P4. induction F5 as [|k m l l' (D & at_ & _ & EA & ->) _ IH]; [reflexivity|].
        cbn [map concat length Nat.mul]. rewrite app_length, IH. assert (at_ = xyz) by congruence. subst at_. destruct (modes_at_formed eig argsort (length xyz) D EU HA) as (-> & _). reflexivity. }
      split; [exact LF|]. intros Z. rewrite Z in LF. destruct P3 as (I & _). destruct (frequencies_at ms); [contradiction|discriminate LF]. }
    destruct CNT as (CNT & NK). assert (NKR : INR (length ks) <> 0%R) by (apply not_0_INR; exact NK).
    assert (FR : (INR (length (frequencies_at ms)) / INR (length ks))%R = INR (length xyz)) by (rewrite CNT, mult_INR; field; exact NKR).
    destruct P3 as (L1 & L2 & L3).
    destruct (sum_between sigma (frequencies_at ms) (lo - 2) (hi + 2) 2 HS) as (m & I1 & I2); [lra|intros w Hw; specialize (L3 w Hw); lra|].
    exists x, xyz, lo, hi, total, (density sigma (frequencies_at ms) (length ks)), (/ INR (length ks) * m)%R.
    split; [exact P1|]. split; [exact P4|]. split; [exact P5|]. split; [exact P8|]. split.
    { intros f. unfold density. apply Rdiv_lt_0_compat; [|apply lt_0_INR; lia]. clear -L1 HS. revert L1. generalize (frequencies_at ms). intros l.
      assert (NN : forall l, (0 <= sumR (map (fun w => bell sigma w f) l))%R) by (induction l0 as [|w l0 IH]; cbn [map sumR]; [lra|pose proof (bell_pos sigma w f HS); lra]).
      destruct l as [|w l]; [intros []|intros _]. cbn [map sumR]. pose proof (bell_pos sigma w f HS). specialize (NN l). lra. }
    split; [rewrite <- FR; apply whole_density; exact HS|]. split.
    { apply (is_RInt_ext (V := R_NormedModule) (fun f => scal (/ INR (length ks))%R (sumR (map (fun w => bell sigma w f) (frequencies_at ms))))).
      - intros f _. unfold density, scal. cbn. unfold mult. cbn. apply Rmult_comm.
      - apply (is_RInt_scal (V := R_NormedModule)). exact I1. }
    rewrite <- FR. replace (- 2 / sigma ^ 2)%R with (- 2 ^ 2 / (2 * sigma ^ 2))%R by (field; lra).
    apply Rle_trans with (/ INR (length ks) * (INR (length (frequencies_at ms)) * (1 - exp (- 2 ^ 2 / (2 * sigma ^ 2)))))%R; [right; unfold Rdiv; ring|].
    apply Rmult_le_compat_l; [apply Rlt_le, Rinv_0_lt_compat, lt_0_INR; lia|exact I2].
  Qed.
End Run.
Print Assumptions smeared_states_hold_every_mode.

(** The conditions are met by the run of C103. *)
Example smeared_states_example : forall eig argsort junk bad set_text row kname ase, eig_unit eig -> argsort_ok argsort -> TextFacts.word bad ->
  exists search sf g e da kd th band E, analyses search sf eig argsort junk bad set_text row kname ase g e (Some (da, kd)) th band None = (E, Ok tt) /\ toR (da_sigma da) = (1 / 10)%R /\
    exists n total lo hi (states : R -> R), In (Report.File "/home/me/total_dos.dat" total) E /\ whole_line states (INR n) /\
      is_table bad total (map (fun i => let f := sample lo hi 200 i in [Some f; Some (states f)]) (seq 0 200)).
Proof.
  intros eig argsort junk bad set_text row kname ase EU HA HB.
  destruct (both_analyses_example eig argsort junk bad set_text row kname ase (proj1 EU)) as (x & _ & _ & _ & _ & _ & E & HE & _).
  { intros l. apply (sorted_size argsort), HA. }
  match type of HE with analyses ?s ?f _ _ _ _ _ _ _ _ ?g ?e (Some (?da, ?kd)) ?th ?band _ = _ => exists s, f, g, e, da, kd, th, band, E end.
  split; [exact HE|].
  assert (SG : toR (Q2Qc (1 # 10)) = (1 / 10)%R).
  { unfold toR. replace (this (Q2Qc (1 # 10))) with (1 # 10)%Q by (vm_compute; reflexivity). unfold Q2R. cbn [Qnum Qden]. lra. }
  split; [exact SG|].
  assert (SP : (0 < toR (Q2Qc (1 # 10)))%R) by (rewrite SG; lra).
  pose proof (fun sp => smeared_states_hold_every_mode _ _ eig argsort junk bad set_text row kname ase _ _ _ _ _ _ _ _ HB EU HA sp HE) as T. destruct (T SP) as (x' & xyz & lo & hi & total & states & inside & _ & _ & P1 & P2 & _ & P3 & _).
  exists (length xyz), total, lo, hi, states. split; [exact P1|]. split; [exact P3|exact P2].
Qed.
Print Assumptions smeared_states_example.
