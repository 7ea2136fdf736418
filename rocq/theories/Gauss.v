(** The integral of the normal distribution (mathematics only; models no code). *)
From Coq Require Import Reals Lra.
From Coquelicot Require Import Coquelicot.
Local Open Scope R_scope.

Definition e2 (x : R) : R := exp (- (x * x)).
Lemma e2_pos x : 0 < e2 x. Proof. apply exp_pos. Qed.
Lemma e2_cont x : continuous e2 x.
Proof. apply (ex_derive_continuous (K := R_AbsRing) (V := R_NormedModule)). unfold e2. auto_derive. exact I. Qed.
Lemma e2_int a b : ex_RInt e2 a b.
Proof. apply (ex_RInt_continuous (V := R_CompleteNormedModule)). intros x _. apply e2_cont. Qed.
Definition G (t : R) : R := RInt e2 0 t.
Lemma G_derive t : is_derive G t (e2 t).
Proof. apply (is_derive_RInt e2 G 0 t); [|apply e2_cont]. exists (mkposreal 1 Rlt_0_1). intros y _. apply (RInt_correct (V := R_CompleteNormedModule)), e2_int. Qed.

Definition ker (t x : R) : R := exp (- (t * t * (1 + x * x))) / (1 + x * x).
Lemma one_sq x : 0 < 1 + x * x. Proof. pose proof (Rle_0_sqr x). unfold Rsqr in *. lra. Qed.
Lemma ker_int t a b : ex_RInt (ker t) a b.
Proof. apply (ex_RInt_continuous (V := R_CompleteNormedModule)). intros x _. apply (ex_derive_continuous (K := R_AbsRing) (V := R_NormedModule)). unfold ker. auto_derive. pose proof (one_sq x). lra. Qed.
Definition H (t : R) : R := RInt (ker t) 0 1.
Lemma ker_derive x t : is_derive (fun u => ker u x) t (- 2 * t * exp (- (t * t * (1 + x * x)))).
Proof. unfold ker. auto_derive; [exact I|]. pose proof (one_sq x). field. lra. Qed.
Lemma H_derive t : is_derive H t (- 2 * e2 t * G t).
Proof.
  assert (D : is_derive H t (RInt (fun x => Derive (fun u => ker u x) t) 0 1)).
  { apply (is_derive_RInt_param ker 0 1 t).
    - exists (mkposreal 1 Rlt_0_1). intros y _ x _. eexists. apply ker_derive.
    - intros x _. apply (continuity_2d_pt_ext (fun u v => - 2 * u * exp (- (u * u * (1 + v * v))))).
      + intros u v. symmetry. apply is_derive_unique, ker_derive.
      + apply continuity_2d_pt_mult.
        * apply continuity_2d_pt_mult; [apply continuity_2d_pt_const|apply continuity_2d_pt_id1].
        * apply (continuity_1d_2d_pt_comp exp (fun u v => - (u * u * (1 + v * v)))); [apply derivable_continuous, derivable_exp|].
          apply continuity_2d_pt_opp, continuity_2d_pt_mult; [apply continuity_2d_pt_mult; apply continuity_2d_pt_id1|].
          apply continuity_2d_pt_plus; [apply continuity_2d_pt_const|]. apply continuity_2d_pt_mult; apply continuity_2d_pt_id2.
    - exists (mkposreal 1 Rlt_0_1). intros y _. apply ker_int. }
  replace (- 2 * e2 t * G t) with (RInt (fun x => Derive (fun u => ker u x) t) 0 1); [exact D|].
  rewrite (RInt_ext _ (fun x => (- 2 * e2 t) * (t * e2 (t * x + 0)))).
  2:{ intros x _. transitivity (- 2 * t * exp (- (t * t * (1 + x * x)))); [apply is_derive_unique, ker_derive|]. unfold e2.
      replace (- (t * t * (1 + x * x))) with (- (t * t) + - ((t * x + 0) * (t * x + 0))) by ring. rewrite exp_plus. match goal with |- ?a = ?b => change (@eq R a b) end. ring. }
  assert (S : is_RInt (fun y => scal t (e2 (t * y + 0))) 0 1 (RInt e2 0 t)).
  { apply (is_RInt_comp_lin e2 t 0 0 1). assert (A1 : t * 0 + 0 = 0) by ring. assert (A2 : t * 1 + 0 = t) by ring. rewrite A1, A2. apply (RInt_correct (V := R_CompleteNormedModule)), e2_int. }
  apply (is_RInt_scal _ _ _ (- 2 * e2 t)) in S. exact (is_RInt_unique (V := R_CompleteNormedModule) _ _ _ _ S).
Qed.

Lemma sum_const t : 0 <= t -> G t * G t + H t = PI / 4.
Proof.
  intros Ht. assert (H0 : H 0 = PI / 4).
  { unfold H. rewrite (RInt_ext _ (fun x => / (1 + x ^ 2))).
    2:{ intros x _. unfold ker. replace (- (0 * 0 * (1 + x * x))) with 0 by ring. rewrite exp_0. match goal with |- ?a = ?b => change (@eq R a b) end. pose proof (one_sq x). replace (x ^ 2) with (x * x) by ring. field. lra. }
    rewrite <- atan_1. apply (is_RInt_unique (V := R_CompleteNormedModule)).
    replace (atan 1) with (minus (atan 1) (atan 0)) by (rewrite atan_0; unfold minus, plus, opp; cbn; ring).
    apply (is_RInt_derive (V := R_CompleteNormedModule) atan).
    - intros x _. replace (/ (1 + x ^ 2)) with (/ (1 + Rsqr x)) by (unfold Rsqr; f_equal; ring). apply is_derive_Reals. pose proof (derivable_pt_lim_atan x) as D. unfold Rsqr. replace (x * x) with (x ^ 2) by ring. exact D.
    - intros x _. apply (ex_derive_continuous (K := R_AbsRing) (V := R_NormedModule)). auto_derive. pose proof (one_sq x). nra. }
  assert (G0 : G 0 = 0) by (unfold G; apply (RInt_point (V := R_CompleteNormedModule))).
  rewrite <- H0. replace (H 0) with (G 0 * G 0 + H 0) by (rewrite G0; ring).
  assert (DD : forall x, is_derive (fun s => G s * G s + H s) x 0).
  { intros x. assert (Y : is_derive (fun s => G s * G s + H s) x (plus (plus (mult (e2 x) (G x)) (mult (G x) (e2 x))) (- 2 * e2 x * G x))).
    { apply (is_derive_plus (V := R_NormedModule)); [apply (is_derive_mult (K := R_AbsRing)); [apply G_derive|apply G_derive|intros; unfold mult; cbn; ring]|apply H_derive]. }
    replace 0 with (plus (plus (mult (e2 x) (G x)) (mult (G x) (e2 x))) (- 2 * e2 x * G x)); [exact Y|]. unfold plus, mult. cbn. ring. }
  destruct (MVT_gen (fun s => G s * G s + H s) 0 t (fun _ => 0)) as (c & _ & E).
  - intros x _. apply DD.
  - intros x _. apply continuity_pt_filterlim. apply (ex_derive_continuous (K := R_AbsRing) (V := R_NormedModule) (fun s => G s * G s + H s)). eexists. apply DD.
  - cbv beta in E. lra.
Qed.
Lemma G_pos t : 0 <= t -> 0 <= G t.
Proof. intros Ht. apply RInt_ge_0; [exact Ht|apply e2_int|]. intros x _. apply Rlt_le, e2_pos. Qed.
Lemma H_bound t : 0 <= H t <= exp (- (t * t)).
Proof.
  assert (P : forall x, 0 < ker t x) by (intros x; unfold ker; apply Rdiv_lt_0_compat; [apply exp_pos|apply one_sq]).
  split.
  - apply RInt_ge_0; [lra|apply ker_int|]. intros x _. apply Rlt_le, P.
  - replace (exp (- (t * t))) with (RInt (fun _ => exp (- (t * t))) 0 1).
    + apply RInt_le; [lra|apply ker_int|apply ex_RInt_const|]. intros x _. unfold ker. pose proof (one_sq x). apply Rle_trans with (exp (- (t * t)) / 1).
      * apply Rmult_le_compat; [apply Rlt_le, exp_pos|apply Rlt_le, Rinv_0_lt_compat; assumption| |apply Rinv_le_contravar; pose proof (Rle_0_sqr x); unfold Rsqr in *; lra].
        destruct (Req_dec (t * t * (x * x)) 0) as [Z|Z]; [right; f_equal; nra|]. left. apply exp_increasing. pose proof (Rle_0_sqr (t * x)). unfold Rsqr in *. nra.
      * right. field.
    + rewrite RInt_const. unfold scal. cbn. unfold mult. cbn. ring.
Qed.
Lemma G_limit : is_lim G p_infty (sqrt PI / 2).
Proof.
  replace (sqrt PI / 2) with (sqrt (PI / 4)).
  2:{ replace (PI / 4) with (PI / (2 * 2)) by field. rewrite sqrt_div_alt by lra. rewrite sqrt_square by lra. reflexivity. }
  apply (is_lim_ext_loc (fun t => sqrt (PI / 4 - H t))).
  { exists 0. intros t Ht. replace (PI / 4 - H t) with (G t * G t) by (rewrite <- (sum_const t); lra). apply sqrt_square, G_pos. lra. }
  apply (filterlim_comp _ _ _ (fun t => PI / 4 - H t) sqrt _ (locally (PI / 4))).
  2:{ apply continuity_pt_filterlim, continuity_pt_sqrt. pose proof PI_RGT_0. lra. }
  assert (L : is_lim H p_infty 0).
  { apply (is_lim_le_le_loc (fun _ => 0) (fun t => exp (- t))).
    - exists 1. intros t Ht. destruct (H_bound t) as [A B]. split; [exact A|]. apply Rle_trans with (1 := B). left. apply exp_increasing. nra.
    - apply is_lim_const.
    - apply (is_lim_comp exp Ropp p_infty 0 m_infty); [apply is_lim_exp_m|apply (is_lim_opp (fun t => t) p_infty p_infty), is_lim_id|]. exists 0. intros x _. discriminate. }
  assert (Q : is_lim (fun t => PI / 4 - H t) p_infty (PI / 4 - 0)).
  { apply (is_lim_minus' (fun _ => PI / 4) H); [apply is_lim_const|exact L]. }
  replace (PI / 4 - 0) with (PI / 4) in Q by ring. exact Q.
Qed.
(** the sharp bound *)
Lemma H_sharp t : H t <= PI / 4 * exp (- (t * t)).
Proof.
  assert (H0 : H 0 = PI / 4).
  { assert (G0 : G 0 = 0) by (unfold G; apply (RInt_point (V := R_CompleteNormedModule))). rewrite <- (sum_const 0 (Rle_refl 0)), G0. ring. }
  rewrite <- H0. replace (H 0 * exp (- (t * t))) with (RInt (fun x => scal (exp (- (t * t))) (ker 0 x)) 0 1).
  2:{ rewrite (RInt_scal (V := R_CompleteNormedModule)) by apply ker_int. unfold scal. cbn. unfold mult. cbn. fold (H 0). apply Rmult_comm. }
  apply RInt_le; [lra|apply ker_int|apply (ex_RInt_scal (V := R_NormedModule)), ker_int|].
  intros x _. unfold scal. cbn. unfold mult. cbn. unfold ker. replace (- (0 * 0 * (1 + x * x))) with 0 by ring. rewrite exp_0. pose proof (one_sq x).
  replace (exp (- (t * t)) * (1 / (1 + x * x))) with (exp (- (t * t)) / (1 + x * x)) by (field; lra).
  apply Rmult_le_compat_r; [apply Rlt_le, Rinv_0_lt_compat; assumption|].
  destruct (Req_dec (t * x) 0) as [Z|Z]; [right; f_equal; replace (t * t * (1 + x * x)) with (t * t + (t * x) * (t * x)) by ring; rewrite Z; ring|].
  left. apply exp_increasing. replace (t * t * (1 + x * x)) with (t * t + (t * x) * (t * x)) by ring. nra.
Qed.
