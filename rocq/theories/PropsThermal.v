(** Thermal properties: C49, C50, C51, C62. *)
From Coquelicot Require Import Coquelicot.
From Coq Require Import Reals Lra Bool Lia Arith List.
From Verif Require Import Base Thermal.
Import ListNotations.
Local Open Scope list_scope.
Local Open Scope nat_scope.

(** * Specification *)
Fixpoint sumR (l : list R) : R := match l with [] => 0%R | x :: r => (x + sumR r)%R end.
(** frequencies are given in THz; negative numbers encode imaginary ones *)
Definition real_freqs (wq : list (list R)) : list R := filter (fun v => if Rlt_dec v 0 then false else true) (concat wq).
Definition imaginary_present (wq : list (list R)) : Prop := exists row v, In row wq /\ In v row /\ (v < 0)%R.
(** average over k-points, per atom: nb/3 atoms *)
Definition per_atom (wq : list (list R)) (nb : nat) (g : R -> R) : R :=
  (sumR (map g (real_freqs wq)) / (INR (length wq) * (INR nb / 3)))%R.
(** harmonic oscillator *)
Definition helmholtz (T nu : R) : R := (kb * T * ln (2 * sinh (h * (nu * 10 ^ 12) / (2 * kb * T))))%R.
Definition zero_point (nu : R) : R := (h * (nu * 10 ^ 12) / 2)%R.
(** what is reported for one temperature *)
Definition reported_free (wq : list (list R)) (nb : nat) (T : R) : option R :=
  match t_free (fst (thermal_set wq nb (thermal_init [T]))) with x :: _ => x | [] => None end.
Definition reported_entropy (wq : list (list R)) (nb : nat) (T : R) : option R :=
  match t_entropy (fst (thermal_set wq nb (thermal_init [T]))) with x :: _ => x | [] => None end.
Definition value (x : option R) : R := match x with Some v => v | None => 0%R end.
Definition no_zero_freq (wq : list (list R)) : Prop := forall row v, In row wq -> In v row -> v <> 0%R.
Definition has_real (wq : list (list R)) : Prop := exists row v, In row wq /\ In v row /\ (0 < v)%R.
Definition at_most_one_zero (temps : list R) : Prop := count_occ Req_EM_T temps 0%R <= 1.

(** * Constants *)
Lemma kb_pos : (0 < kb)%R.
Proof. unfold kb. repeat (apply Rmult_lt_0_compat || apply Rinv_0_lt_compat || apply pow_lt); lra. Qed.
Lemma h_pos : (0 < h)%R.
Proof. unfold h. repeat (apply Rmult_lt_0_compat || apply Rinv_0_lt_compat || apply pow_lt); lra. Qed.

(** * One mode *)
Definition half_ratio (nu T : R) : R := (h * (nu * 10 ^ 12) / (2 * kb * T))%R.
Lemma thz : (0 < 10 ^ 12)%R.
Proof. apply pow_lt; lra. Qed.
Lemma half_ratio_pos nu T : (0 < nu -> 0 < T -> 0 < half_ratio nu T)%R.
Proof.
  intros Hn HT. unfold half_ratio. pose proof kb_pos. pose proof h_pos. pose proof thz.
  apply Rdiv_lt_0_compat; repeat apply Rmult_lt_0_compat; lra.
Qed.
Lemma sinh_pos x : (0 < x -> 0 < sinh x)%R.
Proof. intros H. unfold sinh. assert (exp (- x) < exp x)%R by (apply exp_increasing; lra). lra. Qed.
Lemma two_sinh x : (2 * sinh x = exp x * (1 - exp (- (2 * x))))%R.
Proof.
  unfold sinh. rewrite Rmult_minus_distr_l, <- exp_plus. replace (x + - (2 * x))%R with (- x)%R by ring. lra.
Qed.
Lemma one_minus_exp_pos x : (0 < x -> 0 < 1 - exp (- x))%R.
Proof. intros H. assert (exp (- x) < exp 0)%R by (apply exp_increasing; lra). rewrite exp_0 in H0. lra. Qed.

Lemma np_div_ok x y : y <> 0%R -> np_div x y = Some (x / y)%R.
Proof. intros H. unfold np_div. destruct (Req_EM_T y 0); [contradiction|reflexivity]. Qed.
Lemma np_log_ok x : (0 < x)%R -> np_log x = Some (ln x).
Proof. intros H. unfold np_log. destruct (Rlt_dec 0 x); [reflexivity|contradiction]. Qed.

Lemma helmholtz_log nu T : (0 < nu -> 0 < T ->
  helmholtz T nu = zero_point nu + kb * T * ln (1 - exp (- (2 * half_ratio nu T))))%R.
Proof.
  intros Hn HT. pose proof (half_ratio_pos _ _ Hn HT) as Hx. unfold helmholtz. fold (half_ratio nu T).
  rewrite two_sinh, ln_mult; [|apply exp_pos|apply one_minus_exp_pos; lra]. rewrite ln_exp, Rmult_plus_distr_l. f_equal.
  unfold half_ratio, zero_point. pose proof kb_pos. field. split; lra.
Qed.
Lemma free_term_ok nu T : (0 < nu -> 0 < T -> free_term (nu * 10 ^ 12) T = Some (helmholtz T nu))%R.
Proof.
  intros Hn HT. pose proof kb_pos as Hk. pose proof (half_ratio_pos _ _ Hn HT) as Hx. rewrite (helmholtz_log _ _ Hn HT).
  unfold free_term. rewrite np_div_ok by (apply Rmult_integral_contrapositive; split; lra). cbn [obind].
  replace (- h * (nu * 10 ^ 12) / (kb * T))%R with (- (2 * half_ratio nu T))%R
    by (unfold half_ratio; field; split; lra).
  rewrite np_log_ok by (apply one_minus_exp_pos; lra). cbn [obind]. f_equal. unfold zero_point. lra.
Qed.
(** the entropy of one mode, as a function of x = h nu / 2 k T *)
Definition mode_entropy (T nu : R) : R :=
  let x := half_ratio nu T in (kb * (x * (cosh x / sinh x) - ln (2 * sinh x)))%R.
Lemma entropy_term_ok nu T : (0 < nu -> 0 < T -> entropy_term (nu * 10 ^ 12) T = Some (mode_entropy T nu))%R.
Proof.
  intros Hn HT. pose proof kb_pos as Hk. pose proof (half_ratio_pos _ _ Hn HT) as Hx. pose proof (sinh_pos _ Hx) as Hs.
  unfold entropy_term. rewrite np_div_ok by lra. cbn [obind].
  rewrite np_div_ok by (apply Rmult_integral_contrapositive; split; lra). cbn [obind]. fold (half_ratio nu T).
  rewrite np_div_ok by lra. cbn [obind]. rewrite np_log_ok by lra. cbn [obind]. f_equal. unfold mode_entropy. cbn zeta.
  assert (E : (1 / (2 * T) * h * (nu * 10 ^ 12) = kb * half_ratio nu T)%R) by (unfold half_ratio; field; split; lra).
  rewrite E. field. lra.
Qed.

Lemma mode_entropy_pos nu T : (0 < nu -> 0 < T -> 0 < mode_entropy T nu)%R.
Proof.
  intros Hn HT. pose proof kb_pos as Hk. pose proof (half_ratio_pos _ _ Hn HT) as Hx. pose proof (sinh_pos _ Hx) as Hs.
  unfold mode_entropy. cbn zeta. apply Rmult_lt_0_compat; [exact Hk|]. set (x := half_ratio nu T) in *.
  assert (A : (ln (2 * sinh x) < x)%R).
  { rewrite <- (ln_exp x) at 2. apply ln_increasing; [lra|]. unfold sinh. pose proof (exp_pos (- x)). lra. }
  assert (B : (x < x * (cosh x / sinh x))%R).
  { rewrite <- (Rmult_1_r x) at 1. apply Rmult_lt_compat_l; [exact Hx|]. apply Rmult_lt_reg_r with (sinh x); [exact Hs|].
    unfold Rdiv. rewrite Rmult_assoc, Rinv_l, Rmult_1_l, Rmult_1_r by lra. unfold cosh, sinh. pose proof (exp_pos (- x)). lra. }
  lra.
Qed.

Lemma is_derive_helmholtz nu T : (0 < nu -> 0 < T -> is_derive (fun t => helmholtz t nu) T (- mode_entropy T nu))%R.
Proof.
  intros Hn HT. pose proof kb_pos as Hk. pose proof (half_ratio_pos _ _ Hn HT) as Hx. pose proof (sinh_pos _ Hx) as Hs.
  unfold helmholtz, mode_entropy. cbn zeta. unfold sinh, cosh. unfold sinh in Hs. unfold half_ratio in *.
  generalize dependent (h * (nu * 10 ^ 12))%R. intros u Hx Hs.
  assert (N : (2 * kb * T <> 0)%R) by (apply Rmult_integral_contrapositive; split; lra).
  auto_derive.
  - repeat split; [exact N|exact N|]. unfold Rdiv in Hs |- *. unfold Rminus in Hs. lra.
  - change (u * / (2 * kb * T))%R with (u / (2 * kb * T))%R.
    assert (E : (u = u / (2 * kb * T) * (2 * kb * T))%R) by (field; split; lra).
    remember (u / (2 * kb * T))%R as x eqn:X. set (a := exp x) in *. set (b := exp (- x)) in *.
    assert (Ha : (a <> b)%R) by lra. clear X. subst u. unfold Rdiv, Rminus. generalize (ln (2 * ((a + - b) * / 2)))%R. intros l.
    field. repeat split; try lra.
Qed.

(** * Sums over modes *)
Definition nonzero (l : list R) : Prop := Forall (fun v => v <> 0%R) l.
Definition pos_part (l : list R) : list R := filter (fun v => if Rlt_dec v 0 then false else true) l.
Definition sc (nk nb : nat) (x : R) : R := (x / (INR nk * (INR nb / 3)))%R.
Lemma sc_plus nk nb x y : sc nk nb (x + y)%R = (sc nk nb x + sc nk nb y)%R.
Proof. unfold sc, Rdiv. ring. Qed.
Lemma share_ok nk nb x : 0 < nk -> 0 < nb -> share nk nb (Some x) = Some (sc nk nb x).
Proof.
  intros Hk Hb. apply lt_INR in Hk, Hb. cbn [INR] in Hk, Hb. unfold share. cbn [obind].
  rewrite np_div_ok by lra. cbn [obind]. rewrite np_div_ok by lra. f_equal. unfold sc. field. split; lra.
Qed.
Lemma arr_add_map (f g : R -> option R) l : arr_add (map f l) (map g l) = map (fun T => oadd (f T) (g T)) l.
Proof. induction l as [|T l IH]; cbn; [reflexivity|]. f_equal. exact IH. Qed.
Lemma arr_add_len a b : length a = length b -> length (arr_add a b) = length a.
Proof. revert b; induction a as [|x a IH]; intros [|y b] H; cbn in *; try lia. rewrite IH; lia. Qed.
Lemma map_ext_Forall {A B} (P : A -> Prop) (f g : A -> B) l : Forall P l -> (forall x, P x -> f x = g x) -> map f l = map g l.
Proof. intros H E. induction H; cbn; [reflexivity|]. rewrite (E _ H), IHForall. reflexivity. Qed.

Lemma flat_loop nk nb temp wq a : all_modes nk nb temp wq a = fold_left (mode_step nk nb temp) (concat wq) a.
Proof.
  unfold all_modes. revert a. induction wq as [|row wq IH]; intros a; cbn; [reflexivity|]. rewrite fold_left_app. apply IH.
Qed.

Lemma acc_eq {A B C D} (a a' : A) (b b' : B) (c c' : C) (d : D) : a = a' -> b = b' -> c = c' -> (a, b, c, d) = (a', b', c', d).
Proof. intros -> -> ->; reflexivity. Qed.
Lemma modes_spec nk nb temp l : 0 < nk -> 0 < nb -> Forall (fun T => 0 < T)%R temp -> nonzero l ->
  forall fF fE z im,
  fold_left (mode_step nk nb temp) l (map (fun T => Some (fF T)) temp, map (fun T => Some (fE T)) temp, Some z, im) =
  (map (fun T => Some (fF T + sc nk nb (sumR (map (helmholtz T) (pos_part l))))%R) temp,
   map (fun T => Some (fE T + sc nk nb (sumR (map (mode_entropy T) (pos_part l))))%R) temp,
   Some (z + sc nk nb (sumR (map zero_point (pos_part l))))%R,
   (im || existsb (fun v => if Rlt_dec v 0 then true else false) l)%bool).
Proof.
  intros Hk Hb HT. induction l as [|v l IH]; intros NZ fF fE z im.
  - cbn [fold_left pos_part filter map sumR existsb]. rewrite orb_false_r.
    assert (Z0 : sc nk nb 0 = 0%R) by (unfold sc, Rdiv; ring). rewrite Z0, Rplus_0_r.
    f_equal; f_equal; f_equal; apply map_ext; intros T; rewrite Rplus_0_r; reflexivity.
  - inversion NZ as [|? ? N1 N2]; subst. cbn [fold_left pos_part filter existsb]. unfold mode_step at 2.
    destruct (Rlt_dec v 0) as [L|L].
    + rewrite IH by exact N2. cbn [orb]. rewrite orb_true_r. reflexivity.
    + assert (Hv : (0 < v)%R) by lra.
      rewrite (map_ext_Forall _ (fun T => share nk nb (free_term (v * 10 ^ 12) T)) (fun T => Some (sc nk nb (helmholtz T v))) _ HT)
        by (intros T P; rewrite (free_term_ok _ _ Hv P), share_ok by assumption; reflexivity).
      rewrite (map_ext_Forall _ (fun T => share nk nb (entropy_term (v * 10 ^ 12) T)) (fun T => Some (sc nk nb (mode_entropy T v))) _ HT)
        by (intros T P; rewrite (entropy_term_ok _ _ Hv P), share_ok by assumption; reflexivity).
      rewrite !arr_add_map, share_ok by assumption. cbn [oadd obind].
      rewrite (IH N2 (fun T => fF T + sc nk nb (helmholtz T v))%R (fun T => fE T + sc nk nb (mode_entropy T v))%R).
      cbn [map sumR orb]. fold (pos_part l). apply acc_eq.
      * apply map_ext; intros T; rewrite sc_plus; f_equal; ring.
      * apply map_ext; intros T; rewrite sc_plus; f_equal; ring.
      * apply f_equal. rewrite sc_plus. unfold zero_point at 2.
        replace (1 / 2 * h * (v * 10 ^ 12))%R with (h * (v * 10 ^ 12) / 2)%R by lra. ring.
Qed.

(** * Observable results *)
Lemma zero_positions_count i temp : length (zero_positions i temp) = count_occ Req_EM_T temp 0%R.
Proof.
  revert i; induction temp as [|T r IH]; intros i; cbn [zero_positions count_occ]; [reflexivity|].
  destruct (Req_EM_T T 0); cbn [length]; rewrite IH; reflexivity.
Qed.
Lemma zero_positions_nil i temp : zero_positions i temp = [] -> Forall (fun T => T <> 0%R) temp.
Proof.
  revert i; induction temp as [|T r IH]; intros i; cbn [zero_positions]; [constructor|].
  destruct (Req_EM_T T 0); [discriminate|]. intros H. constructor; [assumption|]. exact (IH _ H).
Qed.
Lemma zero_positions_one i j temp : zero_positions i temp = [j] ->
  exists a b, temp = a ++ 0%R :: b /\ j = i + length a /\ Forall (fun T => T <> 0%R) a /\ Forall (fun T => T <> 0%R) b.
Proof.
  revert i; induction temp as [|T r IH]; intros i; cbn [zero_positions]; [discriminate|].
  destruct (Req_EM_T T 0) as [->|N].
  - intros H. injection H as E H. subst j. exists [], r. cbn. repeat split; [lia|constructor|exact (zero_positions_nil _ _ H)].
  - intros H. destruct (IH _ H) as (a & b & -> & -> & Ha & Hb). exists (T :: a), b. cbn. repeat split; [lia|constructor; assumption|assumption].
Qed.
Lemma in_concat_nonzero wq : no_zero_freq wq -> nonzero (concat wq).
Proof. intros N. apply Forall_forall. intros v Hv. apply in_concat in Hv. destruct Hv as (row & A & B). exact (N _ _ A B). Qed.
Lemma Forall_pos temp : Forall (fun T => 0 <= T)%R temp -> Forall (fun T => T <> 0%R) temp -> Forall (fun T => 0 < T)%R temp.
Proof. intros H. induction H; intros N; inversion N; constructor; [lra|auto]. Qed.
Lemma sc_per_atom wq nb g : sc (length wq) nb (sumR (map g (pos_part (concat wq)))) = per_atom wq nb g.
Proof. reflexivity. Qed.

Lemma exists_imaginary wq : existsb (fun v => if Rlt_dec v 0 then true else false) (concat wq) = true <-> imaginary_present wq.
Proof.
  rewrite existsb_exists. split.
  - intros (v & Hv & E). apply in_concat in Hv. destruct Hv as (row & A & B). exists row, v. repeat split; [exact A|exact B|].
    destruct (Rlt_dec v 0); [assumption|discriminate].
  - intros (row & v & A & B & L). exists v. split; [apply in_concat; exists row; split; assumption|].
    destruct (Rlt_dec v 0); [reflexivity|contradiction].
Qed.

(** all results at once *)
Lemma thermal_results wq nb temps : 0 < nb -> wq <> [] -> no_zero_freq wq ->
  Forall (fun T => 0 <= T)%R temps -> at_most_one_zero temps ->
  thermal_set wq nb (thermal_init temps) =
  (mkThermal temps
     (map (fun T => Some (if Req_EM_T T 0 then per_atom wq nb zero_point else per_atom wq nb (helmholtz T))) temps)
     (map (fun T => Some (if Req_EM_T T 0 then 0%R else per_atom wq nb (mode_entropy T))) temps),
   existsb (fun v => if Rlt_dec v 0 then true else false) (concat wq)).
Proof.
  intros Hb W NZ HT Z. apply in_concat_nonzero in NZ. assert (Hk : 0 < length wq) by (destruct wq; [contradiction|cbn; lia]).
  unfold at_most_one_zero in Z. rewrite <- (zero_positions_count 0) in Z. unfold thermal_set, thermal_init. cbn [t_temp t_free t_entropy].
  assert (NZR : forall l, Forall (fun T => T <> 0%R) l -> forall (A B : R -> R),
            map (fun T => Some (0 + B T)%R) l = map (fun T => Some (if Req_EM_T T 0 then A T else B T)) l).
  { intros l Hl A B. apply (map_ext_Forall _ _ _ _ Hl). intros T N. destruct (Req_EM_T T 0); [contradiction|]. rewrite Rplus_0_l. reflexivity. }
  destruct (zero_positions 0 temps) as [|j [|? ?]] eqn:E; [| |cbn in Z; lia].
  - pose proof (zero_positions_nil _ _ E) as N. rewrite flat_loop.
    rewrite (modes_spec _ _ _ _ Hk Hb (Forall_pos _ HT N) NZ (fun _ => 0%R) (fun _ => 0%R)). cbn [orb]. f_equal. f_equal; apply NZR; exact N.
  - destruct (zero_positions_one _ _ _ E) as (a & b & -> & -> & Na & Nb). cbn [Nat.add] in *.
    assert (D : delete_at (length a) (a ++ 0%R :: b) = a ++ b).
    { unfold delete_at. rewrite firstn_app, firstn_all, Nat.sub_diag, app_nil_r. f_equal.
      rewrite skipn_app, skipn_all2 by lia. replace (S (length a) - length a) with 1 by lia. reflexivity. }
    rewrite D. clear D. rewrite flat_loop.
    assert (N : Forall (fun T => T <> 0%R) (a ++ b)) by (apply Forall_app; split; assumption).
    assert (P : Forall (fun T => 0 <= T)%R (a ++ b)).
    { apply Forall_app in HT. destruct HT as [H1 H2]. inversion H2; subst. apply Forall_app; split; assumption. }
    rewrite (modes_spec _ _ _ _ Hk Hb (Forall_pos _ P N) NZ (fun _ => 0%R) (fun _ => 0%R)). cbn [orb].
    assert (I : forall (f : R -> option R) x, insert_at (length a) x (map f (a ++ b)) = map f a ++ x :: map f b).
    { intros f x. unfold insert_at. rewrite map_app, firstn_app, skipn_app. rewrite <- (map_length f a).
      rewrite firstn_all, skipn_all, Nat.sub_diag. cbn. rewrite app_nil_r. reflexivity. }
    rewrite !I, !map_app. cbn [map]. destruct (Req_EM_T 0 0) as [_|C]; [|contradiction]. f_equal. f_equal.
    + f_equal; [apply NZR; exact Na|]. f_equal; [rewrite Rplus_0_l; reflexivity|]. apply NZR; exact Nb.
    + f_equal; [apply NZR; exact Na|]. f_equal. apply NZR; exact Nb.
Qed.

(** ** C49 *)
Theorem free_energy_formula : forall wq nb temps, 0 < nb -> wq <> [] -> no_zero_freq wq ->
  Forall (fun T => 0 <= T)%R temps -> at_most_one_zero temps ->
  t_free (fst (thermal_set wq nb (thermal_init temps))) =
  map (fun T => Some (if Req_EM_T T 0 then per_atom wq nb zero_point else per_atom wq nb (helmholtz T))) temps.
Proof. intros. rewrite thermal_results by assumption. reflexivity. Qed.
Print Assumptions free_energy_formula.

Lemma reported_pos wq nb T : 0 < nb -> wq <> [] -> no_zero_freq wq -> (0 < T)%R ->
  reported_free wq nb T = Some (per_atom wq nb (helmholtz T)) /\ reported_entropy wq nb T = Some (per_atom wq nb (mode_entropy T)).
Proof.
  intros Hb W NZ HT. unfold reported_free, reported_entropy.
  assert (Z : at_most_one_zero [T]) by (unfold at_most_one_zero; cbn; destruct (Req_EM_T T 0); cbn; lia).
  rewrite thermal_results by first [assumption|constructor; [lra|constructor]]. cbn [fst t_free t_entropy map].
  destruct (Req_EM_T T 0); [lra|]. split; reflexivity.
Qed.
Lemma reported_zero wq nb : 0 < nb -> wq <> [] -> no_zero_freq wq ->
  reported_free wq nb 0 = Some (per_atom wq nb zero_point) /\ reported_entropy wq nb 0 = Some 0%R.
Proof.
  intros Hb W NZ. unfold reported_free, reported_entropy.
  assert (Z : at_most_one_zero [0%R]) by (unfold at_most_one_zero; cbn; destruct (Req_EM_T 0 0); cbn; lia).
  rewrite thermal_results by first [assumption|constructor; [lra|constructor]]. cbn [fst t_free t_entropy map].
  destruct (Req_EM_T 0 0); [|contradiction]. split; reflexivity.
Qed.
Lemma real_freqs_pos wq : no_zero_freq wq -> Forall (fun v => 0 < v)%R (real_freqs wq).
Proof.
  intros NZ. apply in_concat_nonzero in NZ. unfold real_freqs. apply Forall_forall. intros v Hv. apply filter_In in Hv. destruct Hv as [A B].
  unfold nonzero in NZ. rewrite Forall_forall in NZ. specialize (NZ v A). destruct (Rlt_dec v 0); [discriminate|]. lra.
Qed.
Lemma has_real_list wq : has_real wq -> real_freqs wq <> [].
Proof.
  intros (row & v & A & B & P) E. assert (I : In v (real_freqs wq)); [|rewrite E in I; destruct I].
  apply filter_In. split; [apply in_concat; exists row; split; assumption|]. destruct (Rlt_dec v 0); [lra|reflexivity].
Qed.
Lemma sumR_pos l (g : R -> R) : l <> [] -> Forall (fun v => 0 < v)%R l -> (forall v, (0 < v)%R -> (0 < g v)%R) -> (0 < sumR (map g l))%R.
Proof.
  intros N F G. destruct F as [|v l P F]; [contradiction|]. clear N. cbn. pose proof (G _ P) as Q. revert v P Q. induction F as [|w l Pw F IH]; intros v P Q; cbn.
  - lra.
  - pose proof (IH w Pw (G _ Pw)). lra.
Qed.
Lemma denom_pos (wq : list (list R)) nb : 0 < nb -> wq <> [] -> (0 < INR (length wq) * (INR nb / 3))%R.
Proof.
  intros Hb W. assert (Hk : 0 < length wq) by (destruct wq; [contradiction|cbn; lia]). apply lt_INR in Hk, Hb. cbn [INR] in *.
  apply Rmult_lt_0_compat; lra.
Qed.

(** ** C50 *)
Lemma is_derive_sum l T : Forall (fun v => 0 < v)%R l -> (0 < T)%R ->
  is_derive (fun t => sumR (map (helmholtz t) l)) T (- sumR (map (mode_entropy T) l))%R.
Proof.
  intros F HT. induction F as [|v l P F IH]; cbn [map sumR].
  - rewrite Ropp_0. apply is_derive_Reals. apply derivable_pt_lim_const.
  - rewrite Ropp_plus_distr. apply (is_derive_plus (fun t => helmholtz t v) (fun t => sumR (map (helmholtz t) l)));
    [exact (is_derive_helmholtz _ _ P HT)|exact IH].
Qed.
Theorem entropy_is_minus_derivative : forall wq nb T, 0 < nb -> wq <> [] -> no_zero_freq wq -> (0 < T)%R ->
  exists s, reported_entropy wq nb T = Some s /\
            is_derive (fun t => value (reported_free wq nb t)) T (- s)%R /\
            (has_real wq -> (0 < s)%R).
Proof.
  intros wq nb T Hb W NZ HT. destruct (reported_pos wq nb T Hb W NZ HT) as [_ ES].
  exists (per_atom wq nb (mode_entropy T)). split; [exact ES|]. pose proof (real_freqs_pos _ NZ) as PF.
  pose proof (denom_pos wq nb Hb W) as D. split.
  - apply (is_derive_ext_loc (fun t => per_atom wq nb (helmholtz t))).
    + exists (mkposreal T HT). intros t Ht. destruct (reported_pos wq nb t Hb W NZ) as [EF _]; [|rewrite EF; reflexivity].
      unfold ball in Ht. cbn in Ht. unfold AbsRing_ball, abs, minus, plus, opp in Ht. cbn in Ht. apply Rabs_def2 in Ht. lra.
    + unfold per_atom, Rdiv. rewrite <- Ropp_mult_distr_l_reverse.
      apply (is_derive_ext (fun t => scal (/ (INR (length wq) * (INR nb * / 3)))%R (sumR (map (helmholtz t) (real_freqs wq))))).
      { intros t. cbn. unfold mult. cbn. ring. }
      replace (- sumR (map (mode_entropy T) (real_freqs wq)) * / (INR (length wq) * (INR nb * / 3)))%R
        with (scal (/ (INR (length wq) * (INR nb * / 3)))%R (- sumR (map (mode_entropy T) (real_freqs wq)))%R)
        by (cbn; unfold mult; cbn; ring).
      apply is_derive_scal. exact (is_derive_sum _ _ PF HT).
  - intros HR. unfold per_atom. apply Rdiv_lt_0_compat; [|exact D].
    apply sumR_pos; [exact (has_real_list _ HR)|exact PF|]. intros v P. exact (mode_entropy_pos _ _ P HT).
Qed.
Print Assumptions entropy_is_minus_derivative.
Theorem entropy_formula : forall wq nb temps, 0 < nb -> wq <> [] -> no_zero_freq wq ->
  Forall (fun T => 0 <= T)%R temps -> at_most_one_zero temps ->
  t_entropy (fst (thermal_set wq nb (thermal_init temps))) =
  map (fun T => Some (if Req_EM_T T 0 then 0%R else value (reported_entropy wq nb T))) temps.
Proof.
  intros wq nb temps Hb W NZ HT Z. rewrite thermal_results by assumption. cbn [fst t_entropy].
  apply (map_ext_Forall _ _ _ _ HT). intros T P. destruct (Req_EM_T T 0) as [_|N]; [reflexivity|].
  destruct (reported_pos wq nb T Hb W NZ) as [_ ->]; [lra|reflexivity].
Qed.
Print Assumptions entropy_formula.

(** ** C49, continued: the free energy decreases and tends to the zero-point energy *)
Lemma filterlim_zero_point nu : (0 < nu)%R -> filterlim (fun T => helmholtz T nu) (at_right 0) (locally (zero_point nu)).
Proof.
  intros Hn. pose proof kb_pos as Hk. pose proof h_pos as Hh. pose proof thz as Ht.
  assert (L2 : (0 < ln 2)%R) by (rewrite <- ln_1; apply ln_increasing; lra).
  assert (Hu : (0 < h * (nu * 10 ^ 12))%R) by (repeat apply Rmult_lt_0_compat; lra).
  assert (EU : exists u, u = (h * (nu * 10 ^ 12))%R) by (eexists; reflexivity). destruct EU as (u & EU). rewrite <- EU in Hu.
  assert (HR : forall T, half_ratio nu T = (u / (2 * kb * T))%R) by (intros T; rewrite EU; reflexivity). clear EU Ht.
  intros P [eps HP].
  set (d1 := (u / (kb * ln 2))%R). set (d2 := (eps / (kb * ln 2))%R).
  assert (D1 : (0 < d1)%R) by (apply Rdiv_lt_0_compat; [exact Hu|apply Rmult_lt_0_compat; lra]).
  assert (D2 : (0 < d2)%R) by (apply Rdiv_lt_0_compat; [apply cond_pos|apply Rmult_lt_0_compat; lra]).
  assert (D : (0 < Rmin d1 d2)%R) by (apply Rmin_glb_lt; assumption).
  exists (mkposreal _ D). intros T HB HT. apply HP.
  unfold ball in *. cbn in *. unfold AbsRing_ball, abs, minus, plus, opp in *. cbn in *.
  rewrite Ropp_0, Rplus_0_r, (Rabs_pos_eq T) in HB by lra.
  assert (T1 : (T < d1)%R) by (eapply Rlt_le_trans; [exact HB|apply Rmin_l]).
  assert (T2 : (T < d2)%R) by (eapply Rlt_le_trans; [exact HB|apply Rmin_r]).
  rewrite (helmholtz_log _ _ Hn HT). set (y := (2 * half_ratio nu T)%R).
  replace (zero_point nu + kb * T * ln (1 - exp (- y)) + - zero_point nu)%R with (kb * T * ln (1 - exp (- y)))%R by ring.
  assert (Y : (ln 2 <= y)%R).
  { unfold y. rewrite HR. apply Rmult_le_reg_r with (kb * T)%R; [apply Rmult_lt_0_compat; lra|].
    replace (2 * (u / (2 * kb * T)) * (kb * T))%R with u by (field; split; lra).
    assert (M : (T * (kb * ln 2) < d1 * (kb * ln 2))%R) by (apply Rmult_lt_compat_r; [apply Rmult_lt_0_compat; lra|exact T1]).
    unfold d1 in M. replace (u / (kb * ln 2) * (kb * ln 2))%R with u in M by (field; split; lra). lra. }
  assert (E : (exp (- y) <= / 2)%R).
  { rewrite <- (exp_ln (/ 2)) by lra. rewrite ln_Rinv by lra. destruct (Req_dec y (ln 2)) as [->|N]; [lra|]. left. apply exp_increasing. lra. }
  pose proof (exp_pos (- y)) as EP.
  assert (A : (- ln 2 <= ln (1 - exp (- y)))%R).
  { rewrite <- ln_Rinv by lra. destruct (Req_dec (1 - exp (- y)) (/ 2)) as [->|N]; [lra|]. left. apply ln_increasing; lra. }
  assert (B : (ln (1 - exp (- y)) <= 0)%R).
  { rewrite <- ln_1. left. apply ln_increasing; lra. }
  assert (M2 : (T * (kb * ln 2) < d2 * (kb * ln 2))%R) by (apply Rmult_lt_compat_r; [apply Rmult_lt_0_compat; lra|exact T2]).
  unfold d2 in M2. replace (eps / (kb * ln 2) * (kb * ln 2))%R with (pos eps) in M2 by (field; split; lra).
  assert (KT : (0 < kb * T)%R) by (apply Rmult_lt_0_compat; lra).
  assert (AA : (kb * T * (- ln 2) <= kb * T * ln (1 - exp (- y)))%R) by (apply Rmult_le_compat_l; lra).
  assert (BB : (kb * T * ln (1 - exp (- y)) <= kb * T * 0)%R) by (apply Rmult_le_compat_l; lra).
  apply Rabs_def1; lra.
Qed.

Lemma filterlim_sum l : Forall (fun v => 0 < v)%R l ->
  filterlim (fun T => sumR (map (helmholtz T) l)) (at_right 0) (locally (sumR (map zero_point l))).
Proof.
  intros F. induction F as [|v l P F IH]; cbn [map sumR].
  - apply filterlim_const.
  - apply (filterlim_comp_2 (G := locally (zero_point v)) (H := locally (sumR (map zero_point l)))
      (fun T => helmholtz T v) (fun T => sumR (map (helmholtz T) l)) Rplus).
    + exact (filterlim_zero_point _ P).
    + exact IH.
    + exact (filterlim_plus (zero_point v) (sumR (map zero_point l))).
Qed.
Lemma eventually_positive (P : R -> Prop) : (forall T, (0 < T)%R -> P T) -> at_right 0 P.
Proof. intros H. exists (mkposreal 1 Rlt_0_1). intros T _ L. apply H. exact L. Qed.

Theorem free_energy_zero_temperature_limit : forall wq nb, 0 < nb -> wq <> [] -> no_zero_freq wq ->
  reported_free wq nb 0 = Some (per_atom wq nb zero_point) /\
  filterlim (fun T => value (reported_free wq nb T)) (at_right 0) (locally (value (reported_free wq nb 0))).
Proof.
  intros wq nb Hb W NZ. destruct (reported_zero wq nb Hb W NZ) as [E0 _]. split; [exact E0|]. rewrite E0. cbn [value].
  apply (filterlim_ext_loc (fun T => per_atom wq nb (helmholtz T))).
  { apply eventually_positive. intros T HT. destruct (reported_pos wq nb T Hb W NZ HT) as [-> _]. reflexivity. }
  unfold per_atom, Rdiv.
  apply (filterlim_comp _ _ _ (fun T => sumR (map (helmholtz T) (real_freqs wq))) (fun x => x * / (INR (length wq) * (INR nb * / 3)))%R
          _ (locally (sumR (map zero_point (real_freqs wq))))).
  - exact (filterlim_sum _ (real_freqs_pos _ NZ)).
  - apply (filterlim_ext (fun x => mult x (/ (INR (length wq) * (INR nb * / 3)))%R)); [reflexivity|].
    exact (filterlim_scal_l (K := R_AbsRing) (V := R_NormedModule) (sumR (map zero_point (real_freqs wq))) (/ (INR (length wq) * (INR nb * / 3)))%R).
Qed.
Print Assumptions free_energy_zero_temperature_limit.

Theorem free_energy_decreasing : forall wq nb T1 T2, 0 < nb -> wq <> [] -> no_zero_freq wq -> has_real wq ->
  (0 < T1)%R -> (T1 < T2)%R -> (value (reported_free wq nb T2) < value (reported_free wq nb T1))%R.
Proof.
  intros wq nb T1 T2 Hb W NZ HR H1 H12.
  destruct (MVT_gen (fun t => value (reported_free wq nb t)) T1 T2 (fun t => - value (reported_entropy wq nb t))%R) as (c & Hc & E).
  - intros t. rewrite Rmin_left, Rmax_right by lra. intros [A B].
    destruct (entropy_is_minus_derivative wq nb t Hb W NZ) as (s & ES & D & _); [lra|]. rewrite ES. cbn [value]. exact D.
  - intros t. rewrite Rmin_left, Rmax_right by lra. intros [A B].
    destruct (entropy_is_minus_derivative wq nb t Hb W NZ) as (s & ES & D & _); [lra|].
    apply derivable_continuous_pt. exists (- s)%R. apply is_derive_Reals. exact D.
  - rewrite Rmin_left, Rmax_right in Hc by lra.
    destruct (entropy_is_minus_derivative wq nb c Hb W NZ) as (s & ES & _ & P); [lra|]. rewrite ES in E. cbn [value] in E.
    specialize (P HR). assert (Q : (0 < s * (T2 - T1))%R) by (apply Rmult_lt_0_compat; lra). lra.
Qed.
Print Assumptions free_energy_decreasing.

(** ** C51 *)
Theorem imaginary_warning : forall wq nb t, count_occ Req_EM_T (t_temp t) 0%R <= 1 ->
  (snd (thermal_set wq nb t) = true <-> imaginary_present wq).
Proof.
  intros wq nb t Z. rewrite <- exists_imaginary.
  assert (IM : forall temp l F En z im, snd (fold_left (mode_step (length wq) nb temp) l (F, En, z, im)) =
             (im || existsb (fun v => if Rlt_dec v 0 then true else false) l)%bool).
  { intros temp l. induction l as [|v l IH]; intros F En z im; cbn [fold_left existsb]; [cbn [snd]; rewrite orb_false_r; reflexivity|].
    unfold mode_step at 2. destruct (Rlt_dec v 0); rewrite IH; destruct im; reflexivity. }
  rewrite <- (zero_positions_count 0) in Z. unfold thermal_set.
  destruct (zero_positions 0 (t_temp t)) as [|j [|? ?]]; [| |cbn in Z; lia].
  - rewrite flat_loop. pose proof (IM (t_temp t) (concat wq) (t_free t) (t_entropy t) (Some 0%R) false) as Q.
    destruct (fold_left _ _ _) as [[[F En] z] im]. cbn [snd orb] in *. rewrite Q. reflexivity.
  - rewrite flat_loop. match goal with |- context [fold_left ?f ?l (?a, ?b, ?c, false)] => pose proof (IM (delete_at j (t_temp t)) l a b c false) as Q end.
    destruct (fold_left _ _ _) as [[[F En] z] im]. cbn [snd orb] in *. rewrite Q. reflexivity.
Qed.
Print Assumptions imaginary_warning.
(** replacing an imaginary frequency by another changes nothing *)
Definition same_real (w w' : list (list R)) : Prop :=
  Forall2 (Forall2 (fun a b => a = b \/ (a < 0 /\ b < 0)%R)) w w'.
Theorem imaginary_modes_contribute_nothing : forall w w' nb t, same_real w w' ->
  fst (thermal_set w nb t) = fst (thermal_set w' nb t).
Proof.
  intros w w' nb t H.
  assert (L : length w = length w') by (clear -H; induction H; cbn; congruence).
  assert (C : Forall2 (fun a b => a = b \/ (a < 0 /\ b < 0)%R) (concat w) (concat w')).
  { clear -H. induction H; cbn; [constructor|]. apply Forall2_app; assumption. }
  assert (G : forall temp l l', Forall2 (fun a b => a = b \/ (a < 0 /\ b < 0)%R) l l' -> forall F En z im im',
     fst (fold_left (mode_step (length w) nb temp) l (F, En, z, im)) = fst (fold_left (mode_step (length w) nb temp) l' (F, En, z, im'))).
  { intros temp l l' Q. induction Q as [|a b l l' AB Q IH]; intros F En z im im'; cbn [fold_left]; [reflexivity|].
    unfold mode_step at 2 4. destruct AB as [<-|[A B]].
    - destruct (Rlt_dec a 0); apply IH.
    - destruct (Rlt_dec a 0); [|contradiction]. destruct (Rlt_dec b 0); [|contradiction]. apply IH. }
  unfold thermal_set. rewrite <- L. destruct (zero_positions 0 (t_temp t)) as [|j [|? ?]]; [| |reflexivity].
  - rewrite !flat_loop. pose proof (G (t_temp t) _ _ C (t_free t) (t_entropy t) (Some 0%R) false false) as Q.
    destruct (fold_left _ _ _) as [[[F En] z] im]. destruct (fold_left _ _ _) as [[[F' En'] z'] im']. cbn [fst] in *. congruence.
  - rewrite !flat_loop. match goal with |- context [fold_left ?f (concat w) (?a, ?b, ?c, false)] => pose proof (G (delete_at j (t_temp t)) _ _ C a b c false false) as Q end.
    destruct (fold_left _ _ _) as [[[F En] z] im]. destruct (fold_left _ _ _) as [[[F' En'] z'] im']. cbn [fst] in *. congruence.
Qed.
Print Assumptions imaginary_modes_contribute_nothing.

(** ** C62: corner cases *)
(** two zero temperatures: nothing is computed and nothing is reported *)
Theorem repeated_zero_temperature_ignored : forall wq nb t, 2 <= count_occ Req_EM_T (t_temp t) 0%R ->
  thermal_set wq nb t = (t, false).
Proof.
  intros wq nb t Z. rewrite <- (zero_positions_count 0) in Z. unfold thermal_set.
  destruct (zero_positions 0 (t_temp t)) as [|j [|? ?]]; [cbn in Z; lia|cbn in Z; lia|reflexivity].
Qed.
Print Assumptions repeated_zero_temperature_ignored.

(** a frequency that is exactly zero makes every entry at a non-zero temperature non-finite *)
Lemma sinh_0' : sinh 0 = 0%R.
Proof. unfold sinh. rewrite Ropp_0. lra. Qed.
Lemma free_term_zero T : T <> 0%R -> free_term (0 * 10 ^ 12) T = None.
Proof.
  intros N. pose proof kb_pos. unfold free_term. rewrite np_div_ok by (apply Rmult_integral_contrapositive; split; lra). cbn [obind].
  replace (- h * (0 * 10 ^ 12) / (kb * T))%R with 0%R by (unfold Rdiv; ring). rewrite exp_0, Rminus_diag_eq by reflexivity.
  unfold np_log. destruct (Rlt_dec 0 0); [lra|reflexivity].
Qed.
Lemma entropy_term_zero T : T <> 0%R -> entropy_term (0 * 10 ^ 12) T = None.
Proof.
  intros N. pose proof kb_pos. unfold entropy_term. rewrite np_div_ok by (apply Rmult_integral_contrapositive; split; lra). cbn [obind].
  rewrite np_div_ok by (apply Rmult_integral_contrapositive; split; lra). cbn [obind].
  replace (h * (0 * 10 ^ 12) / (2 * kb * T))%R with 0%R by (unfold Rdiv; ring). rewrite sinh_0'.
  unfold np_div. destruct (Req_EM_T 0 0); [reflexivity|contradiction].
Qed.
Theorem zero_frequency_not_finite : forall wq nb temps row, In row wq -> In 0%R row -> Forall (fun T => T <> 0%R) temps ->
  t_free (fst (thermal_set wq nb (thermal_init temps))) = map (fun _ => None) temps /\
  t_entropy (fst (thermal_set wq nb (thermal_init temps))) = map (fun _ => None) temps.
Proof.
  intros wq nb temps row A B NZ. assert (I : In 0%R (concat wq)) by (apply in_concat; exists row; split; assumption).
  assert (Z : zero_positions 0 temps = []).
  { generalize 0. clear -NZ. induction NZ; intros i; cbn; [reflexivity|]. destruct (Req_EM_T x 0); [contradiction|apply IHNZ]. }
  unfold thermal_set, thermal_init. cbn [t_temp t_free t_entropy]. rewrite Z, flat_loop. generalize (length wq). intros nk.
  assert (ST : forall l (fF fE : R -> option R) z im, exists gF gE z' im',
     fold_left (mode_step nk nb temps) l (map fF temps, map fE temps, z, im) = (map gF temps, map gE temps, z', im') /\
     ((forall T, In T temps -> fF T = None /\ fE T = None) \/ In 0%R l -> forall T, In T temps -> gF T = None /\ gE T = None)).
  { intros l. induction l as [|v l IH]; intros fF fE z im; cbn [fold_left].
    - exists fF, fE, z, im. split; [reflexivity|]. intros [H|[]]. exact H.
    - unfold mode_step at 2. destruct (Rlt_dec v 0) as [L|L].
      + destruct (IH fF fE z true) as (gF & gE & z' & im' & E & P). exists gF, gE, z', im'. split; [exact E|].
        intros [H|[->|H]]; [apply P; left; exact H|lra|apply P; right; exact H].
      + rewrite !arr_add_map.
        destruct (IH (fun T => oadd (fF T) (share nk nb (free_term (v * 10 ^ 12) T))) (fun T => oadd (fE T) (share nk nb (entropy_term (v * 10 ^ 12) T)))
                    (oadd z (share nk nb (Some (1 / 2 * h * (v * 10 ^ 12))%R))) im) as (gF & gE & z' & im' & E & P).
        exists gF, gE, z', im'. split; [exact E|]. intros [H|[->|H]]; [| |apply P; right; exact H].
        * apply P. left. intros T HT. destruct (H T HT) as [-> ->]. split; reflexivity.
        * apply P. left. intros T HT. rewrite Forall_forall in NZ. specialize (NZ T HT).
          rewrite (free_term_zero _ NZ), (entropy_term_zero _ NZ). cbn [share obind]. unfold oadd, obind. destruct (fF T), (fE T); split; reflexivity. }
  destruct (ST (concat wq) (fun _ => Some 0%R) (fun _ => Some 0%R) (Some 0%R) false) as (gF & gE & z' & im' & E & P).
  rewrite E. cbn [fst t_free t_entropy]. specialize (P (or_intror I)).
  split; apply map_ext_in; intros T HT; apply (P T HT).
Qed.
Print Assumptions zero_frequency_not_finite.

(** repeated evaluation *)
Fixpoint set_times (n : nat) (wq : list (list R)) (nb : nat) (t : thermal) : thermal :=
  match n with 0 => t | S n' => fst (thermal_set wq nb (set_times n' wq nb t)) end.
Theorem repeated_evaluation_adds_up : forall wq nb temps n, 0 < nb -> wq <> [] -> no_zero_freq wq ->
  Forall (fun T => 0 < T)%R temps ->
  t_free (set_times n wq nb (thermal_init temps)) = map (fun T => Some (INR n * per_atom wq nb (helmholtz T))%R) temps /\
  t_entropy (set_times n wq nb (thermal_init temps)) = map (fun T => Some (INR n * value (reported_entropy wq nb T))%R) temps.
Proof.
  intros wq nb temps n Hb W NZ HT. pose proof NZ as NZ'. apply in_concat_nonzero in NZ.
  assert (Hk : 0 < length wq) by (destruct wq; [contradiction|cbn; lia]).
  assert (Z : zero_positions 0 temps = []).
  { generalize 0. clear -HT. induction HT; intros i; cbn; [reflexivity|]. destruct (Req_EM_T x 0); [lra|apply IHHT]. }
  assert (X : set_times n wq nb (thermal_init temps) =
    mkThermal temps (map (fun T => Some (INR n * per_atom wq nb (helmholtz T))%R) temps) (map (fun T => Some (INR n * per_atom wq nb (mode_entropy T))%R) temps)).
  { induction n as [|n IH].
    - cbn [set_times INR]. unfold thermal_init. f_equal; apply map_ext; intros T; rewrite Rmult_0_l; reflexivity.
    - cbn [set_times]. rewrite IH. unfold thermal_set. cbn [t_temp t_free t_entropy]. rewrite Z, flat_loop, (modes_spec _ _ _ _ Hk Hb HT NZ).
      cbn [fst]. f_equal; apply map_ext; intros T; rewrite sc_per_atom, S_INR; f_equal; ring. }
  rewrite X. cbn [t_free t_entropy]. split; [reflexivity|]. apply (map_ext_Forall _ _ _ _ HT). intros T P.
  destruct (reported_pos wq nb T Hb W NZ' P) as [_ ->]. reflexivity.
Qed.
Print Assumptions repeated_evaluation_adds_up.
Theorem repeated_evaluation_with_zero_temperature : forall wq nb t, count_occ Req_EM_T (t_temp t) 0%R = 1 ->
  thermal_set wq nb (fst (thermal_set wq nb t)) = thermal_set wq nb t.
Proof.
  intros wq nb t Z. rewrite <- (zero_positions_count 0) in Z. unfold thermal_set at 2 3.
  destruct (zero_positions 0 (t_temp t)) as [|j [|? ?]] eqn:E; [discriminate| |discriminate].
  destruct (all_modes _ _ _ _ _) as [[[F En] z] im] eqn:A. cbn [fst]. unfold thermal_set. cbn [t_temp]. rewrite E, A. reflexivity.
Qed.
Print Assumptions repeated_evaluation_with_zero_temperature.

(** * Witness *)
Example thermal_witness : let wq := [[-1; 2; 3]; [1; 1; 4]]%R in
  0 < 3 /\ wq <> [] /\ no_zero_freq wq /\ has_real wq /\ imaginary_present wq /\
  Forall (fun T => 0 <= T)%R [0; 10; 20]%R /\ at_most_one_zero [0; 10; 20]%R.
Proof.
  cbn zeta. split; [lia|]. split; [discriminate|]. split.
  { intros row v [<-|[<-|[]]] [<-|[<-|[<-|[]]]]; lra. }
  split. { exists [1; 1; 4]%R, 4%R. cbn. repeat split; [tauto|tauto|lra]. }
  split. { exists [-1; 2; 3]%R, (-1)%R. cbn. repeat split; [tauto|tauto|lra]. }
  split. { repeat constructor; lra. }
  unfold at_most_one_zero. cbn. repeat (destruct (Req_EM_T _ _); try lra); lia.
Qed.

(** The constants are those of CODATA (eV/K and eV s) within 1 part in 2000. *)
Theorem thermal_constants : (0 < kb /\ 0 < h /\ Rabs (kb - 8617333262 / 10 ^ 14) <= kb / 2000 /\ Rabs (h - 4135667696 / 10 ^ 24) <= h / 2000)%R.
Proof.
  assert (Ek : kb = (1380 / 1602 / 10 ^ 4)%R) by (unfold kb; field).
  assert (Eh : h = (6626 / 1602 / 10 ^ 15)%R) by (unfold h; field). rewrite Ek, Eh.
  repeat split; try lra; apply Rabs_le; split; lra.
Qed.
Print Assumptions thermal_constants.
