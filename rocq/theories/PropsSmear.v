(** Density of states, continued: projections, smearing, repeated evaluation, degenerate set-ups
    (C47, C48). *)
From Coquelicot Require Import Coquelicot.
From Coq Require Import Reals Lra ZArith Bool Lia Arith List Sorted Permutation.
From Verif Require Import Base Field Phonon Thermal Band Dos PropsThermal PropsTetra DosFacts PropsDos.
Import ListNotations.
Local Open Scope list_scope.
Local Open Scope nat_scope.

(** * Totals and projections *)
(** unless nothing is periodic and the linear method is used *)
Definition has_projection (p : proc) (d : dos) : Prop := d_sigma d <> 0%R \/ 1 <= length (ind_pbc (p_pbc p)) <= 3.
Theorem total_is_sum_of_projections : forall p d d', has_projection p d -> dos_set p d = Ok d' ->
  d_tdos d' = map (fun c => osum (p_n p) c) (d_pdos d') /\ d_freq d' = d_freq d.
Proof.
  intros p d d' H E. unfold dos_set in E. destruct (Req_EM_T (d_sigma d) 0) as [Z|Z].
  - destruct H as [H|H]; [contradiction|]. destruct (ind_pbc (p_pbc p)) as [|a [|b [|c [|? ?]]]]; cbn [length] in H; try lia.
    + destruct (setup1 p a) as [s|]; cbn [bind] in E; [|discriminate]. destruct (tetra p _ _ _ _) as [cols|]; cbn [bind] in E; [|discriminate].
      injection E as <-. split; reflexivity.
    + destruct (setup2 p a b) as [s|]; cbn [bind] in E; [|discriminate]. destruct (tetra p _ _ _ _) as [cols|]; cbn [bind] in E; [|discriminate].
      injection E as <-. split; reflexivity.
    + destruct (setup3 p a b c) as [s|]; cbn [bind] in E; [|discriminate]. destruct (tetra p _ _ _ _) as [cols|]; cbn [bind] in E; [|discriminate].
      injection E as <-. split; reflexivity.
  - injection E as <-. split; reflexivity.
Qed.
Print Assumptions total_is_sum_of_projections.

(** Without periodic direction the linear method takes the frequencies of the first k-point, a
    total of one for each, and no projections: they stay as they were. *)
Theorem molecule_dos : forall p d r rest, d_sigma d = 0%R -> p_pbc p = [0; 0; 0]%Z -> p_modes p = r :: rest ->
  exists d', dos_set p d = Ok d' /\ d_freq d' = fst r /\ d_tdos d' = map (fun _ => Some 1%R) (fst r) /\ d_pdos d' = d_pdos d.
Proof.
  intros p d r rest S P M. unfold dos_set. destruct (Req_EM_T (d_sigma d) 0) as [_|X]; [|contradiction]. rewrite P. cbn [ind_pbc length seq combine filter snd Z.eqb negb map].
  unfold py_nth. rewrite M. cbn [nth_error of_option bind]. eexists. split; [reflexivity|]. repeat split; reflexivity.
Qed.
Print Assumptions molecule_dos.
(** The sum rule is refuted there, ... *)
Theorem molecule_sum_rule_refuted : forall p d r rest, fresh d -> p_pbc p = [0; 0; 0]%Z -> p_modes p = r :: rest -> fst r <> [] ->
  exists d', dos_set p d = Ok d' /\ d_tdos d' <> map (fun c => osum (p_n p) c) (d_pdos d').
Proof.
  intros p d r rest (S & L & Z) P M NE. destruct (molecule_dos p d r rest S P M) as (d' & E & _ & T & Q). exists d'. split; [exact E|].
  rewrite T, Q. destruct (fst r) as [|w ws]; [congruence|]. destruct (d_pdos d) as [|c cs]; [discriminate|]. cbn [map]. intros X. injection X as X _.
  rewrite (osum_ext _ c (fun _ => num 0)) in X by (intros m _; apply Z; now left). rewrite osum_zero in X. injection X as X. lra.
Qed.
Print Assumptions molecule_sum_rule_refuted.
(** ... and writing the projections fails when there are more modes than DOS points. *)
Theorem molecule_projection_write_fails : forall p d r rest d', d_sigma d = 0%R -> p_pbc p = [0; 0; 0]%Z -> p_modes p = r :: rest ->
  dos_set p d = Ok d' -> length (d_pdos d) < length (fst r) -> projected_rows p d' = Err EIndex.
Proof.
  intros p d r rest d' S P M E L. destruct (molecule_dos p d r rest S P M) as (d2 & E2 & F & _ & Q). rewrite E in E2. injection E2 as <-.
  unfold projected_rows. rewrite F, Q.
  assert (K : forall (l : list R) s, s <= length (d_pdos d) -> length (d_pdos d) < s + length l ->
    mapM (fun x => let! c := py_nth (d_pdos d) (fst x) in Ok (snd x, map c (seq 0 (p_n p)))) (combine (seq s (length l)) l) = Err EIndex).
  { induction l as [|w l IH]; intros s A B; cbn [length] in *; [lia|]. cbn [seq combine mapM fst].
    destruct (Nat.eq_dec s (length (d_pdos d))) as [X|X].
    - unfold py_nth. rewrite (proj2 (nth_error_None (d_pdos d) s)) by lia. reflexivity.
    - unfold py_nth at 1. destruct (nth_error (d_pdos d) s) as [c|] eqn:N; [|apply nth_error_None in N; lia]. cbn [of_option bind]. rewrite IH by lia. reflexivity. }
  apply K; lia.
Qed.
Print Assumptions molecule_projection_write_fails.
(** The linear method needs an automatic grid: after a line path there is none. *)
Theorem linear_dos_needs_grid : forall p d, d_sigma d = 0%R -> p_auto p = [] -> 1 <= length (ind_pbc (p_pbc p)) <= 3 -> dos_set p d = Err EIndex.
Proof.
  intros p d S A H. unfold dos_set. destruct (Req_EM_T (d_sigma d) 0) as [_|X]; [|contradiction].
  assert (K : forall a, count p a = Err EIndex) by (intros a; unfold count, py_nth; rewrite A; destruct a; reflexivity).
  destruct (ind_pbc (p_pbc p)) as [|a [|b [|c [|? ?]]]]; cbn [length] in H; try lia; unfold setup1, setup2, setup3; rewrite K; reflexivity.
Qed.
Print Assumptions linear_dos_needs_grid.
(** A two-dimensional mesh with a single point along its first direction is an IndexError too. *)
Theorem single_row_mesh_fails : forall p p1 p2 p3 n1 n2 n3 o1 o2 o3 d, d_sigma d = 0%R -> mesh p p1 p2 p3 n1 n2 n3 o1 o2 o3 ->
  p1 <> 0%Z -> p2 <> 0%Z -> p3 = 0%Z -> n1 = 1 -> 1 <= n2 -> dos_set p d = Err EIndex.
Proof.
  intros p p1 p2 p3 n1 n2 n3 o1 o2 o3 d S M N1 N2 -> -> H2. pose proof M as (HP & HA & _ & _ & Z3 & L & _). specialize (Z3 eq_refl). subst n3.
  unfold dos_set. destruct (Req_EM_T (d_sigma d) 0) as [_|X]; [|contradiction]. rewrite HP, ind_pbc_eq.
  destruct (Z.eqb_spec p1 0) as [X|_]; [contradiction|]. destruct (Z.eqb_spec p2 0) as [X|_]; [contradiction|]. cbn [Z.eqb negb PropsKPoints.ind_of app].
  unfold setup2. rewrite (count_ok p 0 1), (count_ok p 1 n2) by (rewrite ?HA; try reflexivity; lia). cbn [bind].
  pose proof (Nat.mod_upper_bound 1 n2 ltac:(lia)).
  rewrite (mesh_at _ _ _ _ _ _ _ _ _ _ 0 (1 mod n2) 0 _ M), (mesh_at _ _ _ _ _ _ _ _ _ _ 0 0 0 _ M) by lia. cbn [bind].
  unfold py_nth. rewrite (proj2 (nth_error_None (p_k p) n2)) by lia. reflexivity.
Qed.
Print Assumptions single_row_mesh_fails.

(** ** Which corner a projection comes from *)
Lemma sorted2 a b : (b < a)%R -> sorted_of [a; b] = [b; a].
Proof.
  intros H. pose proof (sorted_of_perm [a; b]) as P. pose proof (sorted_of_asc [a; b]) as A.
  apply Permutation_length_2_inv in P. destruct P as [E|E]; rewrite E in *; [apply asc2 in A; lra|reflexivity].
Qed.
Lemma sorted2' a b : (a <= b)%R -> sorted_of [a; b] = [a; b].
Proof.
  intros H. pose proof (sorted_of_perm [a; b]) as P. pose proof (sorted_of_asc [a; b]) as A.
  apply Permutation_length_2_inv in P. destruct P as [E|E]; rewrite E in *; [reflexivity|apply asc2 in A; assert (a = b) by lra; subst; reflexivity].
Qed.
(** linear interpolation between the corners of a segment, each with its own projection *)
Definition interpolated (f w0 w1 : R) (x0 x1 : R) : R := (x0 + (f - w0) / (w1 - w0) * (x1 - x0))%R.
Theorem rising_segment_projection : forall vol f w0 w1 (F0 F1 : nat -> R) m, (w0 <= f < w1)%R ->
  simplex vol f [w0; w1] [F0; F1] m = Some (vol / (w1 - w0) * interpolated f w0 w1 (F0 m) (F1 m))%R.
Proof.
  intros vol f w0 w1 F0 F1 m H. rewrite simplex_eq by reflexivity. rewrite sorted2' by lra. cbn [weights_of]. unfold weights1.
  rewrite (proj2 (between_true _ _ _) H). opt. cbn [map mix0 mix]. unfold num. cbn [omul oadd obind]. f_equal. unfold interpolated. field. lra.
Qed.
Print Assumptions rising_segment_projection.
(** Where the band falls along the mesh, the two projections are exchanged. *)
Theorem falling_segment_projection_swapped : forall vol f w0 w1 (F0 F1 : nat -> R) m, (w1 <= f < w0)%R ->
  simplex vol f [w0; w1] [F0; F1] m = Some (vol / (w0 - w1) * interpolated f w0 w1 (F1 m) (F0 m))%R.
Proof.
  intros vol f w0 w1 F0 F1 m H. rewrite simplex_eq by reflexivity. rewrite sorted2 by lra. cbn [weights_of]. unfold weights1.
  rewrite (proj2 (between_true _ _ _) H). opt. cbn [map mix0 mix]. unfold num. cbn [omul oadd obind]. f_equal. unfold interpolated. field. lra.
Qed.
Print Assumptions falling_segment_projection_swapped.

(** A chain of two k-points with two degrees of freedom: the only mode of frequency 1 (first band
    at the zone boundary) moves the second degree of freedom only, and still the first one gets
    half of the density at frequency 1. *)
Definition unit_rows (i j : nat) : Complex.C := if Nat.eqb i j then RtoC 1 else RtoC 0.
Definition swapped_rows (i j : nat) : Complex.C := if Nat.eqb (1 - i) j then RtoC 1 else RtoC 0.
Definition two_point_chain : proc :=
  mkProc [V3 0%R 0%R 0%R; V3 (1 / 2)%R 0%R 0%R] [([2; 5]%R, unit_rows); ([1; 6]%R, swapped_rows)] 2 [2; 1; 1]%Z [1; 0; 0]%Z.
Definition one_frequency (f : R) : dos := mkDos 0 [f] [fun _ => Some 0%R] [].
Lemma two_point_mesh : mesh two_point_chain 1 0 0 2 1 1 0 0 0.
Proof.
  unfold mesh, two_point_chain. cbn [p_pbc p_auto p_k]. repeat (split; [reflexivity || discriminate|]).
  intros i j k Hi Hj Hk. assert (j = 0) by lia. assert (k = 0) by lia. subst. destruct i as [|[|i]]; [| |lia]; cbn [nth_error Nat.mul Nat.add]; unfold axis; cbn [Z.eqb INR]; repeat f_equal; field.
Qed.
Lemma two_point_formed : well_formed two_point_chain.
Proof. split; [reflexivity|]. repeat (apply Forall_cons || apply Forall_nil); reflexivity. Qed.
Lemma cmod01 : (Cmod (RtoC 0) ^ 2 = 0)%R /\ (Cmod (RtoC 1) ^ 2 = 1)%R.
Proof. rewrite !Cmod_R, Rabs_R0, Rabs_R1. split; ring. Qed.
Lemma two_point_normalised : normalised two_point_chain.
Proof.
  destruct cmod01 as [C0 C1]. unfold normalised, two_point_chain. cbn [p_modes p_n].
  repeat (apply Forall_cons || apply Forall_nil); intros b Hb; destruct b as [|[|b]]; try lia;
    cbn [snd seq map sumR]; unfold unit_rows, swapped_rows; cbn [Nat.eqb Nat.sub]; rewrite C0, C1; ring.
Qed.
Theorem projection_refuted : exists p d d', mesh p 1 0 0 2 1 1 0 0 0 /\ well_formed p /\ normalised p /\ fresh d /\ d_freq d = [1%R] /\
  dos_set p d = Ok d' /\
  (** no mode of frequency 1 moves the first degree of freedom *)
  (forall b i, b < p_n p -> i < 2 -> freq_at p b i = 1%R -> Cmod (snd (mode_at p i) b 0) = 0%R) /\
  nth 0 (d_pdos d') (fun _ => None) 0 = Some (1 / 2)%R.
Proof.
  exists two_point_chain, (one_frequency 1).
  destruct (setup1_ok _ _ _ _ _ _ _ _ _ _ two_point_mesh eq_refl ltac:(intros _; lia) ltac:(intros X; congruence) ltac:(intros X; congruence)) as (a & Ea & Es).
  destruct (cells1_good two_point_chain (2 * 1 * 1) ltac:(lia) eq_refl) as (G & _ & _).
  destruct (tetra_ok two_point_chain (/ INR (2 * 1 * 1)) _ two_point_formed G [1%R] [fun _ => Some 0%R] eq_refl) as (cols & Ec & Lc & Q).
  eexists. split; [exact two_point_mesh|]. split; [exact two_point_formed|]. split; [exact two_point_normalised|].
  split; [split; [reflexivity|split; [reflexivity|]]; intros c m [<-|[]]; reflexivity|]. split; [reflexivity|]. split.
  { unfold dos_set. destruct (Req_EM_T (d_sigma (one_frequency 1)) 0) as [_|X]; [|exfalso; apply X; reflexivity].
    rewrite Ea, Es. cbn [bind fst snd]. cbn [one_frequency d_freq d_pdos]. rewrite Ec. cbn [bind]. reflexivity. }
  split.
  { intros b i Hb Hi. cbn [p_n two_point_chain] in Hb. unfold freq_at, mode_at. cbn [p_modes two_point_chain].
    destruct b as [|[|b]], i as [|[|i]]; try lia; cbn [nth fst snd]; intros E; try lra. unfold swapped_rows. cbn [Nat.sub Nat.eqb]. rewrite Cmod_R. apply Rabs_R0. }
  cbn [d_pdos]. destruct cols as [|c [|? ?]]; cbn [length] in Lc; try lia. cbn [nth] in *. specialize (Q 0 0 ltac:(cbn; lia)). cbn [nth] in Q. rewrite Q.
  unfold increment, pairs, cells1. cbn [p_n two_point_chain seq list_prod map Nat.mul Nat.add app]. unfold simplex_at. cbn [fst snd map].
  change (1 mod 2) with 1. change (2 mod 2) with 0. cbn [osuml fold_right].
  unfold freq_at, mode_at. cbn [p_modes two_point_chain nth fst].
  rewrite falling_segment_projection_swapped by lra. rewrite rising_segment_projection by lra.
  assert (O : forall w0 w1 F, (1 < w0)%R -> (1 < w1)%R -> simplex (/ INR 2) 1 [w0; w1] F 0 = num 0).
  { intros w0 w1 F H0 H1. unfold simplex. cbn zeta. fold (sorted_of [w0; w1]). rewrite weights_of_outside; [reflexivity|apply sorted_of_asc|].
    assert (In (nth 0 (sorted_of [w0; w1]) 0%R) [w0; w1]).
    { apply (Permutation_in _ (Permutation_sym (sorted_of_perm _))), nth_In. rewrite sorted_of_length. cbn. lia. }
    destruct H as [<-|[<-|[]]]; lra. }
  change (INR (2 * 1 * 1)) with (INR 2). rewrite (O 5%R 6%R), (O 6%R 5%R) by lra.
  unfold weight_at, mode_at, abs2. cbn [p_modes two_point_chain nth snd]. unfold unit_rows, swapped_rows. cbn [Nat.eqb Nat.sub]. destruct cmod01 as [-> ->].
  unfold num. cbn [oadd obind]. f_equal. unfold interpolated. cbn [INR]. field.
Qed.
Print Assumptions projection_refuted.

(** The chain also shows that [states_conserved] is not empty. *)
Example two_point_states : exists T, total_dos_is two_point_chain T false /\ is_RInt T 0 10 2%R.
Proof.
  destruct (states_conserved _ _ _ _ _ _ _ _ _ _ two_point_mesh two_point_formed two_point_normalised) as (T & A & _ & B).
  - cbn. lia.
  - intros _. lia.
  - intros X. congruence.
  - intros X. congruence.
  - cbn. lia.
  - intros b i j k Hb Hi Hj Hk. cbn [p_n two_point_chain] in Hb. assert (j = 0) by lia. assert (k = 0) by lia. subst. unfold freq_at, mode_at. cbn [p_modes two_point_chain].
    destruct b as [|[|b]], i as [|[|i]]; try lia; cbn; lra.
  - exists T. split; [exact A|]. apply B. unfold within. cbn [p_modes two_point_chain]. repeat (apply Forall_cons || apply Forall_nil); lra.
Qed.

(** * Gaussian smearing *)
(** the sum of normalised Gaussians over all modes, per k-point *)
Definition smeared (p : proc) (sigma f : R) : R :=
  (sumR (map (fun w => exp (- (f - w) ^ 2 / (2 * sigma ^ 2)) / (sigma * sqrt (2 * PI))) (mesh_freqs p)) / INR (length (p_k p)))%R.

Definition items (p : proc) : list (cmat * (nat * R)) :=
  flat_map (fun wv => map (pair (snd wv)) (combine (seq 0 (length (fst wv))) (fst wv))) (p_modes p).
Definition smear_term (p : proc) (sigma f : R) (it : cmat * (nat * R)) (m : nat) : R :=
  (gaussian sigma f (snd (snd it)) / INR (length (p_k p)) * abs2 (fst it (fst (snd it)) m))%R.
Lemma fold_oadd {A B} (step : column -> A -> column) (g : A -> nat -> R) (conv : B -> A) l :
  (forall c b m, step c (conv b) m = oadd (c m) (Some (g (conv b) m))) -> forall c m,
  fold_left step (map conv l) c m = oadd (c m) (Some (sumR (map (fun b => g (conv b) m) l))).
Proof.
  intros H. induction l as [|b l IH]; intros c m; cbn [map fold_left sumR]; [now rewrite oadd_0r|].
  rewrite IH, H, <- oadd_assoc. cbn [oadd obind]. reflexivity.
Qed.
Lemma smear_column_eq p sigma f c m :
  smear_column p sigma f c m = oadd (c m) (Some (sumR (map (fun it => smear_term p sigma f it m) (items p)))).
Proof.
  unfold smear_column, items. revert c. induction (p_modes p) as [|wv l IH]; intros c; cbn [fold_left flat_map map sumR]; [now rewrite oadd_0r|].
  rewrite IH. rewrite <- (map_id (combine (seq 0 (length (fst wv))) (fst wv))) at 1.
  rewrite (fold_oadd (smear_mode p sigma f (snd wv)) (fun be m => smear_term p sigma f (snd wv, be) m) (fun x => x)) by (intros; reflexivity).
  rewrite map_app, sumR_app, map_map, <- oadd_assoc. reflexivity.
Qed.
Lemma sumR_ext {A} (g h : A -> R) l : (forall x, In x l -> g x = h x) -> sumR (map g l) = sumR (map h l).
Proof. intros H. f_equal. apply map_ext_in. exact H. Qed.
Lemma sum_swap {A} n (g : A -> nat -> R) l :
  sumR (map (fun m => sumR (map (fun x => g x m) l)) (seq 0 n)) = sumR (map (fun x => sumR (map (g x) (seq 0 n))) l).
Proof. induction l as [|x l IH]; cbn [map sumR]; [apply sumR_zero|]. rewrite sumR_plus, IH. reflexivity. Qed.
Lemma items_total p sigma f : well_formed p -> normalised p ->
  sumR (map (fun m => sumR (map (fun it => smear_term p sigma f it m) (items p))) (seq 0 (p_n p))) = smeared p sigma f.
Proof.
  intros [_ W] N. rewrite (sum_swap (p_n p) (smear_term p sigma f)). unfold smeared, items, mesh_freqs, smear_term.
  set (nk := INR (length (p_k p))). clearbody nk.
  revert W N. unfold normalised. induction (p_modes p) as [|wv l IH]; intros W N; cbn [flat_map map concat sumR]; [unfold Rdiv; ring|].
  inversion W; subst. inversion N; subst. rewrite !map_app, !sumR_app, IH by assumption. rewrite Rdiv_plus_distr. f_equal.
  rewrite map_map. cbn [fst snd].
  rewrite (sumR_ext _ (fun be => / nk * (exp (- (f - snd be) ^ 2 / (2 * sigma ^ 2)) / (sigma * sqrt (2 * PI))))%R).
  - rewrite sumR_scal. match goal with |- (_ * ?a)%R = (?b / _)%R => assert (E : a = b); [|rewrite E; unfold Rdiv; ring] end.
    transitivity (sumR (map (fun w => (exp (- (f - w) ^ 2 / (2 * sigma ^ 2)) / (sigma * sqrt (2 * PI)))%R) (map snd (combine (seq 0 (length (fst wv))) (fst wv))))).
    + rewrite map_map. reflexivity.
    + rewrite snd_combine by (now rewrite seq_length). reflexivity.
  - intros [b w] Hb. cbn [fst snd]. apply in_combine_l in Hb. apply in_seq in Hb. rewrite sumR_scal. 
    change (fun m : nat => abs2 (snd wv b m)) with (fun j : nat => (Cmod (snd wv b j) ^ 2)%R).
    transitivity (gaussian sigma f w / nk * 1)%R; [f_equal; apply H3; lia|]. unfold gaussian, Rdiv. ring.
Qed.
Definition fresh_smear (d : dos) : Prop := d_sigma d <> 0%R /\ length (d_pdos d) = length (d_freq d) /\ forall c m, In c (d_pdos d) -> c m = Some 0%R.
Lemma map2_length {A B D} (g : A -> B -> D) l : forall r, length l = length r -> length (map2 g l r) = length l.
Proof. induction l as [|a l IH]; intros [|b r] H; cbn in *; try lia. rewrite IH; lia. Qed.
Lemma map2_nth {A B D} (g : A -> B -> D) l : forall r i da db dd, length l = length r -> i < length l -> nth i (map2 g l r) dd = g (nth i l da) (nth i r db).
Proof. induction l as [|a l IH]; intros [|b r] [|i] da db dd H L; cbn in *; try lia; [reflexivity|]. apply IH; lia. Qed.
Theorem gaussian_dos_total : forall p d, well_formed p -> normalised p -> fresh_smear d ->
  exists d', dos_set p d = Ok d' /\ d_freq d' = d_freq d /\ d_tdos d' = map (fun f => Some (smeared p (d_sigma d) f)) (d_freq d).
Proof.
  intros p d W N (S & L & Z). unfold dos_set. destruct (Req_EM_T (d_sigma d) 0) as [X|_]; [contradiction|]. eexists. split; [reflexivity|]. cbn [d_freq d_tdos]. split; [reflexivity|].
  unfold totals. revert L Z. generalize (d_pdos d). induction (d_freq d) as [|f fr IH]; intros [|c cr] L Z; cbn [length] in L; try lia; [reflexivity|].
  cbn [map2 map]. f_equal; [|apply IH; [lia|intros; apply Z; now right]].
  rewrite (osum_ext _ _ (fun m => Some (sumR (map (fun it => smear_term p (d_sigma d) f it m) (items p))))).
  - rewrite osum_some. f_equal. apply items_total; assumption.
  - intros m _. rewrite smear_column_eq, (Z c m) by now left. apply oadd_0l.
Qed.
Print Assumptions gaussian_dos_total.
(** the sign of the DOS is the sign of sigma *)
Theorem gaussian_dos_sign : forall p sigma f, well_formed p -> p_modes p <> [] -> 1 <= p_n p ->
  ((0 < sigma)%R -> (0 < smeared p sigma f)%R) /\ smeared p (- sigma) f = (- smeared p sigma f)%R.
Proof.
  intros p sigma f [W1 W] NE Hn. split.
  - intros S. unfold smeared. apply Rdiv_lt_0_compat.
    + destruct (mesh_freqs p) as [|w ws] eqn:E.
      * exfalso. unfold mesh_freqs in E. destruct (p_modes p) as [|[wr v] l]; [congruence|]. inversion W; subst. cbn [map concat fst] in *. destruct wr; cbn in *; [lia|discriminate].
      * cbn [map sumR]. assert (P : forall x, (0 < exp x / (sigma * sqrt (2 * PI)))%R).
        { intros x. apply Rdiv_lt_0_compat; [apply exp_pos|]. apply Rmult_lt_0_compat; [exact S|]. apply sqrt_lt_R0. pose proof PI_RGT_0. lra. }
        pose proof (P (- (f - w) ^ 2 / (2 * sigma ^ 2))%R).
        pose proof (sumR_nonneg (fun w => exp (- (f - w) ^ 2 / (2 * sigma ^ 2)) / (sigma * sqrt (2 * PI)))%R ws (fun x _ => Rlt_le _ _ (P _))). lra.
    + apply inr_pos. rewrite <- W1. destruct (p_modes p); [congruence|cbn; lia].
  - unfold smeared. rewrite (sumR_ext _ (fun w => -1 * (exp (- (f - w) ^ 2 / (2 * sigma ^ 2)) / (sigma * sqrt (2 * PI))))%R).
    + rewrite sumR_scal. unfold Rdiv. ring.
    + intros w _. replace ((- sigma) ^ 2)%R with (sigma ^ 2)%R by ring. replace (- sigma * sqrt (2 * PI))%R with (- (sigma * sqrt (2 * PI)))%R by ring.
      destruct (Req_dec (sigma * sqrt (2 * PI)) 0) as [Z|Z]; [rewrite Z, Ropp_0; unfold Rdiv; rewrite Rinv_0; ring|field].
      split; [intros X; apply Z; rewrite X; ring|intros X; apply Z; rewrite X; ring].
Qed.
Print Assumptions gaussian_dos_sign.

(** * C48: repeated evaluation *)
Fixpoint dos_calls (p : proc) (n : nat) (d : dos) : result dos :=
  match n with 0 => Ok d | S k => let! d' := dos_set p d in dos_calls p k d' end.
(** a change of the projections that does not depend on their values *)
Definition shift_of (g : column -> result column) (inc : nat -> option R) : Prop := forall c, exists c', g c = Ok c' /\ forall m, c' m = oadd (c m) (inc m).
Lemma add_cells_shift p vol f b cells : forall col col', add_cells p vol f b cells col = Ok col' -> exists inc, shift_of (add_cells p vol f b cells) inc.
Proof.
  induction cells as [|ix r IH]; intros col col' H; cbn [add_cells] in H.
  - exists (fun _ => num 0). intros c. exists c. split; [reflexivity|]. intros m. now rewrite oadd_0r.
  - destruct (mapM (corner p b) ix) as [cs|] eqn:E; cbn [bind] in H; [|discriminate]. destruct (IH _ _ H) as (inc & K).
    exists (fun m => oadd (simplex vol f (map fst cs) (map snd cs) m) (inc m)). intros c. cbn [add_cells]. rewrite E. cbn [bind].
    destruct (K (fun m => oadd (c m) (simplex vol f (map fst cs) (map snd cs) m))) as (c' & E' & Q). exists c'. split; [exact E'|]. intros m. rewrite Q. symmetry. apply oadd_assoc.
Qed.
Lemma add_bands_shift p vol f cells bands : forall col col', add_bands p vol f cells bands col = Ok col' -> exists inc, shift_of (add_bands p vol f cells bands) inc.
Proof.
  induction bands as [|b r IH]; intros col col' H; cbn [add_bands] in H.
  - exists (fun _ => num 0). intros c. exists c. split; [reflexivity|]. intros m. now rewrite oadd_0r.
  - destruct (add_cells p vol f b cells col) as [c1|] eqn:E; cbn [bind] in H; [|discriminate]. destruct (add_cells_shift _ _ _ _ _ _ _ E) as (i1 & K1). destruct (IH _ _ H) as (i2 & K2).
    exists (fun m => oadd (i1 m) (i2 m)). intros c. cbn [add_bands]. destruct (K1 c) as (c2 & E2 & Q2). rewrite E2. cbn [bind]. destruct (K2 c2) as (c3 & E3 & Q3). exists c3. split; [exact E3|].
    intros m. rewrite Q3, Q2. symmetry. apply oadd_assoc.
Qed.
(** the same for all columns *)
Definition cols_shift (g : list column -> result (list column)) (n : nat) (inc : nat -> nat -> option R) : Prop :=
  forall cols, length cols = n -> exists cols', g cols = Ok cols' /\ length cols' = n /\
    forall i m, i < n -> nth i cols' (fun _ => num 0) m = oadd (nth i cols (fun _ => num 0) m) (inc i m).
Lemma tetra_shift p vol cells freq : forall cols cols', length cols = length freq -> tetra p vol cells freq cols = Ok cols' ->
  exists inc, cols_shift (tetra p vol cells freq) (length freq) inc.
Proof.
  induction freq as [|f fr IH]; intros [|c cr] cols' L H; cbn [length] in L; try lia; cbn [tetra] in H.
  - exists (fun _ _ => num 0). intros [|? ?] L'; cbn in L'; [|lia]. exists []. repeat split. intros; cbn in *; lia.
  - destruct (add_bands p vol f cells (seq 0 (p_n p)) c) as [c'|] eqn:E; cbn [bind] in H; [|discriminate].
    destruct (tetra p vol cells fr cr) as [r|] eqn:E2; cbn [bind] in H; [|discriminate].
    destruct (add_bands_shift _ _ _ _ _ _ _ E) as (i1 & K1). destruct (IH cr r ltac:(lia) E2) as (i2 & K2).
    exists (fun i m => match i with 0 => i1 m | S j => i2 j m end). intros [|x xs] L'; cbn [length] in L'; [lia|]. cbn [tetra].
    destruct (K1 x) as (x' & Ex & Qx). rewrite Ex. cbn [bind]. destruct (K2 xs ltac:(lia)) as (xs' & Exs & Lxs & Qxs). rewrite Exs. cbn [bind].
    exists (x' :: xs'). split; [reflexivity|]. split; [cbn; lia|]. intros [|i] m Hi; cbn [nth]; [apply Qx|apply Qxs; cbn in Hi; lia].
Qed.
Definition scaled (k : nat) (x : option R) : option R := omul (num (INR k)) x.
Lemma scaled_S k x : oadd (scaled (S k) x) x = scaled (S (S k)) x.
Proof. destruct x as [x|]; [|reflexivity]. unfold scaled, num. cbn [omul oadd obind]. f_equal. rewrite !S_INR. ring. Qed.
Lemma scaled_1 x : scaled 1 x = x.
Proof. destruct x as [x|]; [|reflexivity]. unfold scaled, num. cbn [omul obind]. f_equal. cbn. ring. Qed.
Lemma osum_scaled n k f : osum n (fun m => scaled k (f m)) = scaled k (osum n f).
Proof.
  induction n as [|n IH]; cbn [osum]; [unfold scaled, num; cbn [omul obind]; f_equal; ring|]. rewrite IH.
  destruct (osum n f) as [a|], (f n) as [b|]; unfold scaled, num; cbn [omul oadd obind]; try reflexivity. f_equal. ring.
Qed.
(** after n evaluations *)
Definition evaluated (d : dos) (inc : nat -> nat -> option R) (p : proc) (n : nat) (d' : dos) : Prop :=
  d_sigma d' = d_sigma d /\ d_freq d' = d_freq d /\ length (d_pdos d') = length (d_freq d) /\ d_tdos d' = totals p (d_pdos d') /\
  forall i m, i < length (d_freq d) -> nth i (d_pdos d') (fun _ => num 0) m = scaled n (inc i m).
Lemma dos_shift p d d1 : has_projection p d -> length (d_pdos d) = length (d_freq d) -> dos_set p d = Ok d1 ->
  exists g inc, cols_shift g (length (d_freq d)) inc /\
    forall x, d_sigma x = d_sigma d -> d_freq x = d_freq d -> length (d_pdos x) = length (d_freq d) ->
      dos_set p x = let! cols := g (d_pdos x) in Ok (mkDos (d_sigma d) (d_freq d) cols (totals p cols)).
Proof.
  intros H L E. unfold dos_set in E. destruct (Req_EM_T (d_sigma d) 0) as [Z|Z].
  - destruct H as [H|H]; [contradiction|].
    assert (T : forall s, (let! cols := tetra p (fst s) (snd s) (d_freq d) (d_pdos d) in Ok (mkDos (d_sigma d) (d_freq d) cols (totals p cols))) = Ok d1 ->
                exists inc, cols_shift (tetra p (fst s) (snd s) (d_freq d)) (length (d_freq d)) inc).
    { intros s Es. destruct (tetra p (fst s) (snd s) (d_freq d) (d_pdos d)) as [cols|] eqn:Et; cbn [bind] in Es; [|discriminate]. exact (tetra_shift _ _ _ _ _ _ L Et). }
    destruct (ind_pbc (p_pbc p)) as [|a [|b [|c [|? ?]]]] eqn:I; cbn [length] in H; try lia.
    + destruct (setup1 p a) as [s|] eqn:Es; cbn [bind] in E; [|discriminate]. destruct (T s E) as (inc & K). exists (tetra p (fst s) (snd s) (d_freq d)), inc. split; [exact K|].
      intros x X1 X2 X3. unfold dos_set. rewrite X1, X2. destruct (Req_EM_T (d_sigma d) 0); [|contradiction]. rewrite I, Es. reflexivity.
    + destruct (setup2 p a b) as [s|] eqn:Es; cbn [bind] in E; [|discriminate]. destruct (T s E) as (inc & K). exists (tetra p (fst s) (snd s) (d_freq d)), inc. split; [exact K|].
      intros x X1 X2 X3. unfold dos_set. rewrite X1, X2. destruct (Req_EM_T (d_sigma d) 0); [|contradiction]. rewrite I, Es. reflexivity.
    + destruct (setup3 p a b c) as [s|] eqn:Es; cbn [bind] in E; [|discriminate]. destruct (T s E) as (inc & K). exists (tetra p (fst s) (snd s) (d_freq d)), inc. split; [exact K|].
      intros x X1 X2 X3. unfold dos_set. rewrite X1, X2. destruct (Req_EM_T (d_sigma d) 0); [|contradiction]. rewrite I, Es. reflexivity.
  - exists (fun cols => Ok (map2 (smear_column p (d_sigma d)) (d_freq d) cols)),
           (fun i m => Some (sumR (map (fun it => smear_term p (d_sigma d) (nth i (d_freq d) 0%R) it m) (items p)))). split.
    + intros cols Lc. eexists. split; [reflexivity|]. split; [rewrite map2_length; congruence|]. intros i m Hi.
      pose proof (map2_nth (smear_column p (d_sigma d)) (d_freq d) cols i 0%R (fun _ => num 0) (fun _ => num 0) ltac:(congruence) Hi) as E2.
      etransitivity; [exact (f_equal (fun c : column => c m) E2)|apply smear_column_eq].
    + intros x X1 X2 X3. unfold dos_set. rewrite X1, X2. destruct (Req_EM_T (d_sigma d) 0); [contradiction|]. reflexivity.
Qed.
Theorem repeated_dos_adds_up : forall p d d1, has_projection p d -> length (d_pdos d) = length (d_freq d) -> (forall c m, In c (d_pdos d) -> c m = Some 0%R) ->
  dos_set p d = Ok d1 ->
  forall k, exists dk, dos_calls p (S k) d = Ok dk /\ d_freq dk = d_freq d1 /\
    d_tdos dk = map (scaled (S k)) (d_tdos d1) /\
    forall i m, i < length (d_freq d) -> nth i (d_pdos dk) (fun _ => num 0) m = scaled (S k) (nth i (d_pdos d1) (fun _ => num 0) m).
Proof.
  intros p d d1 H L Z E k. destruct (dos_shift p d d1 H L E) as (g & inc & K & D).
  assert (Z' : forall i m, nth i (d_pdos d) (fun _ => num 0) m = num 0).
  { intros i m. destruct (Nat.lt_ge_cases i (length (d_pdos d))) as [Q|Q]; [apply Z; apply nth_In; exact Q|rewrite nth_overflow by exact Q; reflexivity]. }
  assert (B1 : evaluated d inc p 1 d1).
  { rewrite (D d eq_refl eq_refl L) in E. destruct (K (d_pdos d) L) as (cols & Ec & Lc & Qc). rewrite Ec in E. cbn [bind] in E. injection E as <-.
    repeat split; try assumption. cbn [d_pdos]. intros i m Hi. rewrite Qc, Z', oadd_0l, scaled_1 by exact Hi. reflexivity. }
  assert (ST : forall n x, evaluated d inc p (S n) x -> exists y, dos_set p x = Ok y /\ evaluated d inc p (S (S n)) y).
  { intros n x (X1 & X2 & X3 & X4 & X5). rewrite (D x X1 X2 X3). destruct (K (d_pdos x) X3) as (cols & Ec & Lc & Qc). rewrite Ec. cbn [bind].
    eexists. split; [reflexivity|]. repeat split; try assumption. cbn [d_pdos]. intros i m Hi. rewrite Qc, X5 by exact Hi. apply scaled_S. }
  assert (IT : forall k n x, evaluated d inc p (S n) x -> exists y, dos_calls p k x = Ok y /\ evaluated d inc p (S (n + k)) y).
  { induction k0 as [|j IH]; intros n x X; cbn [dos_calls].
    - exists x. rewrite Nat.add_0_r. split; [reflexivity|exact X].
    - destruct (ST n x X) as (y & Ey & Y). rewrite Ey. cbn [bind]. destruct (IH (S n) y Y) as (z & Ez & Q). exists z. split; [exact Ez|]. replace (n + S j) with (S n + j) by lia. exact Q. }
  cbn [dos_calls]. rewrite E. cbn [bind]. destruct (IT k 0 d1 B1) as (dk & Ek & (K1 & K2 & K3 & K4 & K5)). destruct B1 as (B1 & B2 & B3 & B4 & B5).
  exists dk. split; [exact Ek|]. split; [congruence|].
  assert (Q : forall i m, i < length (d_freq d) -> nth i (d_pdos dk) (fun _ => num 0) m = scaled (S k) (nth i (d_pdos d1) (fun _ => num 0) m)).
  { intros i m Hi. rewrite K5, B5, scaled_1 by exact Hi. reflexivity. }
  split; [|exact Q]. rewrite K4, B4.
  assert (KB : length (d_pdos dk) = length (d_pdos d1)) by exact (eq_trans K3 (eq_sym B3)).
  apply (nth_ext _ _ None (scaled (S k) None)); [unfold totals; rewrite !map_length; exact KB|].
  intros i Hi. unfold totals in Hi. rewrite map_length in Hi. rewrite map_nth. rewrite !totals_nth by (exact Hi || (rewrite <- KB; exact Hi)).
  rewrite <- osum_scaled. apply osum_ext. intros m _. apply Q. rewrite <- K3. exact Hi.
Qed.
Print Assumptions repeated_dos_adds_up.

(** * The frequency axis *)
Lemma fold_pick (pick : R -> R -> R) (le : R -> R -> Prop) (Tr : forall a b c, le a b -> le b c -> le a c) (Rf : forall a, le a a)
  (P1 : forall a b, le (pick a b) a) (P2 : forall a b, le (pick a b) b) (P3 : forall a b, pick a b = a \/ pick a b = b) l : forall x,
  (forall y, In y (x :: l) -> le (fold_left pick l x) y) /\ In (fold_left pick l x) (x :: l).
Proof.
  induction l as [|z l IH]; intros x; cbn [fold_left].
  - split; [intros y [<-|[]]; apply Rf|now left].
  - destruct (IH (pick x z)) as [A B]. split.
    + intros y [<-|[<-|Hy]].
      * eapply Tr; [apply A; now left|apply P1].
      * eapply Tr; [apply A; now left|apply P2].
      * apply A. now right.
    + destruct B as [B|B]; [rewrite <- B; destruct (P3 x z) as [->| ->]; [now left|right; now left]|right; now right].
Qed.
Theorem dos_frequencies : forall p sigma n, mesh_freqs p <> [] -> 1 <= n ->
  exists d lo hi, dos_init p sigma n = Ok d /\ In lo (mesh_freqs p) /\ In hi (mesh_freqs p) /\ (forall w, In w (mesh_freqs p) -> (lo <= w <= hi)%R) /\
    length (d_freq d) = n /\ (forall i, i < n -> nth i (d_freq d) 0%R = (lo - 2 + INR i * ((hi - lo + 4) / INR n))%R) /\
    (forall i, i < n -> (lo - 2 <= nth i (d_freq d) 0 < hi + 2)%R) /\
    (sigma = 0%R -> fresh d) /\ (sigma <> 0%R -> fresh_smear d).
Proof.
  intros p sigma n NE Hn. unfold dos_init. fold (mesh_freqs p). destruct (mesh_freqs p) as [|w ws] eqn:E; [congruence|]. cbn [fold_minmax bind].
  destruct (fold_pick Rmin (fun a b => a <= b)%R) with (l := ws) (x := w) as [A1 A2]; try (intros; lra); [apply Rmin_l|apply Rmin_r|intros a b; unfold Rmin; destruct (Rle_dec a b); tauto|].
  destruct (fold_pick Rmax (fun a b => a >= b)%R) with (l := ws) (x := w) as [B1 B2]; try (intros; lra); [intros; apply Rle_ge, Rmax_l|intros; apply Rle_ge, Rmax_r|intros a b; unfold Rmax; destruct (Rle_dec a b); tauto|].
  set (lo := fold_left Rmin ws w) in *. set (hi := fold_left Rmax ws w) in *. pose proof (inr_pos n Hn) as Pn.
  eexists _, lo, hi. split; [reflexivity|]. cbn [d_freq d_pdos d_sigma].
  assert (LH : (lo <= hi)%R) by (apply A1 in B2; exact B2).
  assert (NT : forall i, i < n -> nth i (map (fun i0 => (lo - 2 + INR i0 * ((hi - lo + 4) / INR n))%R) (seq 0 n)) 0%R = (lo - 2 + INR i * ((hi - lo + 4) / INR n))%R).
  { intros i Hi. rewrite (nth_indep _ 0%R (lo - 2 + INR 0 * ((hi - lo + 4) / INR n))%R) by (now rewrite map_length, seq_length).
    rewrite (map_nth (fun i0 => (lo - 2 + INR i0 * ((hi - lo + 4) / INR n))%R) (seq 0 n) 0). rewrite seq_nth by exact Hi. reflexivity. }
  assert (FZ : forall c m, In c (map (fun _ : R => fun _ : nat => num 0) (map (fun i0 => (lo - 2 + INR i0 * ((hi - lo + 4) / INR n))%R) (seq 0 n))) -> c m = Some 0%R).
  { intros c m H. apply in_map_iff in H. destruct H as (? & <- & _). reflexivity. }
  split; [exact A2|]. split; [exact B2|]. split; [intros y Hy; split; [apply A1; exact Hy|apply Rge_le, B1; exact Hy]|].
  split; [now rewrite map_length, seq_length|]. split; [exact NT|]. split.
  - intros i Hi. rewrite NT by exact Hi. pose proof (lt_INR _ _ Hi) as Li. pose proof (pos_INR i).
    assert (S0 : (0 < (hi - lo + 4) / INR n)%R) by (apply Rdiv_lt_0_compat; lra). split.
    + assert (0 <= INR i * ((hi - lo + 4) / INR n))%R by (apply Rmult_le_pos; lra). lra.
    + assert (INR i * ((hi - lo + 4) / INR n) < INR n * ((hi - lo + 4) / INR n))%R by (apply Rmult_lt_compat_r; assumption).
      assert (INR n * ((hi - lo + 4) / INR n) = hi - lo + 4)%R by (field; lra). lra.
  - split; intros S; (split; [exact S|split; [cbn [d_pdos d_freq]; exact (map_length _ _)|exact FZ]]).
Qed.
Print Assumptions dos_frequencies.

(** The two-point chain, smeared and evaluated three times. *)
Example chain_smeared : exists d d1 d3, dos_init two_point_chain (1 / 10) 200 = Ok d /\ dos_set two_point_chain d = Ok d1 /\ dos_calls two_point_chain 3 d = Ok d3 /\
  d_tdos d3 = map (scaled 3) (d_tdos d1) /\ d_tdos d1 = map (fun f => Some (smeared two_point_chain (1 / 10) f)) (d_freq d).
Proof.
  destruct (dos_frequencies two_point_chain (1 / 10) 200) as (d & lo & hi & E & _ & _ & _ & L & _ & _ & _ & F); [discriminate|lia|].
  specialize (F ltac:(lra)). assert (SG : d_sigma d = (1 / 10)%R).
  { unfold dos_init in E. cbn [two_point_chain p_modes map fst concat app fold_minmax bind] in E. injection E as <-. reflexivity. }
  destruct (gaussian_dos_total two_point_chain d two_point_formed two_point_normalised F) as (d1 & E1 & _ & T). exists d, d1.
  destruct (repeated_dos_adds_up two_point_chain d d1) with (k := 2) as (d3 & E3 & _ & T3 & _); try apply F; [left; apply F|exact E1|].
  exists d3. repeat split; try assumption. rewrite <- SG. exact T.
Qed.
