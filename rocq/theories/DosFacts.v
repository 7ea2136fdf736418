(** Lemmas about Dos.v. *)
From Coquelicot Require Import Coquelicot.
From Coq Require Import Reals Lra Bool Lia Arith List Sorted Permutation.
From Verif Require Import Base Field Phonon Thermal Band Dos PropsThermal PropsTetra.
Import ListNotations.
Local Open Scope list_scope.
Local Open Scope nat_scope.

(** ** option sums *)
Lemma oadd_assoc x y z : oadd x (oadd y z) = oadd (oadd x y) z.
Proof. destruct x, y, z; cbn; try reflexivity. f_equal. ring. Qed.
Lemma oadd_comm x y : oadd x y = oadd y x.
Proof. destruct x, y; cbn; try reflexivity. f_equal. ring. Qed.
Lemma oadd_0l x : oadd (num 0) x = x.
Proof. destruct x; cbn; try reflexivity. f_equal. ring. Qed.
Lemma oadd_0r x : oadd x (num 0) = x.
Proof. rewrite oadd_comm. apply oadd_0l. Qed.
Lemma osum_ext n f g : (forall m, m < n -> f m = g m) -> osum n f = osum n g.
Proof. induction n as [|n IH]; intros H; cbn [osum]; [reflexivity|]. rewrite IH, (H n) by (intros; try apply H; lia). reflexivity. Qed.
Lemma osum_add n f g : osum n (fun m => oadd (f m) (g m)) = oadd (osum n f) (osum n g).
Proof.
  induction n as [|n IH]; cbn [osum]; [rewrite oadd_0l; reflexivity|]. rewrite IH, <- !oadd_assoc. f_equal.
  rewrite !oadd_assoc. f_equal. apply oadd_comm.
Qed.
Lemma osum_zero n : osum n (fun _ => num 0) = num 0.
Proof. induction n as [|n IH]; cbn [osum]; [reflexivity|]. rewrite IH. cbn. unfold num. f_equal. ring. Qed.
Lemma sumR_app a b : sumR (a ++ b) = (sumR a + sumR b)%R.
Proof. induction a as [|x a IH]; cbn [app sumR]; [ring|]. rewrite IH. ring. Qed.
Lemma osum_some n f : osum n (fun m => Some (f m)) = Some (sumR (map f (seq 0 n))).
Proof.
  induction n as [|n IH]; [reflexivity|]. cbn [osum]. rewrite IH, seq_S, map_app, sumR_app. cbn. f_equal. ring.
Qed.

(** ** argsort *)
Lemma insert_arg_perm x l : Permutation (x :: l) (insert_arg x l).
Proof.
  induction l as [|y r IH]; cbn [insert_arg]; [reflexivity|]. destruct (Rle_dec _ _); [|reflexivity].
  etransitivity; [apply perm_swap|]. constructor. exact IH.
Qed.
Definition le_fst (x y : R * nat) : Prop := (fst x <= fst y)%R.
Lemma insert_arg_sorted x l : Sorted le_fst l -> Sorted le_fst (insert_arg x l).
Proof.
  intros H. induction H as [|y r Hr IH Hd]; cbn [insert_arg]; [repeat constructor|].
  destruct (Rle_dec (fst y) (fst x)) as [L|L].
  - constructor; [exact IH|]. destruct r as [|z r]; cbn [insert_arg]; [constructor; exact L|].
    destruct (Rle_dec (fst z) (fst x)); constructor; [inversion Hd; assumption|exact L].
  - constructor; [constructor; assumption|]. constructor. unfold le_fst. lra.
Qed.
Lemma fold_insert_perm l : forall acc, Permutation (l ++ acc) (fold_left (fun acc x => insert_arg x acc) l acc).
Proof.
  induction l as [|x l IH]; intros acc; cbn [fold_left app]; [reflexivity|]. etransitivity; [|apply IH].
  etransitivity; [apply Permutation_middle|]. apply Permutation_app_head. apply insert_arg_perm.
Qed.
Lemma fold_insert_sorted l : forall acc, Sorted le_fst acc -> Sorted le_fst (fold_left (fun acc x => insert_arg x acc) l acc).
Proof. induction l as [|x l IH]; intros acc H; cbn [fold_left]; [exact H|]. apply IH. apply insert_arg_sorted. exact H. Qed.
Lemma sorted_map_fst l : Sorted le_fst l -> asc (map fst l).
Proof.
  unfold asc. intros H. induction H as [|x l Hs IH Hd]; cbn [map]; constructor; [exact IH|].
  destruct Hd; cbn [map]; constructor; assumption.
Qed.
Definition pairs_of (ws : list R) : list (R * nat) := fold_left (fun acc x => insert_arg x acc) (combine ws (seq 0 (length ws))) [].
Lemma combine_seq_in ws x i : In (x, i) (combine ws (seq 0 (length ws))) -> nth i ws 0%R = x /\ i < length ws.
Proof.
  intros H. apply In_nth with (d := (0%R, 0)) in H. destruct H as (n & L & E).
  rewrite combine_length, seq_length, Nat.min_id in L.
  rewrite combine_nth in E by (now rewrite seq_length). rewrite seq_nth in E by exact L. inversion E; subst. cbn. split; [reflexivity|exact L].
Qed.
Lemma pairs_perm ws : Permutation (combine ws (seq 0 (length ws))) (pairs_of ws).
Proof. rewrite <- (app_nil_r (combine _ _)). apply fold_insert_perm. Qed.
Definition sorted_of (ws : list R) : list R := take 0%R ws (argsort ws).
Lemma sorted_of_eq ws : sorted_of ws = map fst (pairs_of ws).
Proof.
  unfold sorted_of, take, argsort. fold (pairs_of ws). rewrite map_map. apply map_ext_in. intros [x i] H.
  apply (Permutation_in _ (Permutation_sym (pairs_perm ws))) in H. apply combine_seq_in in H. cbn. tauto.
Qed.
Lemma fst_combine {A B} (l : list A) : forall (r : list B), length l = length r -> map fst (combine l r) = l.
Proof. induction l as [|a l IH]; intros [|b r] H; cbn in *; try lia; [reflexivity|]. rewrite IH by lia. reflexivity. Qed.
Lemma sorted_of_perm ws : Permutation ws (sorted_of ws).
Proof.
  rewrite sorted_of_eq. etransitivity; [|apply Permutation_map; apply pairs_perm].
  rewrite fst_combine by (now rewrite seq_length). reflexivity.
Qed.
Lemma sorted_of_asc ws : asc (sorted_of ws).
Proof. rewrite sorted_of_eq. apply sorted_map_fst. apply fold_insert_sorted. constructor. Qed.
Lemma sorted_of_length ws : length (sorted_of ws) = length ws.
Proof. symmetry. apply Permutation_length, sorted_of_perm. Qed.

(** argsort of an ascending list changes nothing *)
Lemma insert_last x l : Forall (fun y => le_fst y x) l -> insert_arg x l = l ++ [x].
Proof.
  intros H. induction H as [|y r Hy Hr IH]; cbn [insert_arg app]; [reflexivity|].
  destruct (Rle_dec (fst y) (fst x)) as [_|C]; [rewrite IH; reflexivity|contradiction].
Qed.
Lemma fold_insert_asc l : forall acc, StronglySorted le_fst l -> (forall x, In x l -> Forall (fun y => le_fst y x) acc) ->
  fold_left (fun acc x => insert_arg x acc) l acc = acc ++ l.
Proof.
  induction l as [|x l IH]; intros acc S H; cbn [fold_left]; [now rewrite app_nil_r|].
  inversion S; subst. rewrite insert_last by (apply H; now left). rewrite IH; [now rewrite <- app_assoc|assumption|].
  intros y Hy. apply Forall_app. split; [apply H; now right|]. apply Forall_cons; [|apply Forall_nil].
  rewrite Forall_forall in H3. apply H3. exact Hy.
Qed.
Lemma le_fst_trans : Relations_1.Transitive le_fst.
Proof. intros x y z. unfold le_fst. lra. Qed.
Lemma sorted_combine ws : forall n, asc ws -> Sorted le_fst (combine ws (seq n (length ws))).
Proof.
  induction ws as [|w ws IH]; intros n H; cbn [combine length seq]; [constructor|].
  inversion H; subst. constructor; [apply IH; assumption|]. destruct ws as [|w' ws]; cbn; constructor.
  inversion H3; assumption.
Qed.
Lemma snd_combine {A B} (l : list A) : forall (r : list B), length l = length r -> map snd (combine l r) = r.
Proof. induction l as [|a l IH]; intros [|b r] H; cbn in *; try lia; [reflexivity|]. rewrite IH by lia. reflexivity. Qed.
Lemma argsort_asc ws : asc ws -> argsort ws = seq 0 (length ws).
Proof.
  intros H. unfold argsort. rewrite fold_insert_asc.
  - cbn [app]. apply snd_combine. now rewrite seq_length.
  - apply Sorted_StronglySorted; [intros x y z; apply le_fst_trans|]. apply sorted_combine. exact H.
  - intros. constructor.
Qed.
Lemma take_id {A} (d : A) l : take d l (seq 0 (length l)) = l.
Proof.
  unfold take. apply (nth_ext _ _ d d); [now rewrite map_length, seq_length|].
  intros n H. rewrite map_length, seq_length in H. rewrite (nth_indep _ d (nth 0 l d)) by (now rewrite map_length, seq_length).
  rewrite (map_nth (fun i => nth i l d) (seq 0 (length l)) 0 n). rewrite seq_nth by exact H. reflexivity.
Qed.
(** the projections are never re-ordered *)
Lemma simplex_eq vol f ws Fs m : length Fs = length ws ->
  simplex vol f ws Fs m = match weights_of f (sorted_of ws) with
    | None => num 0
    | Some (g, wts) => omul (omul (num (vol / 1)) g) (mix0 wts (map (fun F => F m) Fs))
    end.
Proof.
  intros L. unfold simplex. cbn zeta. fold (sorted_of ws). rewrite (argsort_asc _ (sorted_of_asc ws)), sorted_of_length, <- L, take_id. reflexivity.
Qed.

(** ** the increment of one call *)
Definition osuml (l : list (option R)) : option R := fold_right oadd (num 0) l.
Lemma osuml_app a b : osuml (a ++ b) = oadd (osuml a) (osuml b).
Proof. unfold osuml. induction a as [|x a IH]; cbn [app fold_right]; [now rewrite oadd_0l|]. rewrite IH. apply oadd_assoc. Qed.
Lemma osum_osuml {A} n (g : A -> nat -> option R) l :
  osum n (fun m => osuml (map (fun x => g x m) l)) = osuml (map (fun x => osum n (g x)) l).
Proof.
  induction l as [|x l IH]; cbn [map osuml fold_right]; [apply osum_zero|].
  rewrite osum_add. f_equal. exact IH.
Qed.
Lemma osuml_some {A} (h : A -> R) (g : A -> option R) l : (forall x, In x l -> g x = Some (h x)) -> osuml (map g l) = Some (sumR (map h l)).
Proof.
  induction l as [|x l IH]; intros H; cbn [map osuml fold_right sumR]; [reflexivity|].
  rewrite (H x) by now left. change (fold_right oadd (num 0) (map g l)) with (osuml (map g l)). rewrite IH by (intros; apply H; now right). reflexivity.
Qed.

Definition mode0 : list R * cmat := ([], fun _ _ => RtoC 0).
Definition mode_at (p : proc) (i : nat) : list R * cmat := nth i (p_modes p) mode0.
Definition freq_at (p : proc) (b i : nat) : R := nth b (fst (mode_at p i)) 0%R.
Definition weight_at (p : proc) (b i m : nat) : R := abs2 (snd (mode_at p i) b m).
Definition well_formed (p : proc) : Prop :=
  length (p_modes p) = length (p_k p) /\ Forall (fun m => length (fst m) = p_n p) (p_modes p).
Lemma corner_ok p b i : well_formed p -> i < length (p_modes p) -> b < p_n p ->
  corner p b i = Ok (freq_at p b i, weight_at p b i).
Proof.
  intros [_ W] Hi Hb. unfold corner, py_nth.
  rewrite (nth_error_nth' _ mode0 Hi). cbn [of_option bind]. fold (mode_at p i).
  assert (Hm : length (fst (mode_at p i)) = p_n p) by (rewrite Forall_forall in W; apply W; apply nth_In; exact Hi).
  rewrite (nth_error_nth' _ 0%R) by lia. reflexivity.
Qed.
Definition simplex_at (p : proc) (vol f : R) (x : nat * list nat) (m : nat) : option R :=
  simplex vol f (map (freq_at p (fst x)) (snd x)) (map (weight_at p (fst x)) (snd x)) m.
Definition good_cells (p : proc) (cells : list (list nat)) : Prop :=
  Forall (fun ix => 2 <= length ix <= 4 /\ Forall (fun i => i < length (p_modes p)) ix) cells.
Lemma corners_ok p b ix : well_formed p -> Forall (fun i => i < length (p_modes p)) ix -> b < p_n p ->
  mapM (corner p b) ix = Ok (map (fun i => (freq_at p b i, weight_at p b i)) ix).
Proof.
  intros W H Hb. apply mapM_total. intros i Hi. apply corner_ok; try assumption. rewrite Forall_forall in H. apply H. exact Hi.
Qed.
Lemma add_cells_ok p vol f b cells : well_formed p -> good_cells p cells -> b < p_n p -> forall col,
  exists col', add_cells p vol f b cells col = Ok col' /\
    forall m, col' m = oadd (col m) (osuml (map (fun x => simplex_at p vol f x m) (map (pair b) cells))).
Proof.
  intros W G Hb. induction G as [|ix r [L H] G IH]; intros col; cbn [add_cells].
  - exists col. split; [reflexivity|]. intros m. cbn. now rewrite oadd_0r.
  - rewrite (corners_ok _ _ _ W H Hb). cbn [bind]. edestruct IH as (col' & E & Q). exists col'. split; [exact E|].
    intros m. rewrite Q. cbn [map osuml fold_right]. rewrite <- oadd_assoc. rewrite !map_map. reflexivity.
Qed.
Definition pairs (p : proc) (cells : list (list nat)) : list (nat * list nat) := list_prod (seq 0 (p_n p)) cells.
Definition increment (p : proc) (vol : R) (cells : list (list nat)) (f : R) (m : nat) : option R :=
  osuml (map (fun x => simplex_at p vol f x m) (pairs p cells)).
Lemma add_bands_ok p vol f cells bands : well_formed p -> good_cells p cells -> Forall (fun b => b < p_n p) bands -> forall col,
  exists col', add_bands p vol f cells bands col = Ok col' /\
    forall m, col' m = oadd (col m) (osuml (map (fun x => simplex_at p vol f x m) (list_prod bands cells))).
Proof.
  intros W G B. induction B as [|b r Hb B IH]; intros col; cbn [add_bands].
  - exists col. split; [reflexivity|]. intros m. cbn. now rewrite oadd_0r.
  - destruct (add_cells_ok p vol f b cells W G Hb col) as (c1 & E1 & Q1). rewrite E1. cbn [bind].
    destruct (IH c1) as (c2 & E2 & Q2). exists c2. split; [exact E2|]. intros m. rewrite Q2, Q1. cbn [list_prod].
    rewrite map_app, osuml_app, oadd_assoc. reflexivity.
Qed.
Lemma tetra_ok p vol cells : well_formed p -> good_cells p cells -> forall freq cols, length cols = length freq ->
  exists cols', tetra p vol cells freq cols = Ok cols' /\ length cols' = length freq /\
    forall i m, i < length freq -> nth i cols' (fun _ => num 0) m =
      oadd (nth i cols (fun _ => num 0) m) (increment p vol cells (nth i freq 0%R) m).
Proof.
  intros W G. induction freq as [|f fr IH]; intros [|c cr] L; cbn [length] in L; try lia; cbn [tetra].
  - exists []. repeat split. intros; cbn in *; lia.
  - destruct (add_bands_ok p vol f cells (seq 0 (p_n p)) W G) with (col := c) as (c' & E & Q).
    { apply Forall_forall. intros b Hb. apply in_seq in Hb. lia. }
    rewrite E. cbn [bind]. destruct (IH cr) as (r & E' & L' & Q'); [lia|]. rewrite E'. cbn [bind]. exists (c' :: r). split; [reflexivity|].
    split; [cbn; lia|]. intros [|i] m Hi; cbn [nth]; [apply Q|]. apply Q'. cbn in Hi. lia.
Qed.

(** ** the sum over degrees of freedom *)
Definition normalised (p : proc) : Prop :=
  Forall (fun m => forall b, b < p_n p -> sumR (map (fun j => (Cmod (snd m b j) ^ 2)%R) (seq 0 (p_n p))) = 1%R) (p_modes p).
Lemma weight_sum p b i : normalised p -> i < length (p_modes p) -> b < p_n p -> sumR (map (weight_at p b i) (seq 0 (p_n p))) = 1%R.
Proof. intros N Hi Hb. unfold normalised in N. rewrite Forall_forall in N. apply (N (mode_at p i)); [apply nth_In; exact Hi|exact Hb]. Qed.

Lemma mix_some l : forall F acc, length F = length l ->
  mix (Some acc) (map Some l) F = Some (acc + sumR (map (fun x => fst x * snd x) (combine l F)))%R.
Proof.
  induction l as [|i l IH]; intros [|x F] acc L; cbn [length] in L; try lia; cbn [map mix combine sumR].
  - f_equal. ring.
  - cbn [oadd omul obind num]. unfold num. cbn [omul oadd obind]. rewrite IH by lia. f_equal. cbn [fst snd]. ring.
Qed.
Lemma mix0_some l F : length F = length l -> mix0 (map Some l) F = Some (sumR (map (fun x => fst x * snd x) (combine l F)))%R.
Proof.
  intros L. destruct l as [|i l], F as [|x F]; cbn [length] in L; try lia; [reflexivity|]. cbn [map mix0 combine sumR].
  cbn [num]. unfold num. cbn [omul obind]. rewrite mix_some by lia. cbn [fst snd]. reflexivity.
Qed.
Lemma sumR_scal {A} k (g : A -> R) l : sumR (map (fun x => k * g x)%R l) = (k * sumR (map g l))%R.
Proof. induction l as [|x l IH]; cbn [map sumR]; [ring|]. rewrite IH. ring. Qed.
Lemma sumR_plus {A} (g h : A -> R) l : sumR (map (fun x => g x + h x)%R l) = (sumR (map g l) + sumR (map h l))%R.
Proof. induction l as [|x l IH]; cbn [map sumR]; [ring|]. rewrite IH. ring. Qed.
Lemma sumR_zero {A} (l : list A) : sumR (map (fun _ => 0%R) l) = 0%R.
Proof. induction l as [|x l IH]; cbn [map sumR]; [reflexivity|]. rewrite IH. ring. Qed.
Lemma sum_mix n l : forall Fs : list (nat -> R), length Fs = length l -> Forall (fun F => sumR (map F (seq 0 n)) = 1%R) Fs ->
  sumR (map (fun m => sumR (map (fun x => fst x * snd x)%R (combine l (map (fun F => F m) Fs)))) (seq 0 n)) = sumR l.
Proof.
  induction l as [|i l IH]; intros [|F Fs] L H; cbn [length] in L; try lia; cbn [map combine sumR].
  - apply sumR_zero.
  - inversion H; subst. rewrite sumR_plus. cbn [fst snd]. rewrite sumR_scal, IH by (try assumption; lia). rewrite H2. ring.
Qed.
(** a frequency at which every weight of the simplex is finite *)
Definition regular (f : R) (ws : list R) : Prop := weights_of f (sorted_of ws) = None \/ proper_weights (weights_of f (sorted_of ws)) f (sorted_of ws).
Lemma simplex_total n vol f ws Fs : length Fs = length ws -> Forall (fun F => sumR (map F (seq 0 n)) = 1%R) Fs -> regular f ws ->
  osum n (simplex vol f ws Fs) = Some (vol * density (weights_of f (sorted_of ws)))%R.
Proof.
  intros L H R. rewrite (osum_ext n _ _ (fun m _ => simplex_eq vol f ws Fs m L)). destruct R as [R|(g & l & R & Ll & G & P & S1 & _)]; rewrite R.
  - rewrite osum_zero. cbn. unfold num. f_equal. ring.
  - rewrite sorted_of_length in Ll.
    rewrite (osum_ext n _ (fun m => Some (vol * g * sumR (map (fun x => fst x * snd x) (combine l (map (fun F => F m) Fs))))%R)).
    + rewrite osum_some. f_equal. rewrite sumR_scal, sum_mix by (try assumption; lia). rewrite S1. cbn [density]. ring.
    + intros m _. rewrite mix0_some by (rewrite map_length; lia). unfold num. cbn [omul obind]. f_equal. f_equal. field.
Qed.

(** ** the total as a function of the frequency *)
Definition corners (p : proc) (x : nat * list nat) : list R := map (freq_at p (fst x)) (snd x).
Definition total_at (p : proc) (vol : R) (cells : list (list nat)) (f : R) : R :=
  sumR (map (fun x => vol * density (weights_of f (sorted_of (corners p x))))%R (pairs p cells)).
Lemma pairs_in p cells x : good_cells p cells -> In x (pairs p cells) ->
  fst x < p_n p /\ 2 <= length (snd x) <= 4 /\ Forall (fun i => i < length (p_modes p)) (snd x).
Proof.
  intros G H. destruct x as [b ix]. apply in_prod_iff in H. destruct H as [Hb Hx]. apply in_seq in Hb. unfold good_cells in G. rewrite Forall_forall in G.
  specialize (G ix Hx). cbn. split; [lia|exact G].
Qed.
Lemma increment_total p vol cells f : well_formed p -> normalised p -> good_cells p cells ->
  (forall x, In x (pairs p cells) -> regular f (corners p x)) ->
  osum (p_n p) (increment p vol cells f) = Some (total_at p vol cells f).
Proof.
  intros W N G R. unfold increment. rewrite (osum_osuml (p_n p) (fun x m => simplex_at p vol f x m)).
  apply osuml_some. intros x Hx. destruct (pairs_in _ _ _ G Hx) as (Hb & _ & Hi). unfold simplex_at. apply simplex_total.
  - unfold corners. now rewrite !map_length.
  - apply Forall_forall. intros F HF. apply in_map_iff in HF. destruct HF as (i & <- & Hi'). apply weight_sum; try assumption.
    rewrite Forall_forall in Hi. apply Hi. exact Hi'.
  - apply R. exact Hx.
Qed.
Lemma asc2 w0 w1 : asc [w0; w1] -> (w0 <= w1)%R.
Proof. intros S. inversion S as [|? ? S1 H1]; subst. inversion H1; assumption. Qed.
Lemma asc3 w0 w1 w2 : asc [w0; w1; w2] -> (w0 <= w1 <= w2)%R.
Proof. intros S. inversion S as [|? ? S1 H1]; subst. apply asc2 in S1. inversion H1; subst. lra. Qed.
Lemma asc4 w0 w1 w2 w3 : asc [w0; w1; w2; w3] -> (w0 <= w1 <= w2 /\ w2 <= w3)%R.
Proof. intros S. inversion S as [|? ? S1 H1]; subst. apply asc3 in S1. inversion H1; subst. lra. Qed.
Lemma between_em a f b : ((a <= f < b) \/ ~ (a <= f < b))%R.
Proof. lra. Qed.
Lemma regular_low f ws : 2 <= length ws <= 3 -> regular f ws.
Proof.
  intros L. unfold regular. pose proof (sorted_of_asc ws) as A. rewrite <- sorted_of_length in L. destruct (sorted_of ws) as [|w0 [|w1 [|w2 [|? ?]]]]; cbn [length] in L; try lia; cbn [weights_of].
  - apply asc2 in A. destruct (between_em w0 f w1) as [B|B]; [right|left]; apply weights_1d; assumption.
  - apply asc3 in A. destruct (between_em w0 f w2) as [B|B]; [right|left]; apply weights_2d; assumption.
Qed.
Lemma regular_off f ws : 2 <= length ws <= 4 -> ~ In f ws -> regular f ws.
Proof.
  intros L NI. destruct (Nat.eq_dec (length ws) 4) as [E|E]; [|apply regular_low; lia].
  unfold regular. pose proof (sorted_of_asc ws) as A. rewrite <- sorted_of_length in E.
  assert (NI' : ~ In f (sorted_of ws)) by (intros I; apply NI; apply (Permutation_in _ (Permutation_sym (sorted_of_perm ws))); exact I).
  destruct (sorted_of ws) as [|w0 [|w1 [|w2 [|w3 [|? ?]]]]]; cbn [length] in E; try lia; cbn [weights_of].
  apply asc4 in A. assert (ND : ~ (w0 = w1 /\ f = w1 /\ w1 < w2)%R) by (intros (_ & X & _); apply NI'; right; left; congruence).
  destruct (between_em w0 f w3) as [B|B]; [right|left]; apply weights_3d; assumption.
Qed.
Lemma proper_density w f ws : proper_weights w f ws -> (0 <= density w)%R.
Proof. intros (g & l & -> & _ & G & _). exact G. Qed.
Lemma density_nonneg f ws : asc ws -> (0 <= density (weights_of f ws))%R.
Proof.
  intros A. destruct ws as [|w0 [|w1 [|w2 [|w3 [|? ?]]]]]; cbn [weights_of]; try (cbn; lra).
  - apply asc2 in A. destruct (between_em w0 f w1) as [B|B].
    + eapply proper_density. apply (weights_1d f w0 w1 A). exact B.
    + rewrite (proj2 (weights_1d f w0 w1 A) B). cbn. lra.
  - apply asc3 in A. destruct (between_em w0 f w2) as [B|B].
    + eapply proper_density. apply (weights_2d f w0 w1 w2 A). exact B.
    + rewrite (proj2 (weights_2d f w0 w1 w2 A) B). cbn. lra.
  - apply asc4 in A.
    assert (D : (w0 = w1 /\ f = w1 /\ w1 < w2)%R \/ ~ (w0 = w1 /\ f = w1 /\ w1 < w2)%R)
      by (destruct (Req_dec w0 w1), (Req_dec f w1), (Rlt_dec w1 w2); tauto).
    destruct D as [(E0 & E1 & E2)|D].
    + subst. destruct (weights_3d_not_finite w1 w2 w3) as (l & ->); [lra|]. cbn. lra.
    + destruct (between_em w0 f w3) as [B|B].
      * eapply proper_density. apply (weights_3d f w0 w1 w2 w3 A D). exact B.
      * rewrite (proj2 (weights_3d f w0 w1 w2 w3 A D) B). cbn. lra.
Qed.
Lemma sumR_nonneg {A} (g : A -> R) l : (forall x, In x l -> (0 <= g x)%R) -> (0 <= sumR (map g l))%R.
Proof. induction l as [|x l IH]; intros H; cbn [map sumR]; [lra|]. pose proof (H x (or_introl eq_refl)). pose proof (IH (fun y Hy => H y (or_intror Hy))). lra. Qed.
Lemma total_nonneg p vol cells f : (0 <= vol)%R -> (0 <= total_at p vol cells f)%R.
Proof. intros V. apply sumR_nonneg. intros x _. apply Rmult_le_pos; [exact V|]. apply density_nonneg, sorted_of_asc. Qed.

(** the frequencies at the corners of the simplex are all the same *)
Definition flatb (ws : list R) : bool := forallb (fun w => if Req_EM_T w (nth 0 ws 0%R) then true else false) ws.
Lemma flatb_true ws : flatb ws = true -> forall x y, In x ws -> In y ws -> x = y.
Proof.
  unfold flatb. rewrite forallb_forall. intros H x y Hx Hy. pose proof (H x Hx) as A. pose proof (H y Hy) as B. cbn beta in A, B.
  destruct (Req_EM_T x (nth 0 ws 0%R)) as [->|]; [|discriminate]. destruct (Req_EM_T y (nth 0 ws 0%R)) as [->|]; [reflexivity|discriminate].
Qed.
Lemma flatb_false ws : flatb ws = false -> exists x y, In x ws /\ In y ws /\ x <> y.
Proof.
  unfold flatb. intros H.
  assert (E : exists x, In x ws /\ (if Req_EM_T x (nth 0 ws 0%R) then true else false) = false).
  { clear -H. revert H. generalize (nth 0 ws 0%R). intros z. induction ws as [|w ws IH]; cbn [forallb]; [discriminate|].
    destruct (Req_EM_T w z) eqn:E; cbn [andb].
    - intros H. destruct (IH H) as (x & Hx & Q). exists x. split; [now right|exact Q].
    - intros _. exists w. split; [now left|]. rewrite E. reflexivity. }
  destruct E as (x & Hx & Q). exists x, (nth 0 ws 0%R). split; [exact Hx|]. split.
  - destruct ws; [destruct Hx|]. left. reflexivity.
  - destruct (Req_EM_T x (nth 0 ws 0%R)); [discriminate|assumption].
Qed.
Lemma last_in (ws : list R) : ws <> [] -> In (last ws 0%R) ws.
Proof.
  induction ws as [|w ws IH]; [congruence|]. intros _. destruct ws as [|w' ws]; [left; reflexivity|]. right. apply IH. discriminate.
Qed.
Lemma asc_bounds ws x : asc ws -> In x ws -> (nth 0 ws 0 <= x <= last ws 0)%R.
Proof.
  unfold asc. intros S. apply Sorted_StronglySorted in S; [|intros a b c; lra].
  induction S as [|w ws S IH H]; intros I; [destruct I|]. rewrite Forall_forall in H. cbn [nth].
  assert (K : (w <= x <= last (w :: ws) 0)%R \/ True) by now right. clear K.
  destruct ws as [|w' ws].
  - destruct I as [<-|[]]. cbn. lra.
  - change (last (w :: w' :: ws) 0%R) with (last (w' :: ws) 0%R). destruct I as [<-|I].
    + split; [lra|]. apply H. apply last_in. discriminate.
    + pose proof (H x I). specialize (IH I). lra.
Qed.
Lemma simplex_integral ws a b : 2 <= length ws <= 4 -> Forall (fun w => a <= w <= b)%R ws ->
  is_RInt (fun f => density (weights_of f (sorted_of ws))) a b (if flatb ws then 0 else 1)%R.
Proof.
  intros L B. rewrite Forall_forall in B. pose proof (sorted_of_perm ws) as P. pose proof (sorted_of_asc ws) as A. pose proof (sorted_of_length ws) as Ls.
  assert (NE : sorted_of ws <> []) by (intros E; rewrite E in Ls; cbn in Ls; lia).
  assert (I0 : In (nth 0 (sorted_of ws) 0%R) ws) by (apply (Permutation_in _ (Permutation_sym P)), nth_In; lia).
  assert (I1 : In (last (sorted_of ws) 0%R) ws) by (apply (Permutation_in _ (Permutation_sym P)), last_in; exact NE).
  destruct (flatb ws) eqn:E.
  - apply is_RInt_zero. intros f _. rewrite weights_of_outside; [reflexivity|exact A|]. rewrite (flatb_true _ E _ _ I0 I1). lra.
  - apply simplex_states; [lia|exact A| |apply B; exact I0|apply B; exact I1].
    destruct (flatb_false _ E) as (x & y & Hx & Hy & N).
    apply (Permutation_in _ P) in Hx, Hy. pose proof (asc_bounds _ _ A Hx). pose proof (asc_bounds _ _ A Hy). lra.
Qed.
Lemma is_RInt_sum {A} (h : A -> R -> R) (v : A -> R) a b l : (forall x, In x l -> is_RInt (h x) a b (v x)) ->
  is_RInt (fun f => sumR (map (fun x => h x f) l)) a b (sumR (map v l)).
Proof.
  induction l as [|x l IH]; intros H; cbn [map sumR].
  - apply is_RInt_zero. reflexivity.
  - apply (is_RInt_plus (h x) (fun f => sumR (map (fun x => h x f) l))); [apply H; now left|apply IH; intros; apply H; now right].
Qed.
Definition dispersive (p : proc) (cells : list (list nat)) : list (nat * list nat) := filter (fun x => negb (flatb (corners p x))) (pairs p cells).
Lemma sumR_filter {A} (q : A -> bool) v l : sumR (map (fun x => v * (if q x then 0 else 1))%R l) = (v * INR (length (filter (fun x => negb (q x)) l)))%R.
Proof.
  induction l as [|x l IH]; cbn [map sumR filter]; [cbn; ring|]. rewrite IH. destruct (q x); cbn [negb length]; [ring|].
  rewrite S_INR. ring.
Qed.
Lemma total_integral p vol cells a b : good_cells p cells -> Forall (fun m => Forall (fun w => a <= w <= b)%R (fst m)) (p_modes p) -> well_formed p ->
  is_RInt (total_at p vol cells) a b (vol * INR (length (dispersive p cells)))%R.
Proof.
  intros G B W. unfold dispersive. rewrite <- (sumR_filter (fun x => flatb (corners p x))).
  apply (is_RInt_sum (fun x f => vol * density (weights_of f (sorted_of (corners p x))))%R). intros x Hx.
  destruct (pairs_in _ _ _ G Hx) as (Hb & L & Hi).
  apply (is_RInt_scal (fun f => density (weights_of f (sorted_of (corners p x)))) a b vol).
  apply simplex_integral; [unfold corners; rewrite map_length; exact L|].
  unfold corners. apply Forall_forall. intros w Hw. apply in_map_iff in Hw. destruct Hw as (i & <- & Hi').
  rewrite Forall_forall in Hi, B. specialize (Hi i Hi'). destruct W as [_ W]. rewrite Forall_forall in W.
  assert (M : In (mode_at p i) (p_modes p)) by (apply nth_In; exact Hi). specialize (B _ M). rewrite Forall_forall in B.
  apply B. apply nth_In. rewrite (W _ M). exact Hb.
Qed.
