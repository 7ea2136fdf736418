(** Property theorems: what the pictures show (C90-C93).  Model: Plot.v. *)
From Coq Require Import Reals Lra.
From Coquelicot Require Import Complex.
From Coq Require Import String Ascii ZArith Bool Lia Arith List.
From Verif Require Import Base Field Phonon Band Thermal Dos Plot PropsBand PropsThermal PhononFacts.
Import ListNotations.
Local Open Scope list_scope.
Local Open Scope nat_scope.

(** * Specification *)
(** sum of [f] over the components that belong to an atom of [S]: [xyz] gives the atom of each component *)
Definition picked (xyz S : list Z) (f : nat -> R) : R :=
  sum_to (length xyz) (fun m => if in_dec Z.eq_dec (nth m xyz 0%Z) S then f m else 0%R).
(** in how many of the sets an atom is *)
Definition times (z : Z) (sets : list (list Z)) : nat := length (filter (fun S => if in_dec Z.eq_dec z S then true else false) sets).
(** each atom with a component is in exactly one of the sets *)
Definition covered_once (xyz : list Z) (sets : list (list Z)) : Prop := forall z, In z xyz -> times z sets = 1.
(** the point for frequency [f] and density [v]: frequency to the right, or upwards in a vertical picture *)
Definition place (vertical : bool) (f v : R) : option R * option R := if vertical then (Some v, Some f) else (Some f, Some v).
(** a density of states all of whose numbers are finite: frequencies F, total T, component m at the i-th frequency P i m *)
Definition finite_dos (d : dos) (n : nat) (F T : list R) (P : nat -> nat -> R) : Prop :=
  d_freq d = F /\ d_tdos d = map Some T /\ length T = length F /\ length (d_pdos d) = length F /\
  forall i m c, nth_error (d_pdos d) i = Some c -> m < n -> c m = Some (P i m).

(** * Proofs *)
Lemma sum_to_ext n f g : (forall m, m < n -> f m = g m) -> sum_to n f = sum_to n g.
Proof. induction n as [|n IH]; intros H; cbn [sum_to]; [reflexivity|]. rewrite IH by (intros; apply H; lia). rewrite H by lia. reflexivity. Qed.
Lemma sum_to_plus n f g : sum_to n (fun m => f m + g m)%R = (sum_to n f + sum_to n g)%R.
Proof. induction n as [|n IH]; cbn [sum_to]; [ring|]. rewrite IH. ring. Qed.
Lemma sum_to_zero n : sum_to n (fun _ => 0%R) = 0%R.
Proof. induction n as [|n IH]; cbn [sum_to]; [reflexivity|]. rewrite IH. ring. Qed.
Lemma sum_to_nonneg n f : (forall m, m < n -> (0 <= f m)%R) -> (0 <= sum_to n f)%R.
Proof. induction n as [|n IH]; intros H; cbn [sum_to]; [lra|]. assert (0 <= f n)%R by (apply H; lia). assert (0 <= sum_to n f)%R by (apply IH; intros; apply H; lia). lra. Qed.
Lemma sum_to_le n f g : (forall m, m < n -> (f m <= g m)%R) -> (sum_to n f <= sum_to n g)%R.
Proof. induction n as [|n IH]; intros H; cbn [sum_to]; [lra|]. assert (f n <= g n)%R by (apply H; lia). assert (sum_to n f <= sum_to n g)%R by (apply IH; intros; apply H; lia). lra. Qed.
Lemma sum_to_app n f x : sum_to (n + 1) (fun m => if m <? n then f m else x) = (sum_to n f + x)%R.
Proof.
  rewrite Nat.add_1_r. cbn [sum_to]. rewrite Nat.ltb_irrefl. f_equal. apply sum_to_ext. intros m H.
  apply Nat.ltb_lt in H. rewrite H. reflexivity.
Qed.

Lemma mode_indices_snoc xyz z S : mode_indices (xyz ++ [z]) S = mode_indices xyz S ++ (if existsb (Z.eqb z) S then [length xyz] else []).
Proof.
  unfold mode_indices. rewrite app_length. cbn [length]. rewrite seq_app. cbn [seq].
  assert (C : forall (a b : list nat) (x y : list Z), length a = length x -> combine (a ++ b) (x ++ y) = combine a x ++ combine b y).
  { induction a as [|i a IH]; intros b [|v x] y H; cbn in *; try discriminate; [reflexivity|]. f_equal. apply IH. lia. }
  rewrite C by apply seq_length. rewrite filter_app, map_app. f_equal. cbn [combine filter snd]. destruct (existsb (Z.eqb z) S); reflexivity.
Qed.
Lemma existsb_in z S : existsb (Z.eqb z) S = if in_dec Z.eq_dec z S then true else false.
Proof.
  destruct (in_dec Z.eq_dec z S) as [H|H].
  - apply existsb_exists. exists z. split; [exact H|apply Z.eqb_refl].
  - destruct (existsb (Z.eqb z) S) eqn:E; [|reflexivity]. apply existsb_exists in E. destruct E as (y & Hy & Q). apply Z.eqb_eq in Q. subst. contradiction.
Qed.
Lemma mode_indices_bound xyz S m : In m (mode_indices xyz S) -> m < length xyz.
Proof.
  unfold mode_indices. rewrite in_map_iff. intros ((i & v) & <- & H). apply filter_In in H. destruct H as (H & _).
  apply in_combine_l in H. apply in_seq in H. cbn [fst]. lia.
Qed.
Lemma picked_snoc xyz z S f : picked (xyz ++ [z]) S f = (picked xyz S f + (if in_dec Z.eq_dec z S then f (length xyz) else 0))%R.
Proof.
  unfold picked. rewrite app_length. cbn [length]. rewrite Nat.add_1_r. cbn [sum_to]. f_equal.
  - apply sum_to_ext. intros m H. rewrite app_nth1 by exact H. reflexivity.
  - rewrite app_nth2 by lia. rewrite Nat.sub_diag. reflexivity.
Qed.
Lemma fold_modes xyz S (f : nat -> R) : fold_left (fun a m => (a + f m)%R) (mode_indices xyz S) 0%R = picked xyz S f.
Proof.
  induction xyz as [|z xyz IH] using rev_ind; [reflexivity|].
  rewrite mode_indices_snoc, fold_left_app, IH, picked_snoc, existsb_in.
  destruct (in_dec Z.eq_dec z S); cbn [fold_left]; [reflexivity|ring].
Qed.

(** the rows of finite numbers *)
Definition rowR (F : list R) (g : nat -> R) : list (option R) := map (fun i => Some (g i)) (seq 0 (length F)).
Lemma rowR_length F g : length (rowR F g) = length F.
Proof. unfold rowR. rewrite map_length, seq_length. reflexivity. Qed.
Lemma map2_rowR F f g : map2 oadd (rowR F f) (rowR F g) = rowR F (fun i => f i + g i)%R.
Proof. unfold rowR. induction (seq 0 (length F)) as [|i l IH]; cbn [map map2]; [reflexivity|]. rewrite IH. reflexivity. Qed.
Lemma zero_rowR F : map (fun _ : R => num 0) F = rowR F (fun _ => 0%R).
Proof.
  unfold rowR. assert (G : forall a, map (fun _ : R => num 0) F = map (fun _ : nat => Some 0%R) (seq a (length F))).
  { induction F as [|x F IH]; intros a; cbn [map length seq]; [reflexivity|]. f_equal. apply IH. }
  apply G.
Qed.
Lemma rowR_ext F f g : (forall i, i < length F -> f i = g i) -> rowR F f = rowR F g.
Proof. intros H. unfold rowR. apply map_ext_in. intros i Hi. apply in_seq in Hi. rewrite H by lia. reflexivity. Qed.

Lemma component_row d n F T P m : finite_dos d n F T P -> m < n -> map (fun c : column => c m) (d_pdos d) = rowR F (fun i => P i m).
Proof.
  intros (_ & _ & _ & L & H) Hm. unfold rowR. rewrite <- L. clear L.
  assert (G : forall a, (forall i c, nth_error (d_pdos d) i = Some c -> c m = Some (P (a + i) m)) ->
              map (fun c : column => c m) (d_pdos d) = map (fun i => Some (P i m)) (seq a (length (d_pdos d)))).
  { clear H. induction (d_pdos d) as [|c cs IH]; intros a H; cbn [map length seq]; [reflexivity|]. f_equal.
    - specialize (H 0 c eq_refl). rewrite Nat.add_0_r in H. exact H.
    - apply IH. intros i c' Hc. specialize (H (S i) c' Hc). rewrite Nat.add_succ_r in H. exact H. }
  apply G. intros i c Hc. exact (H i m c Hc Hm).
Qed.
Lemma set_curve_finite d xyz F T P S : finite_dos d (length xyz) F T P -> set_curve d xyz S = Ok (rowR F (fun i => picked xyz S (P i))).
Proof.
  intros H. unfold set_curve. destruct H as (HF & H'). rewrite HF, zero_rowR.
  assert (H : finite_dos d (length xyz) F T P) by (split; assumption). clear H'.
  assert (G : forall ms g, (forall m, In m ms -> m < length xyz) ->
     fold_left (fun acc m => let! a := acc in add_row a (map (fun c : column => c m) (d_pdos d))) ms (Ok (rowR F g))
     = Ok (rowR F (fun i => fold_left (fun a m => (a + P i m)%R) ms (g i)))).
  { induction ms as [|m ms IH]; intros g B; cbn [fold_left bind]; [reflexivity|].
    rewrite (component_row d _ _ _ _ m H) by (apply B; left; reflexivity).
    unfold add_row. rewrite !rowR_length, Nat.eqb_refl, map2_rowR. apply IH. intros m' Hm'. apply B. right. exact Hm'. }
  rewrite G by apply mode_indices_bound. f_equal. apply rowR_ext. intros i _. apply fold_modes.
Qed.
Lemma set_curves_finite d xyz F T P sets : finite_dos d (length xyz) F T P ->
  set_curves d xyz (Some sets) = Ok (map (fun S => rowR F (fun i => picked xyz S (P i))) sets).
Proof.
  intros H. unfold set_curves. apply mapM_total. intros S _. exact (set_curve_finite _ _ _ _ _ _ H).
Qed.
Lemma points_row vertical F g : points vertical F (rowR F g) = Ok (map (fun i => place vertical (nth i F 0%R) (g i)) (seq 0 (length F))).
Proof.
  unfold points. rewrite rowR_length, Nat.eqb_refl. f_equal. unfold rowR.
  assert (G : forall a (k : nat -> R), (forall i, i < length F -> nth i F 0%R = k (a + i)) ->
     map (fun fd => put vertical (Some (fst fd)) (snd fd)) (combine F (map (fun i => Some (g i)) (seq a (length F))))
     = map (fun i => place vertical (k i) (g i)) (seq a (length F))).
  { induction F as [|f F IH]; intros a k H; cbn [length seq map combine]; [reflexivity|]. f_equal.
    - specialize (H 0 ltac:(cbn; lia)). rewrite Nat.add_0_r in H. cbn [nth] in H. rewrite H. unfold put, place. cbn [fst snd]. reflexivity.
    - apply IH. intros i Hi. specialize (H (S i) ltac:(cbn; lia)). rewrite Nat.add_succ_r in H. exact H. }
  apply G. intros i Hi. reflexivity.
Qed.
Lemma row_of_list F T : length T = length F -> map Some T = rowR F (fun i => nth i T 0%R).
Proof.
  intros L. unfold rowR. rewrite <- L. clear L.
  assert (G : forall a (k : nat -> R), (forall i, i < length T -> nth i T 0%R = k (a + i)) -> map Some T = map (fun i => Some (k i)) (seq a (length T))).
  { induction T as [|t T IH]; intros a k H; cbn [length seq map]; [reflexivity|]. f_equal.
    - specialize (H 0 ltac:(cbn; lia)). rewrite Nat.add_0_r in H. cbn in H. congruence.
    - apply IH. intros i Hi. specialize (H (S i) ltac:(cbn; lia)). rewrite Nat.add_succ_r in H. exact H. }
  apply G. reflexivity.
Qed.
Lemma total_finite vertical d n F T P : finite_dos d n F T P ->
  total_art vertical d = Ok (Curve (map (fun i => place vertical (nth i F 0%R) (nth i T 0%R)) (seq 0 (length F))) (Some "total dos"%string)).
Proof.
  intros (HF & HT & L & _). unfold total_art. rewrite HF, HT, (row_of_list F T L), points_row. reflexivity.
Qed.

(** ** the frequency range *)
Lemma fold_min_spec l : forall x, (fold_left Rmin l x <= x)%R /\ (forall y, In y l -> fold_left Rmin l x <= y)%R /\ In (fold_left Rmin l x) (x :: l).
Proof.
  induction l as [|a l IH]; intros x; cbn [fold_left]; [split; [lra|]; split; [intros y []|left; reflexivity]|].
  destruct (IH (Rmin x a)) as (A & B & C). assert (Rmin x a <= x /\ Rmin x a <= a)%R as (M1 & M2) by (split; [apply Rmin_l|apply Rmin_r]).
  split; [lra|]. split.
  - intros y [<-|Hy]; [lra|apply B; exact Hy].
  - destruct C as [C|C]; [|right; right; exact C]. rewrite <- C. unfold Rmin. destruct (Rle_dec x a); [left; reflexivity|right; left; reflexivity].
Qed.
Lemma fold_max_spec l : forall x, (x <= fold_left Rmax l x)%R /\ (forall y, In y l -> y <= fold_left Rmax l x)%R /\ In (fold_left Rmax l x) (x :: l).
Proof.
  induction l as [|a l IH]; intros x; cbn [fold_left]; [split; [lra|]; split; [intros y []|left; reflexivity]|].
  destruct (IH (Rmax x a)) as (A & B & C). assert (x <= Rmax x a /\ a <= Rmax x a)%R as (M1 & M2) by (split; [apply Rmax_l|apply Rmax_r]).
  split; [lra|]. split.
  - intros y [<-|Hy]; [lra|apply B; exact Hy].
  - destruct C as [C|C]; [|right; right; exact C]. rewrite <- C. unfold Rmax. destruct (Rle_dec x a); [right; left; reflexivity|left; reflexivity].
Qed.
Lemma np_floor_spec x : (np_floor x <= x < np_floor x + 1)%R.
Proof. unfold np_floor. destruct (base_Int_part x). lra. Qed.
Lemma np_ceil_spec x : (np_ceil x - 1 < x <= np_ceil x)%R.
Proof. unfold np_ceil. destruct (np_floor_spec (- x)). lra. Qed.

(** * C91 *)
(** Without elimit the range has integer ends, contains every frequency of the run with a
    margin of at least one, and exceeds the extreme frequencies by less than two; with no
    frequency at all it cannot be found.  With elimit it is exactly the two values. *)
Theorem picture_range : forall p,
  ((forall m, In m (p_modes p) -> fst m = []) -> window p None = Err EValue) /\
  ((exists m w, In m (p_modes p) /\ In w (fst m)) -> exists a b : Z, window p None = Ok (IZR a, IZR b) /\
     (forall m w, In m (p_modes p) -> In w (fst m) -> (IZR a + 1 <= w <= IZR b - 1)%R) /\
     (exists m w, In m (p_modes p) /\ In w (fst m) /\ (w < IZR a + 2)%R) /\
     (exists m w, In m (p_modes p) /\ In w (fst m) /\ (IZR b - 2 < w)%R)) /\
  (forall a b r, window p (Some (a :: b :: r)) = Ok (a, b)) /\
  (forall l, length l < 2 -> window p (Some l) = Err EIndex).
Proof.
  intros p. split; [|split; [|split]].
  - intros H. unfold window. replace (concat (map fst (p_modes p))) with (@nil R); [reflexivity|].
    symmetry. apply concat_nil_Forall. apply Forall_forall. intros l Hl. apply in_map_iff in Hl. destruct Hl as (m & <- & Hm). exact (H m Hm).
  - intros (m & w & Hm & Hw). unfold window.
    assert (IN : forall w, In w (concat (map fst (p_modes p))) <-> exists m, In m (p_modes p) /\ In w (fst m)).
    { intros w'. rewrite in_concat. split.
      - intros (l & Hl & Hw'). apply in_map_iff in Hl. destruct Hl as (m' & <- & Hm'). eauto.
      - intros (m' & Hm' & Hw'). exists (fst m'). split; [apply in_map; exact Hm'|exact Hw']. }
    assert (W : In w (concat (map fst (p_modes p)))) by (apply IN; eauto).
    destruct (concat (map fst (p_modes p))) as [|x l] eqn:E; [contradiction|]. cbn [fold_minmax bind].
    destruct (fold_min_spec l x) as (A1 & A2 & A3). destruct (fold_max_spec l x) as (B1 & B2 & B3).
    pose proof (np_floor_spec (fold_left Rmin l x)) as NF. pose proof (np_ceil_spec (fold_left Rmax l x)) as NC.
    exists (Int_part (fold_left Rmin l x) - 1)%Z, (- Int_part (- fold_left Rmax l x) + 1)%Z.
    rewrite minus_IZR, plus_IZR, opp_IZR.
    change (IZR (Int_part (fold_left Rmin l x))) with (np_floor (fold_left Rmin l x)).
    change (- IZR (Int_part (- fold_left Rmax l x)))%R with (np_ceil (fold_left Rmax l x)).
    split; [reflexivity|]. split.
    + intros m' w' Hm' Hw'. assert (W' : In w' (x :: l)) by (apply IN; eauto).
      assert (fold_left Rmin l x <= w' <= fold_left Rmax l x)%R by (destruct W' as [<-|W']; [lra|split; [apply A2|apply B2]; exact W']). lra.
    + split.
      * apply IN in A3. destruct A3 as (m' & H1 & H2). exists m', (fold_left Rmin l x). split; [exact H1|]. split; [exact H2|]. lra.
      * apply IN in B3. destruct B3 as (m' & H1 & H2). exists m', (fold_left Rmax l x). split; [exact H1|]. split; [exact H2|]. lra.
  - reflexivity.
  - intros [|a [|b l]] H; cbn in H; try lia; reflexivity.
Qed.

(** * C90 *)
Section Pictures.
  Variable set_text : list Z -> string.

  (** the bulk curve of the options *)
  Definition bulk_drawn (vertical : bool) (o : dos_opts) : list artist :=
    match do_bulk o with
    | None => []
    | Some l =>
        let label := match do_bulk_legend o with Some s => s | None => "bulk dos"%string end in
        let pts := map (fun fd => place vertical (fst fd) (snd fd * do_prop o)%R) l in
        if String.eqb (do_bulk_option o) "line" then [Curve pts (Some label)] else [Area pts label]
    end.
  Lemma bulk_art_drawn vertical o : bulk_art vertical o = bulk_drawn vertical o.
  Proof. unfold bulk_art, bulk_drawn. destruct (do_bulk o) as [l|]; [|reflexivity]. cbv zeta. reflexivity. Qed.

  (** the curve of the density [g] over the frequencies [F] *)
  Definition drawn (vertical : bool) (F : list R) (g : nat -> R) : list (option R * option R) :=
    map (fun i => place vertical (nth i F 0%R) (g i)) (seq 0 (length F)).
  (** the axes: the range on the frequency axis, the other one from zero upwards *)
  Definition dos_picture (vertical : bool) (w : R * R) (arts : list artist) : figure :=
    let range := (Some (fst w), Some (snd w)) in
    mkFigure "dos.png" [mkAxes arts (if vertical then (Some 0%R, None) else range) (if vertical then range else (Some 0%R, None)) [] None].
  (** the texts of the sets: the given legends, or the atoms *)
  Definition legend_of (legends : option (list string)) (sets : list (list Z)) (k : nat) : string :=
    match legends with None => ("atom-" ++ set_text (nth k sets []))%string | Some l => nth k l EmptyString end.
  Definition enough (legends : option (list string)) (sets : list (list Z)) : Prop :=
    match legends with None => True | Some l => length sets <= length l end.
  Definition oriented (vertical : bool) (o : dos_opts) : Prop := do_orient o = if vertical then "vertical"%string else "horizontal"%string.

  Lemma labels_ok sets legends : enough legends sets -> set_labels set_text sets legends = Ok (map (legend_of legends sets) (seq 0 (length sets))).
  Proof.
    intros H. unfold set_labels, legend_of. destruct legends as [l|].
    - apply mapM_total. intros k Hk. apply in_seq in Hk. cbn [enough] in H. apply py_nth_nth. lia.
    - f_equal. assert (G : forall a (all : list (list Z)), (forall i, i < length sets -> nth (a + i) all [] = nth i sets []) ->
        map (fun s => ("atom-" ++ set_text s)%string) sets = map (fun k => ("atom-" ++ set_text (nth k all []))%string) (seq a (length sets))).
      { clear H. induction sets as [|s sets IH]; intros a all H; cbn [length seq map]; [reflexivity|]. f_equal.
        - specialize (H 0 ltac:(cbn; lia)). rewrite Nat.add_0_r in H. rewrite H. reflexivity.
        - apply IH. intros i Hi. specialize (H (S i) ltac:(cbn; lia)). rewrite Nat.add_succ_r in H. exact H. }
      apply G. reflexivity.
  Qed.

  Lemma orientation_cases vertical o : oriented vertical o ->
    (String.eqb (do_orient o) "horizontal" || String.eqb (do_orient o) "vertical")%bool = true /\ String.eqb (do_orient o) "vertical" = vertical.
  Proof. unfold oriented. intros ->. destruct vertical; split; reflexivity. Qed.

  (** The plain picture: the total density over the frequencies. *)
  Theorem dos_plain_picture : forall p d xyz o vertical w n F T P,
    oriented vertical o -> do_option o = "plain"%string -> window p (do_elimit o) = Ok w -> finite_dos d n F T P ->
    dos_plot set_text p d xyz o = Ok (Some (dos_picture vertical w
      (bulk_drawn vertical o ++ [Curve (drawn vertical F (fun i => nth i T 0%R)) (Some "total dos"%string)]))).
  Proof.
    intros p d xyz o vertical w n F T P HO HOP HW HD. destruct (orientation_cases _ _ HO) as (O1 & O2).
    unfold dos_plot. rewrite O1, O2, HW. cbn [bind]. unfold dos_arts. rewrite HOP. cbn [String.eqb Ascii.eqb Bool.eqb].
    rewrite (total_finite _ _ _ _ _ _ HD). cbn [bind]. rewrite bulk_art_drawn. reflexivity.
  Qed.

  (** The picture with lines: for each set of atoms one curve, at every frequency the sum of the
      components of these atoms (each counted once, however often the set names it; atoms without
      a component add nothing), after the total unless it is switched off. *)
  Theorem dos_line_picture : forall p d xyz o vertical w F T P sets,
    oriented vertical o -> do_option o = "line"%string -> window p (do_elimit o) = Ok w -> finite_dos d (length xyz) F T P ->
    do_atoms o = Some sets -> enough (do_legends o) sets ->
    dos_plot set_text p d xyz o = Ok (Some (dos_picture vertical w
      (bulk_drawn vertical o
       ++ (if do_total o then [Curve (drawn vertical F (fun i => nth i T 0%R)) (Some "total dos"%string)] else [])
       ++ map (fun k => Curve (drawn vertical F (fun i => picked xyz (nth k sets []) (P i))) (Some (legend_of (do_legends o) sets k)))
              (seq 0 (length sets))))).
  Proof.
    intros p d xyz o vertical w F T P sets HO HOP HW HD HA HL. destruct (orientation_cases _ _ HO) as (O1 & O2).
    unfold dos_plot. rewrite O1, O2, HW. cbn [bind]. unfold dos_arts. rewrite HOP. cbn [String.eqb Ascii.eqb Bool.eqb orb].
    rewrite (total_finite _ _ _ _ _ _ HD). rewrite HA, (set_curves_finite _ _ _ _ _ _ HD), (labels_ok _ _ HL).
    replace (if do_total o then _ else _) with (Ok (if do_total o then [Curve (drawn vertical F (fun i => nth i T 0%R)) (Some "total dos"%string)] else []))
      by (destruct (do_total o); reflexivity).
    cbn [bind]. assert (HF : d_freq d = F) by apply HD. rewrite HF.
    assert (M : forall a (all : list (list Z)), (forall i, i < length sets -> nth (a + i) all [] = nth i sets []) -> forall lab : nat -> string,
      mapM (fun rl => let! pts := points vertical F (fst rl) in Ok (Curve pts (Some (snd rl))))
           (combine (map (fun S => rowR F (fun i => picked xyz S (P i))) sets) (map lab (seq a (length sets))))
      = Ok (map (fun k => Curve (drawn vertical F (fun i => picked xyz (nth k all []) (P i))) (Some (lab k))) (seq a (length sets)))).
    { clear. induction sets as [|S sets IH]; intros a all H lab; cbn [length seq map combine mapM]; [reflexivity|].
      cbn [fst snd]. rewrite points_row. cbn [bind]. rewrite (IH (Datatypes.S a) all).
      - cbn [bind]. specialize (H 0 ltac:(cbn; lia)). rewrite Nat.add_0_r in H. cbn [nth] in H. rewrite H. reflexivity.
      - intros i Hi. specialize (H (Datatypes.S i) ltac:(cbn; lia)). rewrite Nat.add_succ_r in H. exact H. }
    rewrite (M 0 sets) by reflexivity. cbn [bind]. rewrite bulk_art_drawn. reflexivity.
  Qed.

  (** The stacked picture, horizontal: one layer per set, as above. *)
  Theorem dos_stack_horizontal : forall p d xyz o w F T P sets,
    oriented false o -> do_option o = "stack"%string -> window p (do_elimit o) = Ok w -> finite_dos d (length xyz) F T P ->
    do_atoms o = Some sets -> sets <> [] ->
    dos_plot set_text p d xyz o = Ok (Some (dos_picture false w
      (bulk_drawn false o
       ++ (if do_total o then [Curve (drawn false F (fun i => nth i T 0%R)) (Some "total dos"%string)] else [])
       ++ [Stack F (map (fun S => map (fun i => Some (picked xyz S (P i))) (seq 0 (length F))) sets)
                 (match do_legends o with Some l => l | None => map (fun s => ("atom-" ++ set_text s)%string) sets end)]))).
  Proof.
    intros p d xyz o w F T P sets HO HOP HW HD HA HN. destruct (orientation_cases _ _ HO) as (O1 & O2).
    unfold dos_plot. rewrite O1, O2, HW. cbn [bind]. unfold dos_arts. rewrite HOP. cbn [String.eqb Ascii.eqb Bool.eqb orb].
    rewrite (total_finite _ _ _ _ _ _ HD). rewrite HA, (set_curves_finite _ _ _ _ _ _ HD).
    replace (if do_total o then _ else _) with (Ok (if do_total o then [Curve (drawn false F (fun i => nth i T 0%R)) (Some "total dos"%string)] else []))
      by (destruct (do_total o); reflexivity).
    cbn [bind]. assert (HF : d_freq d = F) by apply HD. rewrite HF. rewrite bulk_art_drawn.
    destruct sets as [|S0 sets]; [contradiction|]. reflexivity.
  Qed.

  (** sum over the first sets *)
  Definition first_sets (xyz : list Z) (sets : list (list Z)) (k : nat) (f : nat -> R) : R :=
    sumR (map (fun S => picked xyz S f) (firstn k sets)).

  Lemma cumulate_rows F xyz P sets : forall g,
    cumulate (rowR F g) (map (fun S => rowR F (fun i => picked xyz S (P i))) sets)
    = map (fun k => rowR F (fun i => g i + first_sets xyz sets (k + 1) (P i))%R) (seq 0 (length sets)).
  Proof.
    induction sets as [|S sets IH]; intros g; cbn [map cumulate length seq]; [reflexivity|].
    cbv zeta. rewrite map2_rowR. f_equal.
    - apply rowR_ext. intros i _. unfold first_sets. cbn [Nat.add firstn map sumR]. ring.
    - rewrite IH. rewrite <- seq_shift, map_map. apply map_ext. intros k. apply rowR_ext. intros i _.
      unfold first_sets. cbn [Nat.add firstn map sumR]. ring.
  Qed.

  (** The stacked picture, vertical: area k reaches to the sum of the sets 0..k, so that between
      two successive edges lies the contribution of one set; later sets are drawn behind. *)
  Theorem dos_stack_vertical : forall p d xyz o w F T P sets,
    oriented true o -> do_option o = "stack"%string -> window p (do_elimit o) = Ok w -> finite_dos d (length xyz) F T P ->
    do_atoms o = Some sets -> enough (do_legends o) sets ->
    dos_plot set_text p d xyz o = Ok (Some (dos_picture true w
      (bulk_drawn true o
       ++ (if do_total o then [Curve (drawn true F (fun i => nth i T 0%R)) (Some "total dos"%string)] else [])
       ++ map (fun k => Band_x (drawn true F (fun i => first_sets xyz sets (k + 1) (P i))) (legend_of (do_legends o) sets k) k) (seq 0 (length sets))))).
  Proof.
    intros p d xyz o w F T P sets HO HOP HW HD HA HL. destruct (orientation_cases _ _ HO) as (O1 & O2).
    unfold dos_plot. rewrite O1, O2, HW. cbn [bind]. unfold dos_arts. rewrite HOP. cbn [String.eqb Ascii.eqb Bool.eqb orb].
    rewrite (total_finite _ _ _ _ _ _ HD). rewrite HA, (set_curves_finite _ _ _ _ _ _ HD), (labels_ok _ _ HL).
    replace (if do_total o then _ else _) with (Ok (if do_total o then [Curve (drawn true F (fun i => nth i T 0%R)) (Some "total dos"%string)] else []))
      by (destruct (do_total o); reflexivity).
    cbn [bind]. assert (HF : d_freq d = F) by apply HD. rewrite HF, zero_rowR, cumulate_rows, map_length, seq_length.
    assert (M : forall l (lab : nat -> string) (g : nat -> nat -> R),
      mapM (fun irl => let! pts := points true F (fst (snd irl)) in Ok (Band_x pts (snd (snd irl)) (fst irl)))
           (combine l (combine (map (fun k => rowR F (g k)) l) (map lab l)))
      = Ok (map (fun k => Band_x (drawn true F (g k)) (lab k) k) l)).
    { clear. induction l as [|k l IH]; intros lab g; cbn [map combine mapM]; [reflexivity|].
      cbn [fst snd]. rewrite points_row. cbn [bind]. rewrite IH. reflexivity. }
    rewrite M. cbn [bind]. rewrite bulk_art_drawn.
    assert (E : forall k, Band_x (drawn true F (fun i => 0 + first_sets xyz sets (k + 1) (P i))%R) (legend_of (do_legends o) sets k) k
                        = Band_x (drawn true F (fun i => first_sets xyz sets (k + 1) (P i))) (legend_of (do_legends o) sets k) k).
    { intros k. f_equal. unfold drawn. apply map_ext. intros i. f_equal. ring. }
    rewrite (map_ext _ _ E). reflexivity.
  Qed.
End Pictures.

(** What is named more than once is counted more than once across the sets. *)
Lemma sum_of_sets xyz sets f : sumR (map (fun S => picked xyz S f) sets) = sum_to (length xyz) (fun m => INR (times (nth m xyz 0%Z) sets) * f m)%R.
Proof.
  induction sets as [|S sets IH]; cbn [map sumR].
  - unfold times. cbn [filter length INR]. rewrite (sum_to_ext _ _ (fun _ => 0%R)) by (intros; ring). symmetry. apply sum_to_zero.
  - rewrite IH. unfold picked. rewrite <- sum_to_plus. apply sum_to_ext. intros m _. unfold times. cbn [filter].
    destruct (in_dec Z.eq_dec (nth m xyz 0%Z) S); cbn [length]; [rewrite S_INR|]; ring.
Qed.
(** If every selected atom is in exactly one set, the curves of the sets add up to the sum of all
    components; with the total of DOS.set, the outermost edge of the stack is the total curve. *)
Theorem sets_add_up_to_the_total : forall xyz sets (f : nat -> R), covered_once xyz sets ->
  sumR (map (fun S => picked xyz S f) sets) = sum_to (length xyz) f /\
  first_sets xyz sets (length sets) f = sum_to (length xyz) f.
Proof.
  intros xyz sets f H. assert (E : sumR (map (fun S => picked xyz S f) sets) = sum_to (length xyz) f).
  { rewrite sum_of_sets. apply sum_to_ext. intros m Hm. rewrite (H (nth m xyz 0%Z)) by (apply nth_In; exact Hm). cbn [INR]. ring. }
  split; [exact E|]. unfold first_sets. rewrite firstn_all. exact E.
Qed.
(** The total that DOS.set stores is that sum. *)
Theorem stored_total_is_the_sum : forall p d d' n F T P, dos_set p d = Ok d' -> d_sigma d <> 0%R \/ ind_pbc (p_pbc p) <> [] -> length (ind_pbc (p_pbc p)) <= 3 ->
  p_n p = n -> finite_dos d' n F T P -> forall i, i < length F -> nth i T 0%R = sum_to n (P i).
Proof.
  intros p d d' n F T P HS HP H3 HN (HF & HT & LT & LP & HC) i Hi.
  assert (E : exists cols, d_pdos d' = cols /\ d_tdos d' = totals p cols).
  { unfold dos_set in HS. destruct (Req_EM_T (d_sigma d) 0) as [Z0|NZ].
    - destruct HP as [HP|HP]; [contradiction|]. destruct (ind_pbc (p_pbc p)) as [|a [|b [|c [|e l]]]]; [contradiction| | | |cbn in H3; lia];
        (match type of HS with (let! s := ?x in _) = _ => destruct x as [s|]; cbn [bind] in HS; [|discriminate] end);
        (match type of HS with (let! s := ?x in _) = _ => destruct x as [cols|]; cbn [bind] in HS; [|discriminate] end);
        injection HS as <-; exists cols; split; reflexivity.
    - injection HS as <-. eexists. split; reflexivity. }
  destruct E as (cols & E1 & E2).
  assert (Hc : exists c, nth_error cols i = Some c) by (destruct (nth_error cols i) as [c|] eqn:N; [eauto|apply nth_error_None in N; rewrite <- E1, LP in N; lia]).
  destruct Hc as (c & Hc).
  assert (V : nth_error (d_tdos d') i = Some (osum (p_n p) c)) by (rewrite E2; exact (map_nth_error (osum (p_n p)) i cols Hc)).
  rewrite HT, nth_error_map in V. destruct (nth_error T i) as [t|] eqn:NT; [|discriminate]. cbn [option_map] in V. injection V as V.
  rewrite (nth_error_nth _ _ _ NT). rewrite HN in V.
  assert (S : forall k, k <= n -> osum k c = Some (sum_to k (P i))).
  { induction k as [|k IH]; intros Hk; cbn [osum sum_to]; [reflexivity|]. rewrite IH by lia.
    rewrite (HC i k c) by (rewrite ?E1; assumption || lia). reflexivity. }
  rewrite S in V by lia. congruence.
Qed.

(** Requests that give no picture: an unknown option or orientation is ignored without an
    exception; without atoms, or with fewer legends than sets, the call fails. *)
Theorem dos_requests_without_picture : forall set_text p d xyz o w, window p (do_elimit o) = Ok w ->
  (do_orient o <> "horizontal"%string -> do_orient o <> "vertical"%string -> dos_plot set_text p d xyz o = Ok None) /\
  (do_option o <> "plain"%string -> do_option o <> "line"%string -> do_option o <> "stack"%string -> dos_plot set_text p d xyz o = Ok None) /\
  (forall vertical n F T P, oriented vertical o -> finite_dos d n F T P -> do_option o = "line"%string \/ do_option o = "stack"%string ->
     (do_atoms o = None -> dos_plot set_text p d xyz o = Err EType) /\
     (forall sets l, n = length xyz -> do_atoms o = Some sets -> do_legends o = Some l -> length l < length sets ->
        do_option o = "line"%string \/ vertical = true -> dos_plot set_text p d xyz o = Err EIndex)).
Proof.
  intros st p d xyz o w HW. split; [|split].
  - intros H1 H2. unfold dos_plot. apply String.eqb_neq in H1. apply String.eqb_neq in H2. rewrite H1, H2. reflexivity.
  - intros H1 H2 H3. apply String.eqb_neq in H1. apply String.eqb_neq in H2. apply String.eqb_neq in H3.
    unfold dos_plot. destruct (orb _ _); [|reflexivity]. rewrite HW. cbn [bind]. unfold dos_arts. rewrite H1, H2, H3. reflexivity.
  - intros vertical n F T P HO HD HOP. destruct (orientation_cases _ _ HO) as (O1 & O2).
    assert (OP : String.eqb (do_option o) "plain" = false /\ (String.eqb (do_option o) "line" || String.eqb (do_option o) "stack")%bool = true)
      by (destruct HOP as [-> | ->]; split; reflexivity).
    destruct OP as (OP1 & OP2). split.
    + intros HA. unfold dos_plot. rewrite O1, O2, HW. cbn [bind]. unfold dos_arts. rewrite OP1, OP2, (total_finite _ _ _ _ _ _ HD), HA.
      destruct (do_total o); reflexivity.
    + intros sets l -> HA HL LT HV. unfold dos_plot. rewrite O1, O2, HW. cbn [bind]. unfold dos_arts. rewrite OP1, OP2, (total_finite _ _ _ _ _ _ HD), HA.
      rewrite (set_curves_finite _ _ _ _ _ _ HD), HL.
      assert (SL : set_labels st sets (Some l) = Err EIndex).
      { unfold set_labels. clear -LT. assert (G : forall n a, a <= length l -> length l < a + n -> mapM (py_nth l) (seq a n) = Err EIndex).
        { induction n as [|n IH]; intros a A B; [lia|]. cbn [seq mapM]. destruct (Nat.eq_dec a (length l)) as [-> | N].
          - unfold py_nth. replace (nth_error l (length l)) with (@None string) by (symmetry; apply nth_error_None; lia). reflexivity.
          - rewrite (py_nth_nth l a EmptyString) by lia. cbn [bind]. rewrite IH by lia. reflexivity. }
        apply G; lia. }
      rewrite SL. destruct (String.eqb (do_option o) "line") eqn:EL.
      * destruct (do_total o); reflexivity.
      * destruct HV as [HV| ->]; [rewrite HV in EL; discriminate|]. destruct (do_total o); reflexivity.
Qed.

(** Without a periodic direction and with sigma = 0, DOS.set replaces the frequencies by those of
    the molecule but keeps the projections on the old mesh: a projected picture fails with
    ValueError (unless the mesh happens to have as many points, or one point). *)
Theorem molecule_projection_refused : forall set_text p num d0 d xyz o w m0 ms sets S,
  dos_init p 0 num = Ok d0 -> dos_set p d0 = Ok d -> ind_pbc (p_pbc p) = [] -> p_modes p = m0 :: ms ->
  num <> length (fst m0) -> num <> 1 ->
  (do_orient o = "horizontal"%string \/ do_orient o = "vertical"%string) -> (do_option o = "line"%string \/ do_option o = "stack"%string) ->
  window p (do_elimit o) = Ok w -> do_atoms o = Some (S :: sets) -> (exists z, In z S /\ In z xyz) ->
  dos_plot set_text p d xyz o = Err EValue.
Proof.
  intros st p num d0 d xyz o w m0 ms sets S HI HS HP HM HN H1 HO HOP HW HA (z & Z1 & Z2).
  assert (D : d_freq d = fst m0 /\ d_tdos d = map (fun _ => Dos.num 1) (fst m0) /\ length (d_pdos d) = num).
  { unfold dos_init in HI. destruct (fold_minmax Rmin _); [|discriminate]. cbn [bind] in HI. destruct (fold_minmax Rmax _); [|discriminate].
    cbn [bind] in HI. injection HI as <-. unfold dos_set in HS. cbn [d_sigma] in HS. destruct (Req_EM_T 0 0) as [_|N]; [|exfalso; apply N; reflexivity].
    rewrite HP, HM in HS. cbn [py_nth nth_error of_option bind] in HS. unfold py_nth in HS. cbn in HS. injection HS as <-.
    cbn [d_freq d_tdos d_pdos]. split; [reflexivity|]. split; [reflexivity|]. rewrite !map_length. apply seq_length. }
  destruct D as (D1 & D2 & D3).
  assert (TA : forall v, exists t, total_art v d = Ok t).
  { intros v. unfold total_art, points. rewrite D1, D2, map_length, Nat.eqb_refl. eexists. reflexivity. }
  assert (SC : set_curve d xyz S = Err EValue).
  { unfold set_curve. rewrite D1.
    assert (NE : mode_indices xyz S <> []).
    { intros E. apply In_nth_error in Z2. destruct Z2 as (k & Hk).
      assert (IN : In k (mode_indices xyz S)); [|rewrite E in IN; exact IN].
      unfold mode_indices. apply in_map_iff. exists (k, z). split; [reflexivity|]. apply filter_In. split.
      - assert (C : forall (l : list Z) a n, nth_error l n = Some z -> In (a + n, z) (combine (seq a (length l)) l)).
        { clear. induction l as [|y l IH]; intros a [|n] H; cbn in H; try discriminate; cbn [length seq combine].
          - injection H as ->. left. f_equal. lia.
          - right. replace (a + Datatypes.S n) with (Datatypes.S a + n) by lia. apply IH. exact H. }
        exact (C xyz 0 k Hk).
      - cbn [snd]. apply existsb_exists. exists z. split; [exact Z1|apply Z.eqb_refl]. }
    destruct (mode_indices xyz S) as [|m l]; [contradiction|]. cbn [fold_left bind].
    assert (A0 : add_row (map (fun _ : R => Dos.num 0) (fst m0)) (map (fun c : column => c m) (d_pdos d)) = Err EValue).
    { unfold add_row. rewrite !map_length, D3. destruct (Nat.eqb_spec (length (fst m0)) num); [congruence|].
      destruct (d_pdos d) as [|c [|c' cs]]; cbn [length] in D3; [|lia|reflexivity]. reflexivity. }
    rewrite A0. clear. induction l as [|m' l IH]; [reflexivity|exact IH]. }
  unfold dos_plot. replace (String.eqb (do_orient o) "horizontal" || String.eqb (do_orient o) "vertical")%bool with true by (destruct HO as [-> | ->]; reflexivity).
  rewrite HW. cbn [bind]. unfold dos_arts. destruct (TA (String.eqb (do_orient o) "vertical")) as (t & ->). rewrite HA. cbn [set_curves mapM]. rewrite SC.
  destruct HOP as [-> | ->]; cbn [String.eqb Ascii.eqb Bool.eqb orb]; destruct (do_total o); reflexivity.
Qed.

(** * C92 *)
(** the text of a high-symmetry point: G and g are written as Gamma, and everything has a bar
    exactly when two directions are periodic *)
Definition label_text (p : proc) (s : string) : string :=
  let two := Nat.eqb (length (filter (fun z => negb (Z.eqb z 0)) (p_pbc p))) 2 in
  ("$" ++ (if two then "\overline{" else "") ++ (if orb (String.eqb s "G") (String.eqb s "g") then "\Gamma" else s) ++ (if two then "}" else "") ++ "$")%string.
Lemma ind_pbc_count l : length (ind_pbc l) = length (filter (fun z => negb (Z.eqb z 0)) l).
Proof.
  unfold ind_pbc. rewrite map_length. generalize 0. induction l as [|z l IH]; intros a; cbn [length seq combine filter]; [reflexivity|].
  cbn [snd]. destruct (negb (Z.eqb z 0)); cbn [length]; rewrite IH; reflexivity.
Qed.
Lemma k_labels_text p l : k_labels p l = map (label_text p) l.
Proof.
  unfold k_labels. apply map_ext. intros s. unfold label_text. rewrite ind_pbc_count. unfold k_label.
  destruct (orb _ _); destruct (Nat.eqb _ 2); reflexivity.
Qed.

Section Bands.
  Variable set_text : list Z -> string.

  (** point [i] of branch [j]: path length to k-point [i], frequency [j] there *)
  Definition w_at (p : proc) (i j : nat) : R := match nth_error (p_modes p) i with Some m => nth j (fst m) 0%R | None => 0%R end.
  Definition branch_points (p : proc) (b : band) (j : nat) : list (R * R) :=
    map (fun i => (nth i (b_len b) 0%R, w_at p i j)) (seq 0 (length (p_k p))).
  (** the axes of a band picture *)
  Definition band_picture_axes (b : band) (w : R * R) (arts : list artist) (tk : list (R * string)) (bar : option string) : axes :=
    mkAxes arts (Some (nth 0 (b_len b) 0%R), Some (nth (length (b_len b) - 1) (b_len b) 0%R)) (Some (fst w), Some (snd w)) tk bar.
  (** the high-symmetry points with their texts *)
  Definition labelled (p : proc) (b : band) (labels : list string) : list (R * string) :=
    map (fun k => (nth (nth k (b_ticks b) 0) (b_len b) 0%R, match labels with [] => EmptyString | _ => label_text p (nth k labels EmptyString) end))
        (seq 0 (length (b_ticks b))).

  Lemma set_facts p b : band_set p (band_init p) = Ok b ->
    length (b_len b) = length (p_k p) /\ 2 <= length (p_k p) /\ Forall (fun t => t < length (b_len b)) (b_ticks b) /\
    b_proj b = map (fun m i j => abs2 (snd m i j)) (p_modes p).
  Proof.
    intros H. assert (L : 2 <= length (p_k p)).
    { destruct (le_lt_dec 2 (length (p_k p))) as [L|L]; [exact L|]. rewrite (band_needs_two_points _ _ L) in H. discriminate. }
    destruct (band_ticks p L) as (b' & H' & T & _). rewrite H in H'. injection H' as <-.
    destruct (band_set_shape p (band_init p) L) as (xs & ts & E & K & Q). rewrite Q in H. injection H as <-. cbn [b_len b_ticks b_proj] in *.
    destruct (band_loop_spec _ _ _ _ _ _ E) as (LX & _).
    assert (LL : length (nth 0 (b_len (band_init p)) 0%R :: xs) = length (p_k p)) by (cbn [length]; rewrite LX; rewrite K at 2; reflexivity).
    split; [exact LL|]. split; [exact L|]. split; [|reflexivity].
    apply Forall_forall. intros t Ht. cbn [length]. rewrite LX. cut (t < length (p_k p)); [rewrite K at 1; cbn [length]; auto|]. apply T in Ht. unfold last_index in Ht. destruct Ht as [-> |[-> |(Ht & _)]]; lia.
  Qed.

  Lemma band_axes_ok p b labels w arts bar : band_set p (band_init p) = Ok b ->
    (labels = [] \/ length labels = length (b_ticks b) -> band_axes p b labels w arts bar = Ok (band_picture_axes b w arts (labelled p b labels) bar)) /\
    (labels <> [] -> length labels <> length (b_ticks b) -> band_axes p b labels w arts bar = Err EValue).
  Proof.
    intros H. destruct (set_facts p b H) as (L & L2 & TK & _).
    assert (M : mapM (py_nth (b_len b)) (b_ticks b) = Ok (map (fun t => nth t (b_len b) 0%R) (b_ticks b))).
    { apply mapM_total. intros t Ht. rewrite Forall_forall in TK. apply py_nth_nth. exact (TK t Ht). }
    unfold band_axes. rewrite (py_nth_nth _ 0 0%R), (py_nth_nth _ (length (b_len b) - 1) 0%R) by lia. rewrite M. cbn [bind].
    assert (KL : length (k_labels p labels) = length labels) by (unfold k_labels; apply map_length).
    unfold ticks. rewrite map_length. split.
    - intros HL. unfold band_picture_axes, labelled. destruct (k_labels p labels) as [|l0 ls] eqn:EL.
      + destruct labels; [|discriminate]. cbn [bind]. do 2 f_equal. rewrite map_map.
        apply nth_ext with (d := (nth 0 (b_len b) 0%R, EmptyString)) (d' := (nth (nth 0 (b_ticks b) 0) (b_len b) 0%R, EmptyString)).
        * rewrite !map_length, seq_length. reflexivity.
        * intros k Hk. rewrite map_length in Hk.
          rewrite (map_nth (fun x => (nth x (b_len b) 0%R, EmptyString)) (b_ticks b) 0 k).
          rewrite (map_nth (fun k => (nth (nth k (b_ticks b) 0) (b_len b) 0%R, EmptyString)) (seq 0 (length (b_ticks b))) 0 k).
          rewrite seq_nth by exact Hk. reflexivity.
      + assert (LE : length (b_ticks b) = length labels) by (destruct HL as [-> |HL]; [discriminate|congruence]).
        rewrite KL, <- EL. replace (Nat.eqb (length (b_ticks b)) (length labels)) with true by (symmetry; apply Nat.eqb_eq; exact LE).
        cbn [bind]. rewrite k_labels_text. do 2 f_equal. destruct labels as [|s labels]; [discriminate|]. set (K := s :: labels) in *.
        apply nth_ext with (d := (nth 0 (b_len b) 0%R, label_text p EmptyString)) (d' := (nth (nth 0 (b_ticks b) 0) (b_len b) 0%R, label_text p (nth 0 K EmptyString))).
        * rewrite combine_length, !map_length, seq_length. lia.
        * intros k Hk. rewrite combine_length, !map_length in Hk.
          rewrite combine_nth by (rewrite !map_length; lia).
          rewrite (map_nth (fun t => nth t (b_len b) 0%R) (b_ticks b) 0 k). rewrite (map_nth (label_text p) K EmptyString k).
          rewrite (map_nth (fun k => (nth (nth k (b_ticks b) 0) (b_len b) 0%R, label_text p (nth k K EmptyString))) (seq 0 (length (b_ticks b))) 0 k).
          rewrite seq_nth by lia. reflexivity.
    - intros HN HL. destruct (k_labels p labels) as [|l0 ls] eqn:EL; [destruct labels; [contradiction|discriminate]|].
      rewrite KL. replace (Nat.eqb (length (b_ticks b)) (length labels)) with false by (symmetry; apply Nat.eqb_neq; congruence). reflexivity.
  Qed.

  Lemma branch_at p j : branch p j = map (fun i => w_at p i j) (seq 0 (length (p_modes p))).
  Proof.
    unfold branch, w_at. assert (G : forall (l : list (list R * cmat)) a (f : nat -> R), (forall i m, nth_error l i = Some m -> f (a + i) = nth j (fst m) 0%R) ->
      map (fun m => nth j (fst m) 0%R) l = map f (seq a (length l))).
    { induction l as [|m l IH]; intros a f H; cbn [map length seq]; [reflexivity|]. f_equal.
      - specialize (H 0 m eq_refl). rewrite Nat.add_0_r in H. congruence.
      - apply IH. intros i m' Hm. specialize (H (S i) m' Hm). rewrite Nat.add_succ_r in H. exact H. }
    apply G. intros i m Hm. cbn [Nat.add]. unfold cmat in *. rewrite Hm. reflexivity.
  Qed.
  Lemma list_seq (l : list R) : l = map (fun i => nth i l 0%R) (seq 0 (length l)).
  Proof.
    apply nth_ext with (d := 0%R) (d' := nth 0 l 0%R); [rewrite map_length, seq_length; reflexivity|].
    intros k Hk. rewrite (map_nth (fun i => nth i l 0%R)), seq_nth by exact Hk. reflexivity.
  Qed.
  Lemma combine_same {A B D} (f : A -> B) (g : A -> D) l : combine (map f l) (map g l) = map (fun x => (f x, g x)) l.
  Proof. induction l as [|x l IH]; cbn [map combine]; [reflexivity|]. rewrite IH. reflexivity. Qed.
  Lemma branch_pairs p b j : length (b_len b) = length (p_k p) -> length (p_modes p) = length (p_k p) ->
    combine (b_len b) (branch p j) = branch_points p b j.
  Proof.
    intros H1 H2. rewrite (list_seq (b_len b)) at 1. rewrite branch_at, H1, H2, combine_same. reflexivity.
  Qed.

  (** The plain band picture: for every branch the curve through all its points, ranging over the
      whole path, with the high-symmetry points marked.  Texts must be left out altogether or be as
      many as the marked points. *)
  Theorem band_plain_picture : forall p b xyz o w, band_set p (band_init p) = Ok b -> length (p_modes p) = length (p_k p) ->
    bo_option o = "plain"%string -> window p (bo_elimit o) = Ok w ->
    (bo_labels o = [] \/ length (bo_labels o) = length (b_ticks b) ->
       band_plot set_text p b xyz o = Ok (Some (mkFigure "band.png" [band_picture_axes b w
         (map (fun j => Curve (map (fun xy => (Some (fst xy), Some (snd xy))) (branch_points p b j)) None) (seq 0 (branches p)))
         (labelled p b (bo_labels o)) None]))) /\
    (bo_labels o <> [] -> length (bo_labels o) <> length (b_ticks b) -> band_plot set_text p b xyz o = Err EValue).
  Proof.
    intros p b xyz o w HB HM HO HW. destruct (set_facts p b HB) as (L & L2 & TK & _).
    assert (PB : plain_bands p b = Ok (map (fun j => Curve (map (fun xy => (Some (fst xy), Some (snd xy))) (branch_points p b j)) None) (seq 0 (branches p)))).
    { unfold plain_bands. rewrite L, HM, Nat.eqb_refl. cbn [negb]. f_equal. apply map_ext. intros j. f_equal.
      rewrite <- branch_pairs by assumption. clear. generalize (branch p j). induction (b_len b) as [|x l IH]; intros [|y r]; cbn [map combine]; try reflexivity.
      f_equal. apply IH. }
    unfold band_plot. rewrite HW, HO. cbn [bind String.eqb Ascii.eqb Bool.eqb]. rewrite PB. cbn [bind].
    destruct (band_axes_ok p b (bo_labels o) w (map (fun j => Curve (map (fun xy => (Some (fst xy), Some (snd xy))) (branch_points p b j)) None) (seq 0 (branches p))) None HB) as (A1 & A2).
    split.
    - intros H. rewrite (A1 H). reflexivity.
    - intros H1 H2. rewrite (A2 H1 H2). reflexivity.
  Qed.

  (** The coloured band picture: the same points; the colour at k-point i is the share of the given
      atoms in the mode there.  With normalised modes it lies between 0 and 1, and the colours for
      two sets of which each selected atom is in exactly one add up to 1. *)
  Theorem band_projection_picture : forall p b xyz o w l, band_set p (band_init p) = Ok b -> length (p_modes p) = length (p_k p) ->
    bo_option o = "projection"%string -> window p (bo_elimit o) = Ok w -> bo_atoms o = Some l -> 0 < branches p ->
    (bo_bar_loc o = "right"%string \/ bo_bar_loc o = "bottom"%string) -> (bo_labels o = [] \/ length (bo_labels o) = length (b_ticks b)) ->
    let share S i j := match nth_error (p_modes p) i with Some m => picked xyz S (fun c => Cmod (snd m j c) ^ 2)%R | None => 0%R end in
    band_plot set_text p b xyz o = Ok (Some (mkFigure "band.png" [band_picture_axes b w
      (map (fun j => Coloured (branch_points p b j) (map (fun i => share l i j) (seq 0 (length (p_k p))))) (seq 0 (branches p)))
      (labelled p b (bo_labels o))
      (Some ("Contribution of " ++ match bo_bar_label o with Some s => s | None => "atom-" ++ set_text l end)%string)])) /\
    forall i j m, nth_error (p_modes p) i = Some m -> sum_to (length xyz) (fun c => Cmod (snd m j c) ^ 2)%R = 1%R ->
      (0 <= share l i j <= 1)%R /\ forall l', covered_once xyz [l; l'] -> (share l i j + share l' i j = 1)%R.
  Proof.
    intros p b xyz o w l HB HM HO HW HA HN HL HT share. destruct (set_facts p b HB) as (L & L2 & TK & PJ). split.
    - unfold band_plot. rewrite HW, HO. cbn [bind String.eqb Ascii.eqb Bool.eqb].
      replace (String.eqb (bo_bar_loc o) "right" || String.eqb (bo_bar_loc o) "bottom")%bool with true by (destruct HL as [-> | ->]; reflexivity).
      unfold coloured_bands. rewrite HA, L, HM, Nat.eqb_refl. cbn [negb].
      destruct (seq 0 (branches p)) as [|j0 js] eqn:ES; [destruct (branches p); [lia|discriminate]|]. rewrite <- ES.
      assert (MM : map (fun i => Coloured (combine (b_len b) (branch p i)) (branch_colours b (mode_indices xyz l) i)) (seq 0 (branches p))
        = map (fun j => Coloured (branch_points p b j) (map (fun i => share l i j) (seq 0 (length (p_k p))))) (seq 0 (branches p))).
      { apply map_ext. intros j. rewrite branch_pairs by assumption. f_equal. unfold branch_colours. rewrite PJ, map_map, <- HM. unfold share.
        assert (G : forall (ms : list (list R * cmat)) a (f : nat -> R), (forall i m, nth_error ms i = Some m -> f (a + i) = picked xyz l (fun c => Cmod (snd m j c) ^ 2)%R) ->
          map (fun x => fold_left (fun a0 m => (a0 + abs2 (snd x j m))%R) (mode_indices xyz l) 0%R) ms = map f (seq a (length ms))).
        { clear. induction ms as [|m ms IH]; intros a f H; cbn [map length seq]; [reflexivity|]. f_equal.
          - specialize (H 0 m eq_refl). rewrite Nat.add_0_r in H. rewrite H. exact (fold_modes xyz l (fun c => Cmod (snd m j c) ^ 2)%R).
          - apply IH. intros i m' Hm. specialize (H (S i) m' Hm). rewrite Nat.add_succ_r in H. exact H. }
        apply G. intros i m Hm. cbn [Nat.add]. unfold cmat in *. rewrite Hm. reflexivity. }
      rewrite MM. cbn [bind fst snd].
      match goal with |- context [band_axes p b (bo_labels o) w ?arts ?bar] =>
        destruct (band_axes_ok p b (bo_labels o) w arts bar HB) as (A1 & _); rewrite (A1 HT) end.
      cbn [bind]. destruct (bo_bar_label o); reflexivity.
    - intros i j m Hm H1. unfold share. unfold cmat in *. rewrite Hm. clear share.
      set (f := fun c => (Cmod (snd m j c) ^ 2)%R) in *.
      assert (F0 : forall c, (0 <= f c)%R) by (intros c; apply pow2_ge_0). split.
      + split.
        * unfold picked. apply sum_to_nonneg. intros c _. destruct (in_dec _ _ _); [apply F0|lra].
        * rewrite <- H1. unfold picked. apply sum_to_le. intros c _. destruct (in_dec _ _ _); [lra|apply F0].
      + intros l' HC. destruct (sets_add_up_to_the_total xyz [l; l'] f HC) as (E & _). cbn [map sumR] in E. rewrite H1 in E. lra.
  Qed.

  (** Band pictures that are not made. *)
  Theorem band_requests_without_picture : forall p b xyz o w, band_set p (band_init p) = Ok b -> length (p_modes p) = length (p_k p) ->
    window p (bo_elimit o) = Ok w ->
    (bo_option o <> "plain"%string -> bo_option o <> "projection"%string -> band_plot set_text p b xyz o = Ok None) /\
    (bo_option o = "projection"%string -> bo_atoms o = None -> band_plot set_text p b xyz o = Err EType) /\
    (bo_option o = "projection"%string -> bo_atoms o <> None -> bo_bar_loc o <> "right"%string -> bo_bar_loc o <> "bottom"%string ->
       band_plot set_text p b xyz o = Err EUnbound).
  Proof.
    intros p b xyz o w HB HM HW. unfold band_plot. rewrite HW. cbn [bind]. split; [|split].
    - intros H1 H2. apply String.eqb_neq in H1. apply String.eqb_neq in H2. rewrite H1, H2. reflexivity.
    - intros -> HA. cbn [String.eqb Ascii.eqb Bool.eqb]. unfold coloured_bands. rewrite HA. reflexivity.
    - intros -> HA H1 H2. cbn [String.eqb Ascii.eqb Bool.eqb]. apply String.eqb_neq in H1. apply String.eqb_neq in H2. rewrite H1, H2.
      unfold coloured_bands. destruct (bo_atoms o); [reflexivity|contradiction].
  Qed.

  (** * C93 *)
  (** The combined picture shows the band picture and, beside it, the vertical picture of the
      densities (always with the total), both over the frequency range of the bands. *)
  Theorem combined_picture : forall p b xyz o d od pd fb ab fd ad,
    band_plot set_text p b xyz o = Ok (Some fb) -> fig_axes fb = [ab] ->
    do_orient od = "vertical"%string -> do_total od = true -> dos_plot set_text pd d xyz od = Ok (Some fd) -> fig_axes fd = [ad] ->
    plot_with_dos set_text p b xyz o d od = Ok (mkFigure "band_dos.png" [ab; mkAxes (ax_arts ad) (ax_x ad) (ax_y ab) [] None]).
  Proof.
    intros p b xyz o d od pd fb ab fd ad HB HAB HOD HT HD HAD. unfold band_plot in HB. unfold plot_with_dos.
    destruct (window p (bo_elimit o)) as [w|]; cbn [bind] in *; [|discriminate].
    unfold dos_plot in HD. rewrite HOD in HD. cbn [String.eqb Ascii.eqb Bool.eqb orb] in HD. rewrite HT in HD.
    destruct (window pd (do_elimit od)) as [wd|]; cbn [bind] in HD; [|discriminate].
    destruct (dos_arts set_text true true d xyz od) as [[arts|]|]; cbn [bind] in HD; try discriminate. injection HD as <-.
    cbn [fig_axes] in HAD. injection HAD as <-. cbn [ax_arts ax_x].
    assert (AX : forall labels arts0 bar ax, band_axes p b labels w arts0 bar = Ok ax -> ax_y ax = (Some (fst w), Some (snd w))).
    { intros labels arts0 bar ax H. unfold band_axes in H. repeat (match type of H with (let! x := ?t in _) = _ => destruct t; cbn [bind] in H; [|discriminate] end).
      injection H as <-. reflexivity. }
    destruct (String.eqb (bo_option o) "plain").
    - destruct (plain_bands p b) as [pb|]; cbn [bind] in *; [|discriminate].
      destruct (band_axes p b (bo_labels o) w pb None) as [ax|] eqn:EA; cbn [bind] in *; [|discriminate]. injection HB as <-. cbn [fig_axes] in HAB. injection HAB as ->.
      rewrite (AX _ _ _ _ EA). reflexivity.
    - destruct (String.eqb (bo_option o) "projection"); [|discriminate].
      unfold coloured_bands in *. destruct (bo_atoms o) as [l|]; [|discriminate]. destruct (orb _ _); cbn [negb bind] in *; [|discriminate].
      destruct (negb _); [discriminate|]. destruct (seq 0 (branches p)) as [|j js]; [discriminate|]. cbn [bind fst snd] in *.
      match type of HB with (let! ax := ?t in _) = _ => destruct t as [ax|] eqn:EA; cbn [bind] in *; [|discriminate] end.
      injection HB as <-. cbn [fig_axes] in HAB. injection HAB as ->. rewrite (AX _ _ _ _ EA). reflexivity.
  Qed.
End Bands.

(** The thermal picture: both quantities over all temperatures, the entropy in meV/K. *)
Theorem thermal_picture : forall t Fs Ss, t_temp t <> [] -> t_free t = map Some Fs -> t_entropy t = map Some Ss ->
  length Fs = length (t_temp t) -> length Ss = length (t_temp t) ->
  exists lo hi, In lo (t_temp t) /\ In hi (t_temp t) /\ (forall T, In T (t_temp t) -> (lo <= T <= hi)%R) /\
  thermal_plot t = Ok (mkFigure "thermal_properties.png"
    [mkAxes [Curve (drawn false (t_temp t) (fun i => nth i Fs 0%R)) (Some "Free energy (eV/atom)"%string);
             Curve (drawn false (t_temp t) (fun i => nth i Ss 0 * 1000)%R) (Some "Entropy (meV/K/atom)"%string)]
            (Some lo, Some hi) (None, None) [] None]).
Proof.
  intros t Fs Ss HN HF HS L1 L2. unfold thermal_plot. rewrite HF, HS, (row_of_list _ _ L1), points_row.
  replace (map (fun s => omul s (num 1000)) (map Some Ss)) with (rowR (t_temp t) (fun i => nth i Ss 0 * 1000)%R).
  2: { rewrite (row_of_list _ _ L2). unfold rowR. rewrite map_map. reflexivity. }
  rewrite points_row. destruct (t_temp t) as [|x l] eqn:ET; [contradiction|]. cbn [fold_minmax bind].
  destruct (fold_min_spec l x) as (A1 & A2 & A3). destruct (fold_max_spec l x) as (B1 & B2 & B3).
  exists (fold_left Rmin l x), (fold_left Rmax l x). split; [exact A3|]. split; [exact B3|]. split; [|reflexivity].
  intros T [<-|H]; [lra|]. split; [apply A2|apply B2]; exact H.
Qed.

(** Every smeared density is finite, so the pictures above are made for each of them. *)
Theorem smeared_density_is_finite : forall p sigma num d0 d, sigma <> 0%R -> dos_init p sigma num = Ok d0 -> dos_set p d0 = Ok d ->
  exists T P, finite_dos d (p_n p) (d_freq d) T P /\ length (d_freq d) = num.
Proof.
  intros p sigma num d0 d Hs H0 H. unfold dos_init in H0.
  destruct (fold_minmax Rmin _) as [mn|]; cbn [bind] in H0; [|discriminate].
  destruct (fold_minmax Rmax _) as [mx|]; cbn [bind] in H0; [|discriminate].
  injection H0 as <-. unfold dos_set in H. cbn [d_sigma d_freq d_pdos] in H.
  destruct (Req_EM_T sigma 0) as [E|_]; [contradiction|]. injection H as <-. cbn [d_freq].
  set (F := map _ (seq 0 num)) in *.
  assert (LF : length F = num) by (unfold F; rewrite map_length, seq_length; reflexivity).
  clearbody F.
  assert (SM : forall f c, (forall m, exists x, c m = Some x) -> forall m, exists x, smear_column p sigma f c m = Some x).
  { intros f c Hc. unfold smear_column. revert c Hc. induction (p_modes p) as [|wv ms IH]; intros c Hc; cbn [fold_left]; [exact Hc|].
    apply IH. clear IH. revert c Hc. induction (combine _ _) as [|be l IH]; intros c Hc; cbn [fold_left]; [exact Hc|].
    apply IH. intros m. unfold smear_mode. destruct (Hc m) as (x & ->). eexists. reflexivity. }
  assert (G : forall G : list R, Forall (fun c : column => forall m, exists x, c m = Some x) (map2 (smear_column p sigma) G (map (fun (_ : R) (_ : nat) => Dos.num 0) G))
    /\ length (map2 (smear_column p sigma) G (map (fun (_ : R) (_ : nat) => Dos.num 0) G)) = length G).
  { induction G as [|f G (IH1 & IH2)]; cbn [map map2 length]; [split; [constructor|reflexivity]|]. split; [|congruence].
    constructor; [|exact IH1]. apply SM. intros m. eexists. reflexivity. }
  destruct (G F) as (G1 & G2). set (cols := map2 _ _ _) in *. clearbody cols. clear G SM.
  set (val := fun o : option R => match o with Some x => x | None => 0%R end).
  exists (map (fun c => val (osum (p_n p) c)) cols), (fun i m => match nth_error cols i with Some c => val (c m) | None => 0%R end).
  split; [|exact LF]. unfold finite_dos. cbn [d_freq d_tdos d_pdos]. split; [reflexivity|]. split; [|split; [rewrite map_length; exact G2|split; [exact G2|]]].
  - unfold totals. rewrite map_map. apply map_ext_in. intros c Hc. rewrite Forall_forall in G1. specialize (G1 c Hc).
    assert (OS : forall n, exists x, osum n c = Some x).
    { induction n as [|n (x & IH)]; cbn [osum]; [eexists; reflexivity|]. destruct (G1 n) as (y & Hy). unfold column in *. rewrite IH, Hy. eexists. reflexivity. }
    destruct (OS (p_n p)) as (x & ->). reflexivity.
  - intros i m c Hc _. rewrite Hc. rewrite Forall_forall in G1. destruct (G1 c (nth_error_In _ _ Hc) m) as (x & Hx). unfold column in *. rewrite Hx. reflexivity.
Qed.

(** * Concrete cases *)
Definition ex_mode : cmat := fun i j => if Nat.eqb i j then RtoC 1 else RtoC 0.
Definition ex_proc : proc := mkProc [V3 0 0 0; V3 (1 / 2) 0 0; V3 (1 / 2) 0 0]%R [([1; 2]%R, ex_mode); ([3 / 2; 3]%R, ex_mode); ([3 / 2; 3]%R, ex_mode)] 2 [] [1; 1; 0]%Z.
Definition ex_dos : dos := mkDos 1 [1; 2]%R [(fun m => Some (INR m)); (fun _ => Some 1%R)] [Some 1%R; Some 2%R].
Definition ex_opts (option orient : string) : dos_opts := mkDosOpts true (Some [[0%Z]; [1%Z]]) (Some [0; 4]%R) option orient None None "fill" None 1%R.

Example ex_range : exists m w, In m (p_modes ex_proc) /\ In w (fst m).
Proof. eexists. exists 1%R. split; [left; reflexivity|left; reflexivity]. Qed.
Example ex_finite : finite_dos ex_dos (length [0; 1]%Z) [1; 2]%R [1; 2]%R (fun i m => match i with 0 => INR m | _ => 1%R end).
Proof.
  unfold finite_dos, ex_dos. cbn [d_freq d_tdos d_pdos map length]. do 4 (split; [reflexivity|]).
  intros [|[|i]] m c H _; cbn [nth_error] in H; [injection H as <-; reflexivity|injection H as <-; reflexivity|destruct i; discriminate].
Qed.
Example ex_covered : covered_once [0; 1]%Z [[0%Z]; [1%Z]].
Proof. intros z [<-|[<-|[]]]; vm_compute; reflexivity. Qed.
(** the upper layer of the vertical stack at the first frequency is the whole density there, 1 *)
Example ex_stack : dos_plot (fun _ => ""%string) ex_proc ex_dos [0; 1]%Z (ex_opts "stack" "vertical")
  = Ok (Some (dos_picture true (0, 4)%R [Curve [(Some 1, Some 1); (Some 2, Some 2)]%R (Some "total dos"%string);
      Band_x [(Some 0, Some 1); (Some 1, Some 2)]%R "atom-" 0; Band_x [(Some 1, Some 1); (Some 2, Some 2)]%R "atom-" 1])).
Proof.
  rewrite (dos_stack_vertical _ ex_proc ex_dos [0; 1]%Z (ex_opts "stack" "vertical") (0, 4)%R _ _ _ [[0%Z]; [1%Z]] eq_refl eq_refl eq_refl ex_finite eq_refl Logic.I).
  cbn. unfold drawn, first_sets, picked, place. cbn.
  repeat (f_equal; try ring).
Qed.
Example ex_stack_horizontal : exists f, dos_plot (fun _ => ""%string) ex_proc ex_dos [0; 1]%Z (ex_opts "stack" "horizontal") = Ok (Some f).
Proof.
  eexists. refine (dos_stack_horizontal _ ex_proc ex_dos [0; 1]%Z (ex_opts "stack" "horizontal") (0, 4)%R _ _ _ [[0%Z]; [1%Z]] eq_refl eq_refl eq_refl ex_finite eq_refl _). discriminate.
Qed.
Example ex_line : exists f, dos_plot (fun _ => ""%string) ex_proc ex_dos [0; 1]%Z (ex_opts "line" "horizontal") = Ok (Some f).
Proof. eexists. exact (dos_line_picture _ ex_proc ex_dos [0; 1]%Z (ex_opts "line" "horizontal") false (0, 4)%R _ _ _ [[0%Z]; [1%Z]] eq_refl eq_refl eq_refl ex_finite eq_refl Logic.I). Qed.
Example ex_plain : exists f, dos_plot (fun _ => ""%string) ex_proc ex_dos [0; 1]%Z (ex_opts "plain" "vertical") = Ok (Some f).
Proof. eexists. exact (dos_plain_picture _ ex_proc ex_dos [0; 1]%Z (ex_opts "plain" "vertical") true (0, 4)%R _ _ _ _ eq_refl eq_refl eq_refl ex_finite). Qed.
Example ex_smeared : exists d0 d, dos_init ex_proc 1 5 = Ok d0 /\ dos_set ex_proc d0 = Ok d.
Proof.
  eexists. unfold dos_init, ex_proc. cbn [p_modes map fst concat app fold_minmax bind]. eexists. split; [reflexivity|].
  unfold dos_set. cbn [d_sigma]. destruct (Req_EM_T 1 0) as [E|_]; [exfalso; lra|]. reflexivity.
Qed.
Example ex_band : exists b, band_set ex_proc (band_init ex_proc) = Ok b /\ length (p_modes ex_proc) = length (p_k ex_proc) /\ 0 < branches ex_proc /\
  forall i j m, nth_error (p_modes ex_proc) i = Some m -> j < 2 -> sum_to 2 (fun c => Cmod (snd m j c) ^ 2)%R = 1%R.
Proof.
  assert (L : 2 <= length (p_k ex_proc)) by (cbn; lia). destruct (band_ticks ex_proc L) as (b & H & _).
  exists b. split; [exact H|]. split; [reflexivity|]. split; [cbn; lia|].
  intros i j m Hm Hj. assert (E : snd m = ex_mode) by (destruct i as [|[|[|i]]]; cbn in Hm; [injection Hm as <-; reflexivity..|destruct i; discriminate]).
  rewrite E. unfold ex_mode. destruct j as [|[|j]]; [| |lia]; cbn [sum_to Nat.eqb]; rewrite ?Cmod_1, ?Cmod_0; ring.
Qed.
Example ex_molecule : exists d0 d, dos_init (mkProc [V3 0 0 0]%R [([1; 2]%R, ex_mode)] 2 [] [0; 0; 0]%Z) 0 5 = Ok d0 /\
  dos_set (mkProc [V3 0 0 0]%R [([1; 2]%R, ex_mode)] 2 [] [0; 0; 0]%Z) d0 = Ok d.
Proof.
  eexists. unfold dos_init. cbn [p_modes map fst concat app fold_minmax bind]. eexists. split; [reflexivity|].
  unfold dos_set. cbn [d_sigma]. destruct (Req_EM_T 0 0) as [E|E]; [|exfalso; lra]. reflexivity.
Qed.
Example ex_combined : exists b ab ad, band_set ex_proc (band_init ex_proc) = Ok b /\
  plot_with_dos (fun _ => ""%string) ex_proc b [0; 1]%Z (mkBandOpts [] (Some [0%Z]) (Some [0; 4]%R) "plain" None "right") ex_dos (ex_opts "plain" "vertical")
  = Ok (mkFigure "band_dos.png" [ab; mkAxes (ax_arts ad) (ax_x ad) (ax_y ab) [] None]).
Proof.
  destruct ex_band as (b & HB & HM & _). set (o := mkBandOpts [] (Some [0%Z]) (Some [0; 4]%R) "plain" None "right").
  destruct (band_plain_picture (fun _ => ""%string) ex_proc b [0; 1]%Z o (0, 4)%R HB HM eq_refl eq_refl) as (P & _).
  specialize (P (or_introl eq_refl)).
  pose proof (dos_plain_picture (fun _ => ""%string) ex_proc ex_dos [0; 1]%Z (ex_opts "plain" "vertical") true (0, 4)%R _ _ _ _ eq_refl eq_refl eq_refl ex_finite) as Q.
  eexists b, _, _. split; [exact HB|]. exact (combined_picture _ ex_proc b [0; 1]%Z o ex_dos (ex_opts "plain" "vertical") ex_proc _ _ _ _ P eq_refl eq_refl eq_refl Q eq_refl).
Qed.
Example ex_thermal : exists lo hi, In lo [100; 200]%R /\ In hi [100; 200]%R /\ exists f, thermal_plot (mkThermal [100; 200]%R [Some 1; Some 2]%R [Some 3; Some 4]%R) = Ok f.
Proof.
  destruct (thermal_picture (mkThermal [100; 200]%R [Some 1; Some 2]%R [Some 3; Some 4]%R) [1; 2]%R [3; 4]%R) as (lo & hi & H1 & H2 & _ & H); try reflexivity; [discriminate|].
  exists lo, hi. split; [exact H1|]. split; [exact H2|]. eexists. exact H.
Qed.

Print Assumptions picture_range.
Print Assumptions dos_plain_picture.
Print Assumptions dos_line_picture.
Print Assumptions dos_stack_horizontal.
Print Assumptions dos_stack_vertical.
Print Assumptions sets_add_up_to_the_total.
Print Assumptions stored_total_is_the_sum.
Print Assumptions dos_requests_without_picture.
Print Assumptions molecule_projection_refused.
Print Assumptions smeared_density_is_finite.
Print Assumptions band_plain_picture.
Print Assumptions band_projection_picture.
Print Assumptions band_requests_without_picture.
Print Assumptions combined_picture.
Print Assumptions thermal_picture.
