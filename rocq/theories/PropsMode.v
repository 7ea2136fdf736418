(** Property theorems: mode selection and mode animation (C52, C53, C69, C70).  Model: Mode.v. *)
From Coq Require Import Reals Qreals Lra.
From Coquelicot Require Import Complex.
From Coq Require Import String Ascii ZArith QArith Qcanon Bool Lia Arith List.
From Verif Require Import Base Dec Field Args ArgsFacts Cell Super Displace Text Phonon Band Weight Frac Mode CellFacts SuperFacts DisplaceFacts Force PropsForce PhononFacts PropsPhonon PropsBand PropsWeight PropsFrac.
Import ListNotations.
Local Open Scope list_scope.
Local Open Scope nat_scope.

(** * C52: selecting modes *)
Lemma last_close_spec k ks : forall ind found,
  (forall i, last_close k ind ks found = Some i ->
     (found = Some i /\ (forall j, nth_error ks j <> None -> forall v, nth_error ks j = Some v -> allcloseR k v = false)) \/
     (exists a v, i = ind + a /\ nth_error ks a = Some v /\ allcloseR k v = true /\
        forall b w, a < b -> nth_error ks b = Some w -> allcloseR k w = false)) /\
  (last_close k ind ks found = None <-> found = None /\ forall j v, nth_error ks j = Some v -> allcloseR k v = false).
Proof.
  induction ks as [|kp ks IH]; intros ind found; cbn [last_close].
  - split.
    + intros i H. left. split; [exact H|]. intros j _ v Hv. destruct j; discriminate.
    + split; [intro H; split; [exact H|intros j v Hv; destruct j; discriminate]|tauto].
  - specialize (IH (S ind) (if allcloseR k kp then Some ind else found)). destruct IH as [IH1 IH2]. split.
    + intros i H. destruct (IH1 i H) as [[Ff Fn]|(a & v & -> & Ha & Hc & Hb)].
      * destruct (allcloseR k kp) eqn:C.
        -- injection Ff as <-. right. exists 0, kp. repeat split; [lia|exact C|].
           intros [|b] w L Hw; [lia|]. cbn in Hw. apply (Fn b); [congruence|exact Hw].
        -- left. split; [exact Ff|]. intros [|j] _ v Hv; [cbn in Hv; injection Hv as <-; exact C|].
           cbn in Hv. apply (Fn j); [congruence|exact Hv].
      * right. exists (S a), v. repeat split; [lia|exact Ha|exact Hc|].
        intros [|b] w L Hw; [lia|]. cbn in Hw. apply (Hb b w); [lia|exact Hw].
    + rewrite IH2. split.
      * intros [Hf Hall]. destruct (allcloseR k kp) eqn:C; [discriminate|]. split; [exact Hf|].
        intros [|j] v Hv; [cbn in Hv; injection Hv as <-; exact C|]. cbn in Hv. eapply Hall; exact Hv.
      * intros [Hf Hall]. rewrite (Hall 0 kp eq_refl). split; [exact Hf|]. intros j v Hv. apply (Hall (S j) v Hv).
Qed.

(** The k-points agree within numpy's default tolerances ([vnearR], PropsBand.v). *)
Theorem mode_selection : forall p o inds l k, to_int_numpy inds = Ok l ->
  length (p_modes p) = length (p_k p) ->
  let (o', e) := mode_set p o inds k in
  m_inds o' = l /\ m_k o' = Some k /\
  match e with
  | None => exists i kp w V, nth_error (p_k p) i = Some kp /\ vnearR (kR k) kp /\
              (forall j kp', i < j -> nth_error (p_k p) j = Some kp' -> ~ vnearR (kR k) kp') /\
              nth_error (p_modes p) i = Some (w, V) /\ m_mode o' = Some V
  | Some e => e = ENotSpecifiedKpath /\ m_mode o' = m_mode o /\ forall kp, In kp (p_k p) -> ~ vnearR (kR k) kp
  end.
Proof.
  intros p o inds l k Hl HL. unfold mode_set. rewrite Hl.
  destruct (last_close_spec (kR k) (p_k p) 0 None) as [S1 S2].
  destruct (last_close (kR k) 0 (p_k p) None) as [i|] eqn:E.
  - destruct (S1 i eq_refl) as [[X _]|(a & v & -> & Ha & Hc & Hb)]; [discriminate|]. cbn [plus].
    destruct (nth_error (p_modes p) a) as [[w V]|] eqn:Em.
    + cbn. repeat split. exists a, v, w, V. split; [exact Ha|]. split; [|split; [|split; [exact Em|reflexivity]]].
      * apply allcloseR_iff. exact Hc.
      * intros j kp' L Hj N. apply allcloseR_iff in N. rewrite (Hb j kp' L Hj) in N. discriminate.
    + exfalso. apply nth_error_None in Em. assert (a < length (p_k p)) by (apply nth_error_Some; congruence). lia.
  - cbn. repeat split. intros kp Hin N. apply allcloseR_iff in N.
    apply In_nth_error in Hin. destruct Hin as [j Hj]. destruct (proj1 S2 eq_refl) as [_ A]. rewrite (A j kp Hj) in N. discriminate.
Qed.

(** Bad indices: the object is unchanged. *)
Theorem mode_selection_bad_indices : forall p o inds k e, to_int_numpy inds = Err e -> mode_set p o inds k = (o, Some e).
Proof. intros p o inds k e H. unfold mode_set. rewrite H. reflexivity. Qed.

(** A successful selection does not depend on the earlier ones. *)
Theorem mode_selection_forgets : forall p o1 o2 inds k o, mode_set p o1 inds k = (o, None) -> mode_set p o2 inds k = (o, None).
Proof.
  intros p o1 o2 inds k o. unfold mode_set. destruct (to_int_numpy inds); [|discriminate].
  destruct (last_close _ _ _ _); [|discriminate]. destruct (nth_error _ _); [|discriminate]. exact (fun H => H).
Qed.

(** * C53: the trajectory *)
(** Specification.  Positions of one image: selected atom number a is displaced by t times
    its amplitude, the others do not move. *)
Definition is_frame (pos : list (v3 R)) (tr : list Z) (amp : nat -> v3 R) (t : R) (pos' : list (v3 R)) : Prop :=
  length pos' = length pos /\
  (forall i p, nth_error pos i = Some p -> ~ In (Z.of_nat i) tr -> nth_error pos' i = Some p) /\
  (forall a i p, nth_error tr a = Some (Z.of_nat i) -> nth_error pos i = Some p ->
     nth_error pos' i = Some (vadd p (vscale t (amp a)))).
(** The amplitude of selected atom a in mode number i: the real part of the eigenvector
    divided by sqrt (mass / largest mass). *)
Definition part (V : cmat) (i : nat) (ms : list R) (mx : R) (c : nat) : R := (fst (V i c) / sqrt (nth c ms 0 / mx))%R.
Definition amplitude (V : cmat) (i : nat) (ms : list R) (mx : R) (a : nat) : v3 R :=
  V3 (part V i ms mx (3 * a)) (part V i ms mx (3 * a + 1)) (part V i ms mx (3 * a + 2)).
Definition largest (ms : list R) (mx : R) : Prop := In mx ms /\ forall m, In m ms -> (m <= mx)%R.
(** Python's index into n rows: negative numbers count from the end. *)
Definition row_number (n : nat) (ind : Z) (i : nat) : Prop :=
  i < n /\ (ind = Z.of_nat i \/ ind = (Z.of_nat i - Z.of_nat n)%Z).

Lemma np_index_row n ind : (- Z.of_nat n <= ind < Z.of_nat n)%Z -> exists i, np_index n ind = Ok i /\ row_number n ind i.
Proof.
  intros H. unfold np_index, row_number. destruct (Z.leb_spec 0 ind).
  - destruct (Z.ltb_spec ind (Z.of_nat n)); [|lia]. eexists; split; [reflexivity|]. lia.
  - destruct (Z.leb_spec 0 (ind + Z.of_nat n)); [|lia]. eexists; split; [reflexivity|]. lia.
Qed.

Lemma reshape3_spec {A} (d : A) : forall T l, length l = 3 * T -> exists rows, reshape3 l = Ok rows /\ length rows = T /\
  forall a, a < T -> nth_error rows a = Some (V3 (nth (3 * a) l d) (nth (3 * a + 1) l d) (nth (3 * a + 2) l d)).
Proof.
  induction T as [|T IH]; intros l H.
  - destruct l; [|cbn in H; lia]. exists []. repeat split. intros; lia.
  - destruct l as [|x [|y [|z l]]]; cbn in H; try lia. destruct (IH l ltac:(lia)) as (rows & E & L & N).
    cbn [reshape3]. rewrite E. cbn [bind]. eexists; split; [reflexivity|]. split; [cbn; lia|].
    intros [|a] Ha; [reflexivity|]. cbn [nth_error]. rewrite N by lia.
    replace (3 * S a) with (S (S (S (3 * a)))) by lia. reflexivity.
Qed.
Lemma zip3_spec {A B C D} (f : A -> B -> C -> D) : forall a b c, length b = length a -> length c = length a ->
  exists r, zip3 f a b c = Ok r /\ length r = length a /\
    forall i x y z, nth_error a i = Some x -> nth_error b i = Some y -> nth_error c i = Some z -> nth_error r i = Some (f x y z).
Proof.
  induction a as [|x a IH]; intros [|y b] [|z c]; cbn; intros; try discriminate.
  - exists []. repeat split. intros [|i]; discriminate.
  - destruct (IH b c ltac:(lia) ltac:(lia)) as (r & E & L & N). rewrite E. cbn. eexists; split; [reflexivity|].
    split; [cbn; lia|]. intros [|i] x' y' z'; cbn; [intros; congruence|apply N].
Qed.
Lemma array_max_spec ms : ms <> [] -> exists mx, array_max ms = Ok mx /\ largest ms mx.
Proof.
  destruct ms as [|x r]; [congruence|]. intros _. exists (fold_left Rmax r x). split; [reflexivity|].
  assert (G : forall r x, (In (fold_left Rmax r x) (x :: r)) /\ (x <= fold_left Rmax r x)%R /\ forall m, In m r -> (m <= fold_left Rmax r x)%R).
  { clear. induction r as [|y r IH]; intros x; cbn [fold_left].
    - repeat split; [left; reflexivity|lra|contradiction].
    - destruct (IH (Rmax x y)) as (I1 & I2 & I3). pose proof (Rmax_l x y). pose proof (Rmax_r x y). repeat split.
      + destruct I1 as [I1|I1]; [|right; right; exact I1]. rewrite <- I1. unfold Rmax. destruct (Rle_dec x y); [right; left|left]; reflexivity.
      + lra.
      + intros m [<-|Hm]; [lra|apply I3, Hm]. }
  destruct (G r x) as (I1 & I2 & I3). split; [exact I1|]. intros m [<-|Hm]; [exact I2|apply I3, Hm].
Qed.
Lemma largest_unique ms a b : largest ms a -> largest ms b -> a = b.
Proof. intros [A1 A2] [B1 B2]. apply Rle_antisym; auto. Qed.

Lemma assign_rows_length : forall idx pos rows, length (assign_rows pos idx rows) = length pos.
Proof. induction idx as [|i idx IH]; intros pos [|r rows]; cbn; try reflexivity. rewrite IH. apply set_nth_length. Qed.
Lemma assign_rows_other : forall idx pos rows i, ~ In i idx -> nth_error (assign_rows pos idx rows) i = nth_error pos i.
Proof.
  induction idx as [|j idx IH]; intros pos [|r rows] i H; cbn; try reflexivity.
  rewrite IH by (intro; apply H; right; assumption). apply set_nth_other. intro; apply H; left; assumption.
Qed.
Lemma assign_rows_at : forall idx pos rows a i r, NoDup idx -> nth_error idx a = Some i -> nth_error rows a = Some r ->
  i < length pos -> nth_error (assign_rows pos idx rows) i = Some r.
Proof.
  induction idx as [|j idx IH]; intros pos rows a i r ND Ha Hr Hi; [destruct a; discriminate|].
  inversion ND as [|? ? NI ND']; subst. destruct rows as [|r0 rows]; [destruct a; discriminate|]. cbn.
  destruct a as [|a]; cbn in Ha, Hr.
  - injection Ha as <-. injection Hr as <-. rewrite assign_rows_other by exact NI. apply set_nth_same, Hi.
  - apply (IH _ rows a); try assumption. rewrite set_nth_length. exact Hi.
Qed.
Lemma nth_ext_eq {A} (l l' : list A) : length l = length l' -> (forall i, nth_error l i = nth_error l' i) -> l = l'.
Proof.
  revert l'. induction l as [|x l IH]; intros [|y l'] H N; cbn in H; try lia; [reflexivity|].
  pose proof (N 0) as E. cbn in E. injection E as <-. f_equal. apply IH; [lia|]. intro i. exact (N (S i)).
Qed.
Lemma assign_rows_twice idx pos r1 r2 : NoDup idx -> Forall (fun i => i < length pos) idx -> length r1 = length idx -> length r2 = length idx ->
  assign_rows (assign_rows pos idx r1) idx r2 = assign_rows pos idx r2.
Proof.
  intros ND Rg L1 L2. apply nth_ext_eq; [rewrite !assign_rows_length; reflexivity|]. intro i.
  destruct (in_dec Nat.eq_dec i idx) as [I|I].
  - destruct (In_nth_error _ _ I) as [a Ha]. rewrite Forall_forall in Rg. specialize (Rg i I).
    assert (a < length idx) by (apply nth_error_Some; congruence).
    destruct (nth_error r2 a) as [r|] eqn:E; [|apply nth_error_None in E; lia].
    rewrite !(assign_rows_at idx _ r2 a i r) by (rewrite ?assign_rows_length; assumption). reflexivity.
  - rewrite !assign_rows_other by exact I. reflexivity.
Qed.

Section Traj.
  Variable row : v3 R -> string.
  Variable kname : v3 Qc -> string.
  Definition atom_lines (pos : list (v3 R)) : list string := map (fun v => (" " ++ row v)%string) pos.

  Lemma vasp_lines_shape (c : cell R) cm pos lns : c_sel c = false -> c_cart c = Some pos -> vasp_lines row c cm = Ok lns ->
    exists head, length head = 7 /\ lns = head ++ "Cartesian"%string :: atom_lines pos /\
      forall pos', vasp_lines row (put_cart c pos') cm = Ok (head ++ "Cartesian"%string :: atom_lines pos').
  Proof.
    intros Hs Hc. destruct c as [cl ct cn cs cc cp ctr cx cma]. cbn in Hs, Hc. subst cs cp. unfold vasp_lines, put_cart.
    cbn [c_lat c_type c_num c_sel c_coord c_cart c_true c_xyz c_mass].
    destruct cl as [L|]; cbn [of_option bind]; [|discriminate].
    destruct ct as [ty|]; cbn [of_option bind]; [|discriminate].
    destruct (py_nth ty 0) as [t0|]; cbn [bind]; [|discriminate].
    destruct cn as [num|]; cbn [of_option bind]; [|discriminate].
    destruct (vasp_group_types ty 0 num) as [ts|]; cbn [bind]; [|discriminate].
    intro H. apply (f_equal (fun r => match r with Ok l => l | Err _ => [] end)) in H. cbv beta iota in H. subst lns.
    eexists. split; [|split; [reflexivity|]].
    - reflexivity.
    - intro pos'. reflexivity.
  Qed.

  Lemma put7_head head s P : length head = 7 -> put7 s (head ++ "Cartesian"%string :: atom_lines P) = Ok (head ++ s :: atom_lines P).
  Proof.
    intro H. unfold put7. rewrite app_length, H. cbn [length plus]. rewrite (proj2 (Nat.ltb_lt _ _)) by lia. f_equal.
    do 7 (destruct head as [|? head]; [discriminate|]). destruct head; [|discriminate]. reflexivity.
  Qed.
  Lemma skip7_head {A} (head l : list A) : length head = 7 -> skipn 7 (head ++ l) = l.
  Proof. intro H. rewrite skipn_app, H. rewrite skipn_all2 by lia. reflexivity. Qed.

  Definition image (pos : list (v3 R)) idx cur modes w x : list (v3 R) :=
    match zip3 (fun p d m => vadd p (vdivsqrt (vscale (sin x) d) m)) cur modes w with
    | Ok rows => assign_rows pos idx rows
    | Err _ => pos
    end.

  Lemma put_cart_cart {A} (c : cell A) p : c_cart (put_cart c p) = Some p.
  Proof. reflexivity. Qed.
  Lemma put_cart_id {A} (c : cell A) p : c_cart c = Some p -> c = put_cart c p.
  Proof. destruct c. unfold put_cart. cbn. intros ->. reflexivity. Qed.
  Lemma put_cart_twice {A} (c : cell A) p q : put_cart (put_cart c p) q = put_cart c q.
  Proof. reflexivity. Qed.

  Lemma frames_gen (c : cell R) pos idx cur modes w head : length modes = length cur -> length w = length cur ->
    length cur = length idx -> NoDup idx -> Forall (fun i => i < length pos) idx -> length head = 7 ->
    (forall P, vasp_lines row (put_cart c P) "unknown system" = Ok (head ++ "Cartesian"%string :: atom_lines P)) ->
    forall xs ind lines P, length P = length pos ->
      (forall rows, length rows = length idx -> assign_rows P idx rows = assign_rows pos idx rows) ->
      exists P', length P' = length pos /\ (forall rows, length rows = length idx -> assign_rows P' idx rows = assign_rows pos idx rows) /\
      frames row (put_cart c P) idx cur modes w (S (S ind)) xs lines =
        Ok (put_cart c P', lines ++ concat (map (fun ix => config_line (fst ix) :: atom_lines (image pos idx cur modes w (snd ix)))
                                    (combine (seq (S (S ind)) (length xs)) xs))).
  Proof.
    intros L1 L2 L3 ND Rg HL VL. induction xs as [|x xs IH]; intros ind lines P LP HP.
    - cbn. rewrite app_nil_r. exists P. auto.
    - cbn [frames]. unfold image.
      destruct (zip3_spec (fun p d m => vadd p (vdivsqrt (vscale (sin x) d) m)) cur modes w L1 L2) as (rows & Ez & Lr & _).
      rewrite Ez. cbn [bind]. rewrite put_cart_cart. cbn [of_option bind]. rewrite put_cart_twice.
      rewrite VL. cbn [bind]. rewrite put7_head by exact HL. cbn [bind Nat.eqb].
      rewrite HP by lia.
      destruct (IH (S ind) (lines ++ skipn 7 (head ++ config_line (S (S ind)) :: atom_lines (assign_rows pos idx rows))) (assign_rows pos idx rows)) as (P' & LP' & HP' & EP').
      { apply assign_rows_length. }
      { intros r' Lr'. apply assign_rows_twice; try assumption; lia. }
      exists P'. split; [exact LP'|]. split; [exact HP'|]. rewrite EP'.
      rewrite skip7_head by exact HL. f_equal. f_equal. cbn [length seq combine map concat fst snd]. rewrite Ez. rewrite <- app_assoc. reflexivity.
  Qed.

  Lemma frames_first (c : cell R) pos idx cur modes w head : length modes = length cur -> length w = length cur ->
    length cur = length idx -> NoDup idx -> Forall (fun i => i < length pos) idx -> length head = 7 ->
    (forall P, vasp_lines row (put_cart c P) "unknown system" = Ok (head ++ "Cartesian"%string :: atom_lines P)) ->
    forall x xs lines P, length P = length pos ->
      (forall rows, length rows = length idx -> assign_rows P idx rows = assign_rows pos idx rows) ->
      exists P', length P' = length pos /\ (forall rows, length rows = length idx -> assign_rows P' idx rows = assign_rows pos idx rows) /\
      frames row (put_cart c P) idx cur modes w 1 (x :: xs) lines =
        Ok (put_cart c P', head ++ concat (map (fun ix => config_line (fst ix) :: atom_lines (image pos idx cur modes w (snd ix)))
                                    (combine (seq 1 (S (length xs))) (x :: xs)))).
  Proof.
    intros L1 L2 L3 ND Rg HL VL x xs lines P LP HP. cbn [frames].
    destruct (zip3_spec (fun p d m => vadd p (vdivsqrt (vscale (sin x) d) m)) cur modes w L1 L2) as (rows & Ez & Lr & _).
    rewrite Ez. cbn [bind]. rewrite put_cart_cart. cbn [of_option bind]. rewrite put_cart_twice.
    rewrite VL. cbn [bind]. rewrite put7_head by exact HL. cbn [bind Nat.eqb]. rewrite HP by lia.
    destruct (frames_gen c pos idx cur modes w head L1 L2 L3 ND Rg HL VL xs 0 (head ++ config_line 1 :: atom_lines (assign_rows pos idx rows)) (assign_rows pos idx rows)) as (P' & LP' & HP' & EP').
    { apply assign_rows_length. }
    { intros r' Lr'. apply assign_rows_twice; try assumption; lia. }
    exists P'. split; [exact LP'|]. split; [exact HP'|]. rewrite EP'. f_equal. f_equal.
    cbn [length seq combine map concat fst snd]. unfold image at 2. rewrite Ez. rewrite <- app_assoc. reflexivity.
  Qed.

  Definition frame_lines (pos : list (v3 R)) (j : nat) : list string := config_line (S j) :: atom_lines pos.
  Definition phase (j : nat) : R := (2 * PI * INR j / 30)%R.

  Lemma phases_cons : exists x xs, phases = x :: xs /\ length xs = 29.
  Proof. unfold phases, num_images. cbn [seq map]. eexists. eexists. split; reflexivity. Qed.

  Lemma combine_phases {B} (g : nat -> R -> B) :
    map (fun ix => g (fst ix) (snd ix)) (combine (seq 1 30) phases) = map (fun j => g (S j) (INR j * (2 * PI / INR num_images))%R) (seq 0 30).
  Proof.
    unfold phases, num_images. rewrite <- (seq_shift 30 0).
    generalize (seq 0 30). intro l. rewrite <- (map_id l) at 2. 
    induction l as [|a l IH]; [reflexivity|]. cbn [map combine fst snd]. f_equal. rewrite map_id in *. exact IH.
  Qed.

  (** reading the selected rows *)
  Lemma true_rows_ok (c : cell R) pos tr : c_cart c = Some pos -> c_true c = Some tr ->
    Forall (fun z => 0 <= z < Z.of_nat (length pos))%Z tr ->
    exists cur, true_rows c = Ok (pos, map Z.to_nat tr, cur) /\ length cur = length tr /\
      forall a i, nth_error tr a = Some (Z.of_nat i) -> nth_error cur a = nth_error pos i.
  Proof.
    intros Hc Ht Rg. unfold true_rows. rewrite Hc, Ht. cbn [of_option bind].
    assert (Ei : mapM (np_index (length pos)) tr = Ok (map Z.to_nat tr)).
    { apply mapM_total. intros z Hz. rewrite Forall_forall in Rg. specialize (Rg z Hz). unfold np_index.
      destruct (Z.leb_spec 0 z); [|lia]. destruct (Z.ltb_spec z (Z.of_nat (length pos))); [reflexivity|lia]. }
    rewrite Ei. cbn [bind].
    assert (Er : mapM (fun i => py_nth pos i) (map Z.to_nat tr) = Ok (map (fun z => nth (Z.to_nat z) pos v3z) tr)).
    { rewrite <- map_map with (g := fun i => nth i pos v3z). apply mapM_total. intros i Hi. apply in_map_iff in Hi. destruct Hi as (z & <- & Hz).
      rewrite Forall_forall in Rg. specialize (Rg z Hz). unfold py_nth. rewrite (nth_error_nth' pos v3z) by lia. reflexivity. }
    rewrite Er. cbn [bind]. eexists. split; [reflexivity|]. split; [apply map_length|].
    intros a i Ha. rewrite nth_error_map, Ha. cbn [option_map]. rewrite Nat2Z.id.
    assert (i < length pos).
    { rewrite Forall_forall in Rg. apply nth_error_In in Ha. specialize (Rg _ Ha). lia. }
    rewrite (nth_error_nth' pos v3z) by assumption. reflexivity.
  Qed.

  Lemma mass_weight_ok (c : cell R) ms mx T : c_mass c = Some ms -> length ms = 3 * T -> 0 < T -> largest ms mx ->
    exists w, mass_weight c = Ok w /\ length w = T /\ forall a, a < T ->
      nth_error w a = Some (V3 (nth (3 * a) ms 0 / mx)%R (nth (3 * a + 1) ms 0 / mx)%R (nth (3 * a + 2) ms 0 / mx)%R).
  Proof.
    intros Hm HL HT Hx. unfold mass_weight. rewrite Hm. cbn [of_option bind].
    destruct (reshape3_spec 0%R T ms HL) as (rows & Er & Lr & Nr). rewrite Er. cbn [bind].
    destruct (array_max_spec ms) as (mx' & Em & Lx); [intros ->; cbn in HL; lia|].
    rewrite Em. cbn [bind]. rewrite (largest_unique ms mx' mx Lx Hx).
    eexists. split; [reflexivity|]. split; [rewrite map_length; exact Lr|]. intros a Ha. rewrite nth_error_map, Nr by exact Ha. reflexivity.
  Qed.

  Lemma mode_rows_ok n V ind i T : n = 3 * T -> np_index n ind = Ok i ->
    exists rows, mode_rows n V ind = Ok rows /\ length rows = T /\
      forall a, a < T -> nth_error rows a = Some (V3 (fst (V i (3 * a))) (fst (V i (3 * a + 1))) (fst (V i (3 * a + 2)))).
  Proof.
    intros Hn Hi. unfold mode_rows. rewrite Hi. cbn [bind].
    destruct (reshape3_spec 0%R T (map (fun j => fst (V i j)) (seq 0 n))) as (rows & Er & Lr & Nr); [rewrite map_length, seq_length; exact Hn|].
    exists rows. split; [exact Er|]. split; [exact Lr|]. intros a Ha. rewrite Nr by exact Ha.
    assert (G : forall c, c < n -> nth c (map (fun j => fst (V i j)) (seq 0 n)) 0%R = fst (V i c)).
    { intros c Hc. rewrite (nth_indep _ 0%R (fst (V i 0))) by (rewrite map_length, seq_length; exact Hc).
      rewrite (map_nth (fun j => fst (V i j))). rewrite seq_nth by exact Hc. reflexivity. }
    rewrite !G by lia. reflexivity.
  Qed.

  (** the assigned positions are the specified ones *)
  Lemma assigned_frame pos tr cur rows (amp : nat -> v3 R) t : Forall (fun z => 0 <= z < Z.of_nat (length pos))%Z tr -> NoDup tr ->
    length rows = length tr ->
    (forall a i, nth_error tr a = Some (Z.of_nat i) -> nth_error cur a = nth_error pos i) ->
    (forall a p, nth_error cur a = Some p -> nth_error rows a = Some (vadd p (vscale t (amp a)))) ->
    is_frame pos tr amp t (assign_rows pos (map Z.to_nat tr) rows).
  Proof.
    intros Rg ND Lr Hcur Hrows. rewrite Forall_forall in Rg. split; [apply assign_rows_length|]. split.
    - intros i p Hp NI. rewrite assign_rows_other; [exact Hp|]. rewrite in_map_iff. intros (z & <- & Hz). apply NI.
      specialize (Rg z Hz). rewrite Z2Nat.id by lia. exact Hz.
    - intros a i p Ha Hp. eapply assign_rows_at.
      + clear - ND Rg. induction tr as [|z tr IH]; cbn; [constructor|]. inversion ND; subst. constructor.
        * rewrite in_map_iff. intros (z' & E & Hz'). pose proof (Rg z (or_introl eq_refl)). pose proof (Rg z' (or_intror Hz')).
          apply Z2Nat.inj in E; [subst; contradiction|lia|lia].
        * apply IH; [intros; apply Rg; right; assumption|assumption].
      + rewrite nth_error_map, Ha. cbn. rewrite Nat2Z.id. reflexivity.
      + apply Hrows. rewrite (Hcur a i Ha). exact Hp.
      + apply nth_error_Some. congruence.
  Qed.
  Lemma NoDup_to_nat tr len : Forall (fun z => 0 <= z < Z.of_nat len)%Z tr -> NoDup tr -> NoDup (map Z.to_nat tr).
  Proof.
    intros Rg ND. rewrite Forall_forall in Rg. induction tr as [|z tr IH]; cbn; [constructor|]. inversion ND; subst. constructor.
    - rewrite in_map_iff. intros (z' & E & Hz'). pose proof (Rg z (or_introl eq_refl)). pose proof (Rg z' (or_intror Hz')).
      apply Z2Nat.inj in E; [subst; contradiction|lia|lia].
    - apply IH; [intros; apply Rg; right; assumption|assumption].
  Qed.

  (** ** C53 *)
  Theorem trajectory_content : forall n (u : cell R) o pos tr ms mx lns V k,
    c_cart u = Some pos -> c_true u = Some tr -> Forall (fun z => 0 <= z < Z.of_nat (length pos))%Z tr -> NoDup tr -> tr <> [] ->
    c_mass u = Some ms -> length ms = 3 * length tr -> largest ms mx ->
    n = 3 * length tr ->
    vasp_lines row (set_selective u false) "unknown system" = Ok lns ->
    m_mode o = Some V -> m_k o = Some k ->
    Forall (fun ind => - Z.of_nat n <= ind < Z.of_nat n)%Z (m_inds o) ->
    exists files, mode_write row kname n u o = (files, None) /\
      Forall2 (fun ind f => fst f = traj_name kname ind k /\
        exists i (frame : nat -> list (v3 R)), row_number n ind i /\
          (forall j, j < 30 -> is_frame pos tr (amplitude V i ms mx) (sin (phase j)) (frame j)) /\
          snd f = firstn 7 lns ++ flat_map (fun j => frame_lines (frame j) j) (seq 0 30)) (m_inds o) files.
  Proof.
    intros n u o pos tr ms mx lns V k Hpos Htr Rg ND NE Hms Lms Hmx Hn Hl HV Hk Hinds.
    assert (T0 : 0 < length tr) by (destruct tr; [congruence|cbn; lia]).
    unfold mode_write. set (c := set_selective u false) in *.
    destruct (true_rows_ok c pos tr) as (cur & Et & Lcur & Ncur); [exact Hpos|exact Htr|exact Rg|].
    destruct (mass_weight_ok c ms mx (length tr)) as (w & Ew & Lw & Nw); [exact Hms|exact Lms|exact T0|exact Hmx|].
    rewrite Et. cbn [bind]. rewrite Ew. cbn [bind].
    destruct (vasp_lines_shape c "unknown system" pos lns eq_refl Hpos Hl) as (head & Lh & -> & Hput).
    rewrite firstn_app, Lh. replace (7 - 7) with 0 by lia. rewrite firstn_all2 by lia. cbn [firstn]. rewrite app_nil_r.
    pose proof (NoDup_to_nat tr (length pos) Rg ND) as NDi.
    assert (Rgi : Forall (fun i => i < length pos) (map Z.to_nat tr)).
    { rewrite Forall_forall in *. intros i Hi. apply in_map_iff in Hi. destruct Hi as (z & <- & Hz). specialize (Rg z Hz). lia. }
    assert (Main : forall inds P, Forall (fun ind => - Z.of_nat n <= ind < Z.of_nat n)%Z inds -> length P = length pos ->
      (forall rows, length rows = length (map Z.to_nat tr) -> assign_rows P (map Z.to_nat tr) rows = assign_rows pos (map Z.to_nat tr) rows) ->
      exists files, write_modes row kname n o (put_cart c P) (map Z.to_nat tr) cur w inds = (files, None) /\
      Forall2 (fun ind f => fst f = traj_name kname ind k /\
        exists i (frame : nat -> list (v3 R)), row_number n ind i /\
          (forall j, j < 30 -> is_frame pos tr (amplitude V i ms mx) (sin (phase j)) (frame j)) /\
          snd f = head ++ flat_map (fun j => frame_lines (frame j) j) (seq 0 30)) inds files).
    { induction inds as [|ind inds IH]; intros P Hr LP HP; [exists []; split; [reflexivity|constructor]|].
      inversion Hr as [|? ? Hr1 Hr2]; subst. cbn [write_modes]. rewrite HV, Hk. cbn [of_option bind].
      destruct (np_index_row _ ind Hr1) as (i & Ei & Ri).
      destruct (mode_rows_ok (3 * length tr) V ind i (length tr) eq_refl Ei) as (modes & Em & Lm & Nm). rewrite Em. cbn [bind].
      destruct phases_cons as (x & xs & Ep & Lx).
      assert (Lcm : length modes = length cur) by lia.
      assert (Lcw : length w = length cur) by lia.
      assert (Lci : length cur = length (map Z.to_nat tr)) by (rewrite map_length; exact Lcur).
      destruct (frames_first c pos (map Z.to_nat tr) cur modes w head Lcm Lcw Lci NDi Rgi Lh Hput x xs [] P LP HP) as (P' & LP' & HP' & EP').
      rewrite <- Ep in EP'. rewrite EP'. cbn [bind].
      destruct (IH P' Hr2 LP' HP') as (files & Ef & Ff). rewrite Ef. eexists. split; [reflexivity|].
      constructor; [|exact Ff]. split; [reflexivity|].
      exists i, (fun j => image pos (map Z.to_nat tr) cur modes w (INR j * (2 * PI / INR num_images))%R). split; [exact Ri|]. split.
      - intros j Hj. unfold image.
        set (X := (INR j * (2 * PI / INR num_images))%R).
        assert (EX : X = phase j) by (unfold X, phase, num_images; replace (INR 30) with 30%R by (cbn; lra); field).
        destruct (zip3_spec (fun p d m => vadd p (vdivsqrt (vscale (sin X) d) m)) cur modes w Lcm Lcw) as (rows & Ez & Lr & Nr).
        rewrite Ez. apply (assigned_frame pos tr cur); try assumption; [lia|].
        intros a p Ha. assert (Ha' : a < length tr) by (rewrite <- Lcur; apply nth_error_Some; congruence).
        rewrite (Nr a p _ _ Ha (Nm a Ha') (Nw a Ha')). f_equal. f_equal. rewrite <- EX.
        unfold vdivsqrt, vscale, amplitude, part. cbn [vx vy vz]. f_equal; change (@fmul R Fld_R) with Rmult; unfold Rdiv; ring.
      - cbn [snd]. f_equal. rewrite flat_map_concat_map. f_equal. rewrite Lx, Ep in *.
        rewrite <- Ep. exact (combine_phases (fun a x0 => config_line a :: atom_lines (image pos (map Z.to_nat tr) cur modes w x0))). }
    assert (Ec : c = put_cart c pos) by (unfold c, put_cart, set_selective; cbn; rewrite Hpos; reflexivity).
    rewrite Ec. apply Main; [exact Hinds|reflexivity|reflexivity].
  Qed.

  (** ** C70: the commensurate displaced supercell *)
  (** mass in kg of an atom of type t (C54) *)
  Definition mass_kg (t : string) (m : R) : Prop :=
    exists w e, get_atomic_weight t = Ok (Some (w, e)) /\ m = (IZR w / IZR (10 ^ e) / (IZR 6022 * IZR (10 ^ 20)) / 1000)%R.
  (** the three numbers of selected atom a in eigenvector i, real parts, divided by sqrt f *)
  Definition real_rows (V : cmat) (i a : nat) (f : R) : v3 R :=
    let re c := fst (V i c) in
    V3 (re (3 * a)%nat / sqrt f)%R (re (3 * a + 1)%nat / sqrt f)%R (re (3 * a + 2)%nat / sqrt f)%R.

  Lemma radix_inj (E : nat) (z z' : Z) (k k' : nat) : k < E -> k' < E ->
    (z * Z.of_nat E + Z.of_nat k = z' * Z.of_nat E + Z.of_nat k')%Z -> z = z' /\ k = k'.
  Proof.
    intros A B H. assert (z = z').
    { assert (z < z' \/ z = z' \/ z' < z)%Z as [C|[C|C]] by lia; [|exact C|]; exfalso; nia. }
    subst z'. split; [reflexivity|]. lia.
  Qed.

  Lemma write_commensurate_gen n E V k amp code (s : cell R) pos idx cur w ph (new : Z -> list (v3 R)) :
    known_code code = true -> NoDup idx -> Forall (fun i => i < length pos) idx ->
    (forall ind, (- Z.of_nat n <= ind < Z.of_nat n)%Z -> length (new ind) = length idx /\
       exists rows disp, mode_rows n V ind = Ok rows /\
         zip3 (fun x d m => mode_shift amp x d m) ph (flat_map (fun d => repeat d E) rows) w = Ok disp /\
         zip3 (fun p d (_ : unit) => vadd p d) cur disp (map (fun _ => tt) cur) = Ok (new ind)) ->
    forall inds P, Forall (fun ind => - Z.of_nat n <= ind < Z.of_nat n)%Z inds ->
      (forall rows, length rows = length idx -> assign_rows P idx rows = assign_rows pos idx rows) ->
      write_commensurate kname n E V k amp code (put_cart s P) idx cur w ph inds =
        (map (fun ind => (mposcar ind, mcomment kname ind k, put_cart s (assign_rows pos idx (new ind)))) inds, None).
  Proof.
    intros KC ND Rg Hn. induction inds as [|ind inds IH]; intros P Hr HP; [reflexivity|].
    inversion Hr as [|? ? Hr1 Hr2]; subst. cbn [write_commensurate].
    destruct (Hn ind Hr1) as (Ln & rows & disp & E1 & E2 & E3). rewrite E1. cbn [bind]. rewrite E2. cbn [bind]. rewrite E3. cbn [bind].
    rewrite put_cart_cart. cbn [of_option bind]. rewrite put_cart_twice, HP by exact Ln.
    rewrite (IH (assign_rows pos idx (new ind))); [rewrite KC; reflexivity|exact Hr2|].
    intros r Lr. apply assign_rows_twice; assumption.
  Qed.

  Theorem mode_displacement_content : forall n (u : cell R) ar B o amp code L ty num kc pos tr mz mx V k p1 p2 p3,
    complete u L ty num kc pos -> a_pbc ar = Some [p1; p2; p3] ->
    c_true u = Some tr -> Forall (fun z => 0 <= z < Z.of_nat (length pos))%Z tr -> NoDup tr -> tr <> [] -> n = 3 * length tr ->
    (forall t, In t ty -> exists k r n, 1 <= k /\ nth_error periodic_table k = Some r /\ In n (names r) /\ same_but_case t n) ->
    length mz = length tr -> (forall a z, nth_error tr a = Some z -> exists t, nth_error ty (Z.to_nat z) = Some t /\ mass_kg t (nth a mz 0%R)) ->
    largest mz mx ->
    m_k o = Some k -> m_mode o = Some V -> Forall (fun ind => - Z.of_nat n <= ind < Z.of_nat n)%Z (m_inds o) ->
    In code ["vasp"; "espresso"; "aims"]%string ->
    exists N1 N2 N3 files,
      comm_entry p1 (vx k) = Ok (Z.of_nat N1) /\ comm_entry p2 (vy k) = Ok (Z.of_nat N2) /\ comm_entry p3 (vz k) = Ok (Z.of_nat N3) /\
      write_mode_displace kname n u ar B o amp code = (files, None) /\
      Forall2 (fun ind f => let '(name, comment, s) := f in
        name = mposcar ind /\ comment = mcomment kname ind k /\
        c_lat s = Some (scaled (Z.of_nat N1) (Z.of_nat N2) (Z.of_nat N3) L) /\ c_sel s = true /\
        exists i ts ps, row_number n ind i /\ c_type s = Some ts /\ c_cart s = Some ps /\
          length ts = length ty * (N1 * N2 * N3) /\ length ps = length pos * (N1 * N2 * N3) /\
          forall b t r x y z, nth_error ty b = Some t -> nth_error pos b = Some r -> x < N1 -> y < N2 -> z < N3 ->
            let r0 := copy_pos L r (Z.of_nat x) (Z.of_nat y) (Z.of_nat z) in
            let at_ := (N1 * N2 * N3) * b + ((x * N2 + y) * N3 + z) in
            nth_error ts at_ = Some t /\
            (~ In (Z.of_nat b) tr -> nth_error ps at_ = Some r0) /\
            (forall a, nth_error tr a = Some (Z.of_nat b) ->
               nth_error ps at_ = Some (vadd r0 (vscale (amp * cos (vdot (vmul (kR k) B) r0))%R (real_rows V i a (nth a mz 0 / mx)%R)))))
        (m_inds o) files.
  Proof.
    intros n u ar B o amp code L ty num kc pos tr mz mx V k p1 p2 p3 HC Hp Ht Rg ND NE Hn Hty Lmz Hmz Hmx Hk HV Hi Hcode.
    destruct (commensurate_enlargement p1 (vx k)) as (e1 & C1 & R1 & Z1 & _).
    destruct (commensurate_enlargement p2 (vy k)) as (e2 & C2 & R2 & Z2 & _).
    destruct (commensurate_enlargement p3 (vz k)) as (e3 & C3 & R3 & Z3 & _).
    pose (N1 := Z.to_nat e1). pose (N2 := Z.to_nat e2). pose (N3 := Z.to_nat e3).
    assert (E1 : e1 = Z.of_nat N1) by (unfold N1; lia). assert (E2 : e2 = Z.of_nat N2) by (unfold N2; lia). assert (E3 : e3 = Z.of_nat N3) by (unfold N3; lia).
    clearbody N1 N2 N3. subst e1 e2 e3. exists N1, N2, N3.
    unfold write_mode_displace. rewrite Hk, Hp. cbn [of_option bind]. unfold comm_enlargement. rewrite C1, C2, C3. cbn [bind].
    unfold set_enlargement, to_int_numpy. cbn [map mapM py_int bind length Nat.eqb].
    set (ar1 := mkArgs (a_disp ar) (Some [Z.of_nat N1; Z.of_nat N2; Z.of_nat N3]) (a_pbc ar)).
    assert (HV1 : valid_args ar1 (Z.of_nat N1) (Z.of_nat N2) (Z.of_nat N3) p1 p2 p3).
    { split; [reflexivity|]. split; [exact Hp|]. repeat split; assumption. }
    rewrite (enlarge_valid _ _ _ _ _ _ (proj2 (proj2 HV1))). cbn [bind].
    replace (Z.of_nat N1 * Z.of_nat N2 * Z.of_nat N3)%Z with (Z.of_nat (N1 * N2 * N3)) by lia.
    unfold build_super.
    destruct (super_cell_correct u ar1 L ty num kc pos N1 N2 N3 p1 p2 p3 HC HV1 ltac:(lia) ltac:(lia) ltac:(lia)) as (s0 & Es0 & [S1 (ts & S2 & S2l & S2n) S3 S4 (ps & S5 & S5l & S5n)]).
    rewrite Es0. cbn [bind].
    destruct (super_selection u s0 ar1 tr N1 N2 N3 p1 p2 p3 HV1 Ht) as (s1 & st & Es1 & Q1 & Q2 & Q3 & Q4 & Q5 & Q6 & Q7 & Q8 & (xs & Q9 & Q10 & Q11)).
    rewrite Es1. cbn [bind].
    set (E := N1 * N2 * N3) in *. assert (HE : 0 < E) by (unfold E; nia).
    destruct HC as (H1 & H2 & H3 & H4 & H5 & H6).
    (* the selected entries of the supercell *)
    assert (Dec : forall j, j < length st -> exists a z k', nth_error tr a = Some z /\ k' < E /\ j = E * a + k' /\ nth_error st j = Some (z * Z.of_nat E + Z.of_nat k')%Z).
    { intros j Hj. rewrite Q7 in Hj. pose proof (Nat.div_mod j E ltac:(lia)) as DM. pose proof (Nat.mod_upper_bound j E ltac:(lia)) as MB.
      assert (Ha : j / E < length tr) by (apply Nat.div_lt_upper_bound; lia).
      destruct (nth_error tr (j / E)) as [z|] eqn:Ez; [|apply nth_error_None in Ez; lia].
      exists (j / E), z, (j mod E). split; [exact Ez|]. split; [exact MB|]. split; [exact DM|].
      rewrite DM at 1. apply Q8; assumption. }
    assert (Rg' := Rg). rewrite Forall_forall in Rg'.
    assert (RgS : Forall (fun z => 0 <= z < Z.of_nat (length ps))%Z st).
    { rewrite Forall_forall. intros q Hq. apply In_nth_error in Hq. destruct Hq as [j Hj].
      assert (Lj : j < length st) by (apply nth_error_Some; congruence).
      destruct (Dec j Lj) as (a & z & k' & Ha & Hk' & -> & Hs). rewrite Hs in Hj. injection Hj as <-.
      specialize (Rg' z (nth_error_In _ _ Ha)). rewrite S5l. nia. }
    assert (NDS : NoDup st).
    { apply NoDup_nth_error. intros j j' Lj Heq.
      assert (Lj' : j' < length st) by (apply nth_error_Some; rewrite <- Heq; apply nth_error_Some, Lj).
      destruct (Dec j Lj) as (a & z & k' & Ha & Hk' & -> & Hs). destruct (Dec j' Lj') as (a' & z' & k'' & Ha' & Hk'' & -> & Hs').
      rewrite Hs, Hs' in Heq. injection Heq as Heq.
      pose proof (Rg' z (nth_error_In _ _ Ha)). pose proof (Rg' z' (nth_error_In _ _ Ha')).
      destruct (radix_inj E z z' k' k'' Hk' Hk'' Heq) as [-> ->].
      assert (a = a'); [|congruence]. apply (proj1 (NoDup_nth_error tr) ND); [apply nth_error_Some; congruence|congruence]. }
    (* masses *)
    assert (Typ : forall b t k', nth_error ty b = Some t -> k' < E -> nth_error ts (E * b + k') = Some t).
    { intros b t k' Hb Hk'. destruct (copy_index N1 N2 N3 k' Hk') as (x & y & z & Hx & Hy & Hz & ->). apply S2n; assumption. }
    assert (Lst : length st = length tr * E) by exact Q7.
    destruct (masses_of_selected_atoms s1 ts xs) as (s2 & ms & M1 & M2 & M3' & M4 & M5 & M6 & M7 & M8 & M9).
    { rewrite Q4. exact S2. }
    { exact Q9. }
    { intros t Hin. apply Hty. apply In_nth_error in Hin. destruct Hin as [j Hj].
      assert (Lj : j < length ty * E) by (rewrite <- S2l; apply nth_error_Some; congruence).
      pose proof (Nat.div_mod j E ltac:(lia)) as DM. pose proof (Nat.mod_upper_bound j E ltac:(lia)) as MB.
      assert (Ha : j / E < length ty) by (apply Nat.div_lt_upper_bound; lia).
      destruct (nth_error ty (j / E)) as [t'|] eqn:Et; [|apply nth_error_None in Et; lia].
      rewrite DM in Hj. rewrite (Typ (j / E) t' (j mod E) Et MB) in Hj. injection Hj as <-. apply nth_error_In in Et. exact Et. }
    { intros z Hz. apply In_nth_error in Hz. destruct Hz as [j Hj].
      assert (Lj : j < 3 * length st) by (rewrite <- Q10; apply nth_error_Some; congruence).
      pose proof (Nat.div_mod j 3 ltac:(lia)) as DM. pose proof (Nat.mod_upper_bound j 3 ltac:(lia)) as MB.
      assert (Ha : j / 3 < length st) by (apply Nat.div_lt_upper_bound; lia).
      destruct (nth_error st (j / 3)) as [q|] eqn:Eq; [|apply nth_error_None in Eq; lia].
      rewrite DM in Hj. rewrite (Q11 (j / 3) q (j mod 3) Eq MB) in Hj. injection Hj as <-.
      rewrite Forall_forall in RgS. specialize (RgS q (nth_error_In _ _ Eq)). rewrite S2l, H6, <- S5l. exact RgS. }
    { intros t Hq. rewrite Q2 in Hq. injection Hq as <-. exact Q10. }
    rewrite M1. cbn [bind].
    assert (Lms : length ms = 3 * length st) by lia.
    assert (Mass : forall a k' d, a < length tr -> k' < E -> d < 3 -> nth_error ms (3 * (E * a + k') + d) = Some (nth a mz 0%R)).
    { intros a k' d Ha Hk' Hd. destruct (nth_error tr a) as [z|] eqn:Ez; [|apply nth_error_None in Ez; lia].
      pose proof (Q8 a z k' Ez Hk') as Hs. pose proof (Q11 _ _ d Hs Hd) as Hx.
      destruct (Hmz a z Ez) as (t & Htz & (w & e & Hw & ->)).
      assert (Tz : nth_error ts (Z.to_nat (z * Z.of_nat E + Z.of_nat k')) = Some t).
      { specialize (Rg' z (nth_error_In _ _ Ez)). replace (Z.to_nat (z * Z.of_nat E + Z.of_nat k')) with (E * Z.to_nat z + k') by nia. apply Typ; assumption. }
      destruct (M9 _ _ _ Hx Tz) as (m' & e' & Hw' & Hn' & _). rewrite Hw in Hw'. injection Hw' as <- <-. exact Hn'. }
    assert (LX : largest ms mx).
    { destruct Hmx as [X1 X2]. split.
      - apply In_nth_error in X1. destruct X1 as [a Ha]. assert (a < length tr) by (rewrite <- Lmz; apply nth_error_Some; congruence).
        pose proof (Mass a 0 0 ltac:(lia) HE ltac:(lia)) as Q. rewrite (nth_error_nth _ _ 0%R Ha) in Q. apply nth_error_In in Q. exact Q.
      - intros m Hm. apply In_nth_error in Hm. destruct Hm as [j Hj].
        assert (Lj : j < 3 * length st) by (rewrite <- Lms; apply nth_error_Some; congruence).
        pose proof (Nat.div_mod j 3 ltac:(lia)) as DM. pose proof (Nat.mod_upper_bound j 3 ltac:(lia)) as MB.
        assert (Ha : j / 3 < length st) by (apply Nat.div_lt_upper_bound; lia).
        destruct (Dec _ Ha) as (a & z & k' & Hz & Hk' & Ej & _).
        assert (Hal : a < length tr) by (apply nth_error_Some; congruence).
        rewrite DM, Ej in Hj. rewrite (Mass a k' (j mod 3) Hal Hk' MB) in Hj. injection Hj as <-.
        apply X2. apply nth_In. lia. }
    (* the rows *)
    set (s := set_selective s2 true).
    assert (Cs : c_cart s = Some ps) by (change (c_cart s2 = Some ps); rewrite M6, Q3; exact S5).
    assert (Ct : c_true s = Some st) by (change (c_true s2 = Some st); rewrite M8; exact Q2).
    destruct (true_rows_ok s ps st Cs Ct RgS) as (cur & Er & Lcur & Ncur). rewrite Er. cbn [bind].
    assert (T0 : 0 < length st) by (rewrite Lst; destruct tr; [congruence|cbn; lia]).
    destruct (mass_weight_ok s ms mx (length st) M2 Lms T0 LX) as (w & Ew & Lw & Nw). rewrite Ew. cbn [bind].
    destruct (m_inds o) as [|i0 il] eqn:EI.
    { cbn [bind]. exists []. do 4 (split; [reflexivity|]). constructor. }
    rewrite HV. cbn [of_option]. clear EI. set (inds := i0 :: il) in *. clearbody inds. cbn [bind]. rewrite Nat2Z.id.
    set (q := vmul (kR k) B). set (ph := map (fun r => cos (vdot q r)) cur).
    pose (new := fun ind => match (let! rows := mode_rows n V ind in
        let! disp := zip3 (fun x d m => mode_shift amp x d m) ph (flat_map (fun d => repeat d E) rows) w in
        zip3 (fun p d (_ : unit) => vadd p d) cur disp (map (fun _ => tt) cur)) with Ok l => l | Err _ => [] end).
    assert (New : forall ind, (- Z.of_nat n <= ind < Z.of_nat n)%Z -> exists i rows disp, row_number n ind i /\
        mode_rows n V ind = Ok rows /\
        zip3 (fun x d m => mode_shift amp x d m) ph (flat_map (fun d => repeat d E) rows) w = Ok disp /\
        zip3 (fun p d (_ : unit) => vadd p d) cur disp (map (fun _ => tt) cur) = Ok (new ind) /\ length (new ind) = length st /\
        forall a k' p, a < length tr -> k' < E -> nth_error cur (E * a + k') = Some p ->
          nth_error (new ind) (E * a + k') = Some (vadd p (vscale (amp * cos (vdot q p))%R (real_rows V i a (nth a mz 0 / mx)%R)))).
    { intros ind Hind. destruct (np_index_row n ind Hind) as (i & Ei & Ri).
      destruct (mode_rows_ok n V ind i (length tr) Hn Ei) as (rows & Em & Lm & Nm).
      assert (Lf : length (flat_map (fun d => repeat d E) rows) = length rows * E) by (apply flat_map_const_length; intros; apply repeat_length).
      assert (Lph : length ph = length cur) by apply map_length.
      destruct (zip3_spec (fun x d m => mode_shift amp x d m) ph (flat_map (fun d => repeat d E) rows) w ltac:(lia) ltac:(lia)) as (disp & Ed & Ld & Nd).
      destruct (zip3_spec (fun p d (_ : unit) => vadd p d) cur disp (map (fun _ => tt) cur) ltac:(lia) ltac:(rewrite map_length; lia)) as (nw & En & Ln & Nn).
      exists i, rows, disp. split; [exact Ri|]. split; [exact Em|]. split; [exact Ed|].
      unfold new. rewrite Em. cbn [bind]. rewrite Ed. cbn [bind]. rewrite En. split; [reflexivity|]. split; [lia|].
      intros a k' p Ha Hk' Hpp.
      assert (Lj : E * a + k' < length st) by (rewrite Lst; nia).
      assert (D1 : nth_error (flat_map (fun d => repeat d E) rows) (E * a + k') = Some (V3 (fst (V i (3 * a))) (fst (V i (3 * a + 1))) (fst (V i (3 * a + 2))))).
      { erewrite flat_map_const_nth; [apply nth_error_repeat; exact Hk'|intros; apply repeat_length|apply Nm; exact Ha|exact Hk']. }
      assert (D2 : nth_error ph (E * a + k') = Some (cos (vdot q p))) by (unfold ph; rewrite nth_error_map, Hpp; reflexivity).
      pose proof (Nd _ _ _ _ D2 D1 (Nw _ Lj)) as D3.
      assert (D4 : nth_error (map (fun _ => tt) cur) (E * a + k') = Some tt) by (rewrite nth_error_map, Hpp; reflexivity).
      rewrite (Nn _ _ _ _ Hpp D3 D4). f_equal. f_equal.
      assert (G : forall d, d < 3 -> nth (3 * (E * a + k') + d) ms 0%R = nth a mz 0%R).
      { intros d Hd. apply nth_error_nth. apply Mass; assumption. }
      pose proof (G 0 ltac:(lia)) as G0. rewrite Nat.add_0_r in G0. rewrite G0, (G 1), (G 2) by lia.
      unfold mode_shift, vdivsqrt, vscale, real_rows. cbn [vx vy vz]. change (@fmul R Fld_R) with Rmult. unfold Rdiv. f_equal; ring. }
    assert (KC : known_code code = true) by (destruct Hcode as [<-|[<-|[<-|[]]]]; reflexivity).
    pose proof (NoDup_to_nat st (length ps) RgS NDS) as NDi.
    assert (Rgi : Forall (fun i => i < length ps) (map Z.to_nat st)).
    { rewrite Forall_forall in *. intros i Hii. apply in_map_iff in Hii. destruct Hii as (z & <- & Hz). specialize (RgS z Hz). lia. }
    pose proof (write_commensurate_gen n E V k amp code s ps (map Z.to_nat st) cur w ph new KC NDi Rgi) as WG.
    pose proof (put_cart_id s ps Cs) as Ecs.
    assert (WH : write_commensurate kname n E V k amp code (put_cart s ps) (map Z.to_nat st) cur w ph inds =
      (map (fun ind => (mposcar ind, mcomment kname ind k, put_cart s (assign_rows ps (map Z.to_nat st) (new ind)))) inds, None)).
    { apply WG; [|exact Hi|reflexivity]. intros ind Hind. destruct (New ind Hind) as (i & rows & disp & _ & W1 & W2 & W3 & W4 & _).
      rewrite map_length. split; [exact W4|]. exists rows, disp. auto. }
    rewrite <- Ecs in WH. clear WG. eexists. do 3 (split; [reflexivity|]). split; [exact WH|]. clear WH.
    clear HV. induction Hi as [|ind inds' Hind Hinds IH]; [constructor|]. constructor; [|exact IH]. cbn [map].
    destruct (New ind Hind) as (i & rows & disp & Ri & _ & _ & _ & Lnw & Nnw).
    split; [reflexivity|]. split; [reflexivity|].
    split; [change (c_lat s2 = Some (scaled (Z.of_nat N1) (Z.of_nat N2) (Z.of_nat N3) L)); rewrite M7, Q5; exact S1|]. split; [reflexivity|].
    exists i, ts, (assign_rows ps (map Z.to_nat st) (new ind)). split; [exact Ri|].
    split; [change (c_type s2 = Some ts); rewrite M4, Q4; exact S2|]. split; [reflexivity|]. split; [exact S2l|]. split; [rewrite assign_rows_length; exact S5l|].
    intros b t r x y z Hb Hr Hx Hy Hz. cbn zeta.
    assert (Hk' : (x * N2 + y) * N3 + z < E) by (apply copy_lt; assumption).
    set (k' := (x * N2 + y) * N3 + z) in *.
    pose proof (S5n b r x y z Hr Hx Hy Hz) as Pr. fold k' in Pr.
    split; [apply Typ; assumption|]. split.
    - intro NI. rewrite assign_rows_other; [exact Pr|]. rewrite in_map_iff. intros (sz & Esz & Hsz). apply NI.
      apply In_nth_error in Hsz. destruct Hsz as [j Hj]. assert (Lj : j < length st) by (apply nth_error_Some; congruence).
      destruct (Dec j Lj) as (a & z0 & k0 & Ha & Hk0 & -> & Hs0). rewrite Hs0 in Hj. injection Hj as <-.
      specialize (Rg' z0 (nth_error_In _ _ Ha)). apply nth_error_In in Ha.
      assert (Z.of_nat b = z0) as <-; [|exact Ha].
      apply (radix_inj E _ _ k' k0 Hk' Hk0). nia.
    - intros a Ha. pose proof (Q8 a (Z.of_nat b) k' Ha Hk') as Hs.
      assert (Hal : a < length tr) by (apply nth_error_Some; congruence).
      assert (Hs' : nth_error st (E * a + k') = Some (Z.of_nat (E * b + k'))) by (rewrite Hs; f_equal; lia).
      apply (assign_rows_at _ _ _ (E * a + k')); [exact NDi|rewrite nth_error_map, Hs'; cbn [option_map]; rewrite Nat2Z.id; reflexivity| |apply nth_error_Some; congruence].
      apply Nnw; [exact Hal|exact Hk'|]. rewrite (Ncur _ _ Hs'). exact Pr.
  Qed.

  Lemma write_modes_only n o o' : m_mode o = m_mode o' -> m_k o = m_k o' -> forall idx cur w inds c,
    write_modes row kname n o c idx cur w inds = write_modes row kname n o' c idx cur w inds.
  Proof.
    intros A B idx cur w. induction inds as [|x inds IH]; intro c; cbn [write_modes]; [reflexivity|]. rewrite A, B.
    destruct (let! V := of_option EUninit (m_mode o') in _) as [[c1 f]|e]; [|reflexivity]. rewrite IH. reflexivity.
  Qed.

  (** C53: an index outside [-n, n) raises IndexError after the files of the earlier indices
      have been written. *)
  Theorem trajectory_bad_index : forall n (u : cell R) l1 ind l2 k V files, ~ (- Z.of_nat n <= ind < Z.of_nat n)%Z ->
    mode_write row kname n u (mkMode l1 (Some k) (Some V)) = (files, None) ->
    mode_write row kname n u (mkMode (l1 ++ ind :: l2) (Some k) (Some V)) = (files, Some EIndex) /\ length files = length l1.
  Proof.
    intros n u l1 ind l2 k V files Bad. unfold mode_write.
    destruct (let! t := true_rows (set_selective u false) in let! w := mass_weight (set_selective u false) in Ok (t, w)) as [[[[pos idx] cur] w]|e]; [|discriminate].
    cbn [m_inds].
    assert (NI : np_index n ind = Err EIndex).
    { unfold np_index. destruct (Z.leb_spec 0 ind); [destruct (Z.ltb_spec ind (Z.of_nat n)); [lia|reflexivity]|].
      destruct (Z.leb_spec 0 (ind + Z.of_nat n)); [lia|reflexivity]. }
    generalize (set_selective u false) as c. revert files.
    induction l1 as [|x l1 IH]; intros files c; cbn [app write_modes m_mode m_k of_option bind].
    - intro H. injection H as <-. unfold mode_rows at 1. rewrite NI. cbn [bind]. split; reflexivity.
    - destruct (let! modes := mode_rows n V x in let! (c1, lines) := frames row c idx cur modes w 1 phases [] in Ok (c1, (traj_name kname x k, lines))) as [[c1 f]|e]; [|discriminate].
      rewrite (write_modes_only n (mkMode (x :: l1) (Some k) (Some V)) (mkMode l1 (Some k) (Some V)) eq_refl eq_refl).
      destruct (write_modes row kname n {| m_inds := l1; m_k := Some k; m_mode := Some V |} c1 idx cur w l1) as [fs e] eqn:W.
      intro H. injection H as <- ->. destruct (IH fs c1) as [IH1 IH2]; [exact W|].
      rewrite (write_modes_only n (mkMode (x :: l1 ++ ind :: l2) (Some k) (Some V)) (mkMode (l1 ++ ind :: l2) (Some k) (Some V)) eq_refl eq_refl).
      rewrite IH1. split; [reflexivity|cbn; lia].
  Qed.
End Traj.

(** C53: images 0 and 15 are the equilibrium structure; images j and j + 15 are opposite. *)
Theorem trajectory_symmetric : forall pos tr amp, NoDup tr -> Forall (fun z => 0 <= z < Z.of_nat (length pos))%Z tr ->
  (forall f, is_frame pos tr amp (sin (phase 0)) f -> f = pos) /\
  (forall f, is_frame pos tr amp (sin (phase 15)) f -> f = pos) /\
  (forall j f g, is_frame pos tr amp (sin (phase j)) f -> is_frame pos tr amp (sin (phase (j + 15))) g ->
     forall i p a b, nth_error pos i = Some p -> nth_error f i = Some a -> nth_error g i = Some b -> vadd a b = vadd p p).
Proof.
  intros pos tr amp ND Rg.
  assert (Z0 : forall t f, t = 0%R -> is_frame pos tr amp t f -> f = pos).
  { intros t f -> (L & U & S). apply nth_ext_eq; [exact L|]. intro i.
    destruct (nth_error pos i) as [p|] eqn:Ep; [|apply nth_error_None; apply nth_error_None in Ep; lia].
    destruct (in_dec Z.eq_dec (Z.of_nat i) tr) as [I|I]; [|exact (U i p Ep I)].
    apply In_nth_error in I. destruct I as [a Ha]. rewrite (S a i p Ha Ep). f_equal.
    destruct p as [x y z], (amp a) as [x' y' z']. unfold vadd, vscale. cbn [vx vy vz]. change (@fmul R Fld_R) with Rmult. change (@fadd R Fld_R) with Rplus. f_equal; ring. }
  split; [|split].
  - intros f. apply Z0. unfold phase. replace (2 * PI * INR 0 / 30)%R with 0%R by (cbn; field). apply sin_0.
  - intros f. apply Z0. unfold phase. replace (2 * PI * INR 15 / 30)%R with PI by (cbn; field). apply sin_PI.
  - intros j f g (L & U & S) (L' & U' & S') i p a b Ep Ea Eb.
    assert (E : sin (phase (j + 15)) = (- sin (phase j))%R).
    { unfold phase. rewrite plus_INR. replace (2 * PI * (INR j + INR 15) / 30)%R with (2 * PI * INR j / 30 + PI)%R by (cbn; field). apply neg_sin. }
    destruct (in_dec Z.eq_dec (Z.of_nat i) tr) as [I|I].
    + apply In_nth_error in I. destruct I as [c Hc]. rewrite (S c i p Hc Ep) in Ea. rewrite (S' c i p Hc Ep) in Eb.
      apply (f_equal (fun o => match o with Some v => v | None => v3z end)) in Ea, Eb. cbv beta iota in Ea, Eb. subst a b. rewrite E.
      destruct p as [x y z], (amp c) as [x' y' z']. unfold vadd, vscale. cbn [vx vy vz]. change (@fmul R Fld_R) with Rmult. change (@fadd R Fld_R) with Rplus. f_equal; ring.
    + rewrite (U i p Ep I) in Ea. rewrite (U' i p Ep I) in Eb. congruence.
Qed.

(** * C69: the displacement pattern and the supercell *)
Lemma cos_one x : cos x = 1%R <-> exists j : Z, x = (2 * PI * IZR j)%R.
Proof.
  split.
  - intro H. assert (S : sin (x / 2) = 0%R).
    { pose proof (cos_2a_sin (x / 2)) as C. replace (2 * (x / 2))%R with x in C by field. rewrite H in C. nra. }
    destruct (sin_eq_0_0 _ S) as [j Hj]. exists j. lra.
  - intros [j ->]. pose proof (cis_period 0%R j) as C. rewrite Rplus_0_l in C. apply (f_equal fst) in C. unfold cis in C. cbn [fst] in C. rewrite C. apply cos_0.
Qed.
Lemma cos_shift x y : (exists j : Z, y = (2 * PI * IZR j)%R) -> cos (x + y) = cos x.
Proof. intros [j ->]. pose proof (cis_period x j) as C. apply (f_equal fst) in C. exact C. Qed.
Lemma vdot_vadd_r (q r w : v3 R) : vdot q (vadd r w) = (vdot q r + vdot q w)%R.
Proof. destruct q as [q1 q2 q3], r as [a1 a2 a3], w as [w1 w2 w3]. unfold vdot, vadd. cbn [vx vy vz]. change (@fmul R Fld_R) with Rmult. change (@fadd R Fld_R) with Rplus. ring. Qed.
Lemma vdot_vscale_r (q w : v3 R) t : vdot q (vscale t w) = (t * vdot q w)%R.
Proof. destruct q as [q1 q2 q3], w as [w1 w2 w3]. unfold vdot, vscale. cbn [vx vy vz]. change (@fmul R Fld_R) with Rmult. change (@fadd R Fld_R) with Rplus. ring. Qed.

(** The fraction r/s, s >= 1. *)
Definition short (x : Qc) : Prop := exists r s, (1 <= s <= 100)%Z /\ (this x == r # Z.to_pos s)%Q.

Lemma Q2R_inject z : Q2R (inject_Z z) = IZR z.
Proof. unfold Q2R, inject_Z. cbn [Qnum Qden]. field. Qed.

Lemma entry_commensurate p x N : comm_entry p x = Ok (Z.of_nat N) -> p <> 0%Z ->
  ((exists j : Z, (Q2R (this x) * INR N)%R = IZR j) <-> short x).
Proof.
  intros H P. rewrite <- (commensurate_exactly_when_short p x (Z.of_nat N) H P). split; intros [j Hj]; exists j.
  - apply eqR_Qeq. rewrite Q2R_mult, !Q2R_inject. rewrite <- INR_IZR_INZ. exact Hj.
  - apply Qeq_eqR in Hj. rewrite Q2R_mult, !Q2R_inject in Hj. rewrite INR_IZR_INZ. exact Hj.
Qed.

(** C69: the supercell of [mode_displacement_content] carries the pattern periodically along
    each periodic direction if and only if the k component is a fraction with denominator at
    most 100: then the displacement factor of an atom and of its image agree. *)
Theorem pattern_periodic_iff : forall (L : m3 R) k p1 p2 p3 N1 N2 N3, det L <> 0%R ->
  comm_entry p1 (vx k) = Ok (Z.of_nat N1) -> comm_entry p2 (vy k) = Ok (Z.of_nat N2) -> comm_entry p3 (vz k) = Ok (Z.of_nat N3) ->
  let q := vmul (kR k) (reciprocal PI L) in
  let S := scaled (Z.of_nat N1) (Z.of_nat N2) (Z.of_nat N3) L in
  (p1 <> 0%Z -> ((forall r, cos (vdot q (vadd r (r1 S))) = cos (vdot q r)) <-> short (vx k))) /\
  (p2 <> 0%Z -> ((forall r, cos (vdot q (vadd r (r2 S))) = cos (vdot q r)) <-> short (vy k))) /\
  (p3 <> 0%Z -> ((forall r, cos (vdot q (vadd r (r3 S))) = cos (vdot q r)) <-> short (vz k))).
Proof.
  intros L k p1 p2 p3 N1 N2 N3 HL C1 C2 C3 q S. destruct (recip_phase L (kR k) HL) as (B1 & B2 & B3). fold q in B1, B2, B3.
  assert (G : forall w x N, vdot q w = (2 * PI * (Q2R (this x) * INR N))%R ->
    ((forall r, cos (vdot q (vadd r w)) = cos (vdot q r)) <-> exists j : Z, (Q2R (this x) * INR N)%R = IZR j)).
  { intros w x N Hw. split.
    - intro H. specialize (H v3z). rewrite vdot_vadd_r in H.
      replace (vdot q v3z) with 0%R in H by (generalize q; intros [q1 q2 q3]; unfold vdot, v3z; cbn [vx vy vz]; change (@fmul R Fld_R) with Rmult; change (@fadd R Fld_R) with Rplus; change (@f0 R Fld_R) with 0%R; ring).
      rewrite Rplus_0_l, cos_0 in H. apply cos_one in H. destruct H as [j Hj]. exists j. rewrite Hw in Hj.
      pose proof PI_RGT_0. apply Rmult_eq_reg_l with (2 * PI)%R; [exact Hj|lra].
    - intros [j Hj] r. rewrite vdot_vadd_r. apply cos_shift. exists j. rewrite Hw, Hj. reflexivity. }
  assert (W : forall N v x, vdot q v = (2 * PI * x)%R -> vdot q (vscale (fofZ (Z.of_nat N)) v) = (2 * PI * (x * INR N))%R).
  { intros N v x Hv. rewrite vdot_vscale_r, Hv. change (@fofZ R Fld_R (Z.of_nat N)) with (IZR (Z.of_nat N)). rewrite <- INR_IZR_INZ. ring. }
  split; [|split]; intro P.
  - rewrite (G (r1 S) (vx k) N1 (W N1 (r1 L) _ B1)). apply (entry_commensurate p1); assumption.
  - rewrite (G (r2 S) (vy k) N2 (W N2 (r2 L) _ B2)). apply (entry_commensurate p2); assumption.
  - rewrite (G (r3 S) (vz k) N3 (W N3 (r3 L) _ B3)). apply (entry_commensurate p3); assumption.
Qed.

(** C70: the factor written, cos(q.r) Re z, is the real displacement Re(e^(i q.r) z) of the
    Bloch wave with eigenvector entry z exactly when sin(q.r) Im z = 0. *)
Theorem written_displacement_is_bloch_iff : forall theta (z : Complex.C),
  (cos theta * fst z)%R = fst (Cmult (cis theta) z) <-> (sin theta * snd z)%R = 0%R.
Proof.
  intros t [a b]. unfold Cmult, cis. cbn [fst snd]. split; intro; lra.
Qed.

(** C70: an eigenvector is determined up to a phase; multiplying a real one by the imaginary
    unit (again an eigenvector of the same length) makes the written displacement vanish. *)
Theorem eigenvector_phase_matters : forall (V : cmat) i, (forall c, snd (V i c) = 0%R) ->
  (forall c, Cmod (Cmult Ci (V i c)) = Cmod (V i c)) /\
  forall a f r t, vadd r (vscale t (real_rows (fun x y => Cmult Ci (V x y)) i a f)) = r.
Proof.
  intros V i H. split.
  - intro c. rewrite Cmod_mult. replace (Cmod Ci) with 1%R; [ring|]. unfold Cmod, Ci. cbn [fst snd]. replace (0 ^ 2 + 1 ^ 2)%R with 1%R by ring. symmetry. apply sqrt_1.
  - intros a f [x y z] t. unfold vadd, vscale, real_rows, Cmult, Ci. cbn [vx vy vz fst snd]. rewrite !H.
    change (@fmul R Fld_R) with Rmult. change (@fadd R Fld_R) with Rplus. unfold Rdiv. f_equal; ring.
Qed.

(** * Non-vacuity *)
Lemma Forall2_len {A B} {P : A -> B -> Prop} {l l'} : Forall2 P l l' -> length l' = length l.
Proof. induction 1; cbn; congruence. Qed.
Definition ex_k : v3 Qc := V3 (Q2Qc (1 # 2)) (Q2Qc (1 # 3)) (Q2Qc 0).
Definition ex_proc : proc := mkProc [kR (V3 (Q2Qc 0) (Q2Qc 0) (Q2Qc 0)); kR ex_k] [([], fun _ _ => RtoC 1); ([1%R; 2%R; 3%R], fun _ _ => RtoC 2)] 3 [] [1; 1; 0]%Z.
Example mode_selection_witness : exists o, mode_set ex_proc mode_init (VSeq [VInt 0; VInt 2]) ex_k = (o, None) /\ m_inds o = [0; 2]%Z.
Proof.
  pose proof (mode_selection ex_proc mode_init (VSeq [VInt 0; VInt 2]) [0; 2]%Z ex_k eq_refl eq_refl) as H.
  destruct (mode_set ex_proc mode_init (VSeq [VInt 0; VInt 2]) ex_k) as [o [e|]]; destruct H as (A & B & C); [|exists o; split; [reflexivity|exact A]].
  exfalso. destruct C as (_ & _ & C). apply (C (kR ex_k) (or_intror (or_introl eq_refl))).
  apply allcloseR_iff. unfold allcloseR, iscloseR. rewrite !Rminus_diag_eq, !Rabs_R0 by reflexivity.
  assert (P : forall x, (0 <= / 10 ^ 8 + / 10 ^ 5 * Rabs x)%R).
  { intro x. pose proof (Rabs_pos x). assert (0 < / 10 ^ 8)%R by (apply Rinv_0_lt_compat; lra). assert (0 < / 10 ^ 5)%R by (apply Rinv_0_lt_compat; lra). nra. }
  repeat (destruct (Rle_dec _ _) as [_|N]; [|exfalso; apply N, P]). reflexivity.
Qed.

Definition ex_cellR : cell R :=
  mkCell (Some (M3 (V3 2 0 0) (V3 0 2 0) (V3 0 0 9))%R) (Some ["Cu"; "O"]%string) (Some [1; 1]%Z) true (Some Cartesian)
    (Some [V3 0 0 0; V3 1 1 3]%R) (Some [1]%Z) (Some [1; 1; 1]%Z) (Some [16; 16; 16]%R).
Definition ex_obj : mode_obj := mkMode [0; 2]%Z (Some ex_k) (Some (fun _ _ => RtoC 2)).
Example trajectory_witness : forall row kname, exists files, mode_write row kname 3 ex_cellR ex_obj = (files, None) /\ length files = 2.
Proof.
  intros row kname.
  destruct (trajectory_content row kname 3 ex_cellR ex_obj [V3 0 0 0; V3 1 1 3]%R [1]%Z [16; 16; 16]%R 16%R
    ["unknown system"; "1.00000000000000"; " " ++ row (V3 2 0 0)%R; " " ++ row (V3 0 2 0)%R; " " ++ row (V3 0 0 9)%R; "Cu    O"; "1    1"; "Cartesian"; " " ++ row (V3 0 0 0)%R; " " ++ row (V3 1 1 3)%R]%string
    (fun _ _ => RtoC 2) ex_k) as (files & E & F); try reflexivity.
  - constructor; [cbn; lia|constructor].
  - constructor; [intros []|constructor].
  - discriminate.
  - split; [left; reflexivity|]. intros m [<-|[<-|[<-|[]]]]; lra.
  - constructor; [lia|constructor; [lia|constructor]].
  - exists files. split; [exact E|]. rewrite (Forall2_len F). reflexivity.
Qed.
Example mode_displacement_witness : forall kname B, exists files,
  write_mode_displace kname 3 ex_cellR (mkArgs None None (Some [1; 1; 0]%Z)) B ex_obj 1%R "vasp" = (files, None) /\ length files = 2.
Proof.
  intros kname B.
  assert (W : exists w e, get_atomic_weight "O" = Ok (Some (w, e))) by (eexists; eexists; vm_compute; reflexivity).
  destruct W as (w & e & W). set (m := (IZR w / IZR (10 ^ e) / (IZR 6022 * IZR (10 ^ 20)) / 1000)%R).
  destruct (mode_displacement_content kname 3 ex_cellR (mkArgs None None (Some [1; 1; 0]%Z)) B ex_obj 1%R "vasp"
    (M3 (V3 2 0 0) (V3 0 2 0) (V3 0 0 9))%R ["Cu"; "O"]%string [1; 1]%Z Cartesian [V3 0 0 0; V3 1 1 3]%R [1]%Z [m] m (fun _ _ => RtoC 2) ex_k 1 1 0)
    as (N1 & N2 & N3 & files & _ & _ & _ & E & F).
  - repeat split.
  - reflexivity.
  - reflexivity.
  - constructor; [cbn; lia|constructor].
  - constructor; [intros []|constructor].
  - discriminate.
  - reflexivity.
  - intros t [<-|[<-|[]]]; [exists 29, ("Cu", "Copper", "29")%string, "Cu"%string | exists 8, ("O", "Oxygen", "8")%string, "O"%string];
      (split; [lia|]); (split; [reflexivity|]); (split; [cbn; tauto|]); apply same_lower; reflexivity.
  - reflexivity.
  - intros [|a] z Ha; [|destruct a; discriminate]. injection Ha as <-. exists "O"%string. split; [reflexivity|]. exists w, e. split; [exact W|reflexivity].
  - split; [left; reflexivity|]. intros x [<-|[]]. apply Rle_refl.
  - reflexivity.
  - reflexivity.
  - constructor; [cbn; lia|constructor; [cbn; lia|constructor]].
  - left. reflexivity.
  - exists files. split; [exact E|]. rewrite (Forall2_len F). reflexivity.
Qed.
Print Assumptions mode_selection.
Print Assumptions mode_selection_bad_indices.
Print Assumptions mode_selection_forgets.
Print Assumptions trajectory_content.
Print Assumptions trajectory_bad_index.
Print Assumptions trajectory_symmetric.
Print Assumptions mode_displacement_content.
Print Assumptions pattern_periodic_iff.
Print Assumptions written_displacement_is_bloch_iff.
Print Assumptions eigenvector_phase_matters.
