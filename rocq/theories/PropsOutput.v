(** Property theorems: the tables written by the analyses (C80-C83).
    Models: Output.v (writers), Band.v, Dos.v, Thermal.v. *)
From Coq Require Import Reals Qreals Lra.
From Coquelicot Require Import Complex.
From Coq Require Import String Ascii ZArith QArith Qcanon Bool Lia Arith List.
From Verif Require Import Base Dec Field ArgsFacts Text TextFacts Phonon Band Thermal Dos DosFacts Output OutputFacts PropsThermal PropsBand.
Import ListNotations.
Local Open Scope string_scope.
Local Open Scope list_scope.
Local Open Scope nat_scope.

(** * Specification vocabulary *)
(** How a user (or numpy.loadtxt with skiprows=2) takes a table apart: two header lines, then
    words separated by blanks. *)
Definition data_words (lines : list string) : list (list string) := map split_ws (skipn 2 (readlines (to_text lines))).
(** The decimal number [q] is [x] rounded to nine decimals. *)
Definition rounded9 (q : Qc) (x : R) : Prop :=
  (exists z : Z, Q2R (this q) = (IZR z / 10 ^ 9)%R) /\ (Rabs (Q2R (this q) - x) <= 5 / 10 ^ 10)%R.
(** The word [w] is a number that is [x] rounded, or the mark of a number that is not finite. *)
Definition shows (bad : string) (w : string) (x : option R) : Prop :=
  match x with
  | Some v => exists q, parse_float w = Some q /\ rounded9 q v
  | None => w = bad
  end.
(** Every line has exactly the given columns. *)
Definition is_table (bad : string) (lines : list string) (rows : list (list (option R))) : Prop :=
  Forall2 (Forall2 (shows bad)) (data_words lines) rows.

(** * Proof support *)
Lemma ten9 : IZR (tenk 9) = (10 ^ 9)%R.
Proof. change (tenk 9) with 1000000000%Z. lra. Qed.
Lemma fixed_shows x bad : shows bad (fixed 9 x) (Some x).
Proof.
  destruct (fixed_parse 9 x) as (q & E & V). exists q. split; [exact E|]. rewrite ten9 in V. split; [eauto|].
  pose proof (units_near 9 x) as N. rewrite ten9 in N. rewrite V.
  replace (IZR (units 9 x) / 10 ^ 9 - x)%R with ((IZR (units 9 x) - x * 10 ^ 9) * / 10 ^ 9)%R by (field; lra).
  rewrite Rabs_mult, (Rabs_right (/ 10 ^ 9)) by (apply Rle_ge; left; apply Rinv_0_lt_compat; lra).
  apply Rle_trans with (1 / 2 * / 10 ^ 9)%R; [|lra].
  apply Rmult_le_compat_r; [left; apply Rinv_0_lt_compat; lra|exact N].
Qed.
Lemma value_shows bad x : shows bad (value_text bad 9 x) x.
Proof. destruct x; [apply fixed_shows|reflexivity]. Qed.
Lemma Forall2_values bad xs : Forall2 (shows bad) (map (value_text bad 9) xs) xs.
Proof. induction xs; constructor; [apply value_shows|assumption]. Qed.
Lemma table_from (bad : string) w a b rows : word bad -> no_nl a = true -> no_nl b = true ->
  is_table bad (a :: b :: map (table_line bad w) rows) rows.
Proof.
  intros Hb Ha Hb'. unfold is_table, data_words. rewrite readlines_text.
  - cbn [map skipn]. rewrite !map_map.
    induction rows as [|r rows IH]; cbn [map]; constructor; [|exact IH].
    rewrite split_ws_addnl, table_line_split by exact Hb. apply Forall2_values.
  - constructor; [exact Ha|]. constructor; [exact Hb'|]. apply Forall_forall. intros l Hl. apply in_map_iff in Hl as (r & <- & _).
    now apply table_line_no_nl.
Qed.
(** words that are numbers do not depend on the mark *)
Lemma table_line_finite bad bad' w (xs : list R) : table_line bad w (map Some xs) = table_line bad' w (map Some xs).
Proof. unfold table_line. f_equal. rewrite !map_map. reflexivity. Qed.
Lemma shows_finite bad bad' w x : shows bad w (Some x) -> shows bad' w (Some x).
Proof. exact (fun H => H). Qed.

(** * C80: band.dat *)
Theorem band_file : forall bad folder p b, word bad ->
  fst (band_write bad folder p b) = (folder ++ "/band.dat")%string /\
  exists rows, is_table bad (snd (band_write bad folder p b)) rows /\
    length rows = Nat.min (length (b_len b)) (length (p_modes p)) /\
    forall i x freqs V, nth_error (b_len b) i = Some x -> nth_error (p_modes p) i = Some (freqs, V) ->
      nth_error rows i = Some (map Some (x :: freqs)).
Proof.
  intros bad folder p b Hb. split; [reflexivity|].
  exists (map (fun xy => Some (fst xy) :: map Some (snd xy)) (combine (b_len b) (map fst (p_modes p)))).
  split; [|split].
  - unfold band_write. cbn [snd app].
    rewrite <- (map_map (fun xy => Some (fst xy) :: map Some (snd xy)) (table_line bad 16)).
    apply table_from; [exact Hb|reflexivity|reflexivity].
  - now rewrite map_length, combine_length, map_length.
  - intros i x fr V H1 H2. rewrite nth_error_map.
    assert (E : nth_error (combine (b_len b) (map fst (p_modes p))) i = Some (x, fr)).
    { revert H1 H2. generalize (b_len b) (p_modes p). clear. intros l m. revert m i.
      induction l as [|y l IH]; intros [|[fr' V'] m] [|i] H1 H2; try discriminate; cbn in *.
      - now injection H1 as ->; injection H2 as -> ->.
      - now apply IH. }
    now rewrite E.
Qed.
Print Assumptions band_file.

(** Rounding keeps the order: of two finite values in one band.dat the smaller one is not
    printed as the larger number. *)
Definition entry {A} (t : list (list A)) (i k : nat) : option A := match nth_error t i with Some r => nth_error r k | None => None end.
(** A number exactly between two printable ones is printed as the one with the even last digit,
    as C's printf does: n units of 10^-k and a half become the even one of n and n + 1. *)
Lemma rintR_tie n : rintR (IZR n + 1 / 2) = (2 * ((n + 1) / 2))%Z.
Proof.
  assert (IP : Int_part (IZR n + 1 / 2) = n).
  { destruct (base_Int_part (IZR n + 1 / 2)) as (A & B). set (j := Int_part (IZR n + 1 / 2)) in *.
    assert (X : (IZR j < IZR (n + 1))%R) by (rewrite plus_IZR; lra). assert (Y : (IZR (n - 1) < IZR j)%R) by (rewrite minus_IZR; lra).
    apply lt_IZR in X. apply lt_IZR in Y. lia. }
  unfold rintR, frac_part. rewrite IP. replace (IZR n + 1 / 2 - IZR n)%R with (1 / 2)%R by ring.
  destruct (Rlt_dec (1 / 2) (1 / 2)); [lra|]. destruct (Z.even n) eqn:E.
  - apply Z.even_spec in E. destruct E as (m & ->). assert (D : ((2 * m + 1) / 2 = m)%Z) by (symmetry; apply (Z.div_unique _ _ _ 1); lia). rewrite D. reflexivity.
  - assert (O : Z.odd n = true) by (rewrite <- Z.negb_even, E; reflexivity). apply Z.odd_spec in O. destruct O as (m & ->).
    assert (D : ((2 * m + 1 + 1) / 2 = m + 1)%Z) by (symmetry; apply (Z.div_unique _ _ _ 0); lia). rewrite D. lia.
Qed.
Theorem printed_ties_to_even : forall k x n, (Rabs x * IZR (10 ^ Z.of_nat k) = IZR n + 1 / 2)%R ->
  exists q, parse_float (fixed k x) = Some q /\ Q2R (this q) = ((if Rlt_dec x 0 then -1 else 1) * IZR (2 * ((n + 1) / 2)) / IZR (10 ^ Z.of_nat k))%R.
Proof.
  intros k x n H. destruct (fixed_parse k x) as (q & P1 & P2). exists q. split; [exact P1|]. rewrite P2. unfold units, tenk. rewrite H, rintR_tie.
  destruct (Rlt_dec x 0); [rewrite opp_IZR|]; unfold Rdiv; ring.
Qed.
(** 0.0000000025 is printed as 0.000000002 *)
Example tie_example : exists q, parse_float (fixed 9 (25 / 10 ^ 10)) = Some q /\ Q2R (this q) = (2 / 10 ^ 9)%R.
Proof.
  destruct (printed_ties_to_even 9 (25 / 10 ^ 10) 2) as (q & P1 & P2).
  - assert (0 < 25 / 10 ^ 10)%R by (apply Rdiv_lt_0_compat; [lra|apply pow_lt; lra]). rewrite Rabs_right by lra.
    replace (IZR (10 ^ Z.of_nat 9)) with (10 ^ 9)%R by (rewrite pow_IZR; reflexivity). field.
  - exists q. split; [exact P1|]. rewrite P2. assert (0 < 25 / 10 ^ 10)%R by (apply Rdiv_lt_0_compat; [lra|apply pow_lt; lra]).
    destruct (Rlt_dec (25 / 10 ^ 10) 0); [lra|]. replace (IZR (10 ^ Z.of_nat 9)) with (10 ^ 9)%R by (rewrite pow_IZR; reflexivity). change (2 * ((2 + 1) / 2))%Z with 2%Z. field.
Qed.
Lemma fixed_order x y qx qy : (x <= y)%R -> parse_float (fixed 9 x) = Some qx -> parse_float (fixed 9 y) = Some qy -> (qx <= qy)%Qc.
Proof.
  intros H E1 E2. destruct (fixed_parse 9 x) as (a & A1 & A2), (fixed_parse 9 y) as (c & B1 & B2).
  rewrite A1 in E1. rewrite B1 in E2. injection E1 as <-. injection E2 as <-.
  apply Rle_Qle. rewrite A2, B2. apply Rmult_le_compat_r.
  - left. apply Rinv_0_lt_compat, IZR_lt, tenk_pos.
  - apply IZR_le. now apply units_mono.
Qed.
Lemma data_words_eq bad w a b rows : word bad -> no_nl a = true -> no_nl b = true ->
  data_words (a :: b :: map (table_line bad w) rows) = map (map (value_text bad 9)) rows.
Proof.
  intros Hb Ha Hb'. unfold data_words. rewrite readlines_text.
  - cbn [map skipn]. rewrite !map_map. apply map_ext. intros r. rewrite split_ws_addnl. now apply table_line_split.
  - constructor; [exact Ha|]. constructor; [exact Hb'|]. apply Forall_forall. intros l Hl. apply in_map_iff in Hl as (r & <- & _).
    now apply table_line_no_nl.
Qed.
Lemma entry_map {A B} (f : A -> B) t i k : entry (map (map f) t) i k = option_map f (entry t i k).
Proof. unfold entry. rewrite nth_error_map. destruct (nth_error t i); [|reflexivity]. apply nth_error_map. Qed.

Theorem band_file_keeps_order : forall bad folder p b i1 k1 i2 k2 w1 w2 q1 q2, word bad ->
  let t := data_words (snd (band_write bad folder p b)) in
  entry t i1 k1 = Some w1 -> entry t i2 k2 = Some w2 -> parse_float w1 = Some q1 -> parse_float w2 = Some q2 ->
  let value i k := match k with 0 => nth i (b_len b) 0%R | S j => nth j (fst (nth i (p_modes p) ([], fun _ _ => RtoC 0))) 0%R end in
  (value i1 k1 <= value i2 k2)%R -> (q1 <= q2)%Qc.
Proof.
  intros bad folder p b i1 k1 i2 k2 w1 w2 q1 q2 Hb t H1 H2 P1 P2 value L.
  assert (V : forall i k w, entry t i k = Some w -> w = fixed 9 (value i k)).
  { intros i k w H. subst t. unfold band_write in H. cbn [snd app] in H.
    rewrite <- (map_map (fun xy => Some (fst xy) :: map Some (snd xy)) (table_line bad 16)) in H.
    rewrite data_words_eq in H by first [exact Hb|reflexivity].
    rewrite entry_map in H. unfold entry in H. rewrite nth_error_map in H.
    destruct (nth_error (combine (b_len b) (map fst (p_modes p))) i) as [[x fr]|] eqn:E; [|discriminate H].
    cbn [option_map fst snd] in H.
    assert (X : nth i (b_len b) 0%R = x /\ fst (nth i (p_modes p) ([], fun _ _ => RtoC 0)) = fr).
    { revert E. generalize (b_len b) (p_modes p). clear. intros l m. revert m i.
      induction l as [|y l IH]; intros [|m0 m] [|i] E; try discriminate; cbn in *.
      - now injection E as -> <-.
      - now apply IH. }
    destruct X as (X1 & X2). unfold value. destruct k as [|k]; cbn [nth_error option_map] in H.
    - injection H as <-. cbn. now rewrite X1.
    - rewrite nth_error_map in H. rewrite X2. destruct (nth_error fr k) as [z|] eqn:Ez; [|discriminate H].
      injection H as <-. cbn. now rewrite (nth_error_nth fr k 0%R Ez). }
  rewrite (V _ _ _ H1) in P1. rewrite (V _ _ _ H2) in P2. exact (fixed_order _ _ _ _ L P1 P2).
Qed.
Print Assumptions band_file_keeps_order.

(** The file of a finished run: one line per k-point, each with the abscissa and one column per mode. *)
Theorem band_file_of_a_run : forall bad folder p b, word bad ->
  band_set p (band_init p) = Ok b -> length (p_modes p) = length (p_k p) ->
  Forall (fun m => length (fst m) = p_n p) (p_modes p) ->
  exists rows, is_table bad (snd (band_write bad folder p b)) rows /\
    length rows = length (p_k p) /\ Forall (fun r => length r = S (p_n p)) rows /\
    (exists r, nth_error rows 0 = Some (Some 0%R :: r)).
Proof.
  intros bad folder p b Hb HS HL HM.
  destruct (band_file bad folder p b Hb) as (_ & rows & HT & HN & HR).
  assert (K : length (b_len b) = length (p_k p) /\ exists r, b_len b = 0%R :: r).
  { assert (H2 : 2 <= length (p_k p)) by (unfold band_set in HS; destruct (p_k p) as [|? [|? ?]]; [discriminate HS|discriminate HS|cbn; lia]).
    destruct (band_abscissa p H2) as (b' & E & A1 & A2 & _). rewrite HS in E. injection E as <-. split; [exact A1|].
    destruct (b_len b) as [|z r]; [cbn in A1; lia|]. cbn [nth] in A2. subst z. eauto. }
  destruct K as (K1 & rr & K2).
  assert (HN' : length rows = length (p_k p)) by (rewrite HN, K1, HL; apply Nat.min_id).
  exists rows. split; [exact HT|]. split; [exact HN'|].
  assert (HR' : forall i, i < length rows -> exists x m, nth_error (b_len b) i = Some x /\ nth_error (p_modes p) i = Some m /\
                 nth_error rows i = Some (map Some (x :: fst m))).
  { intros i Hi. destruct (nth_error (b_len b) i) as [x|] eqn:E1; [|apply nth_error_None in E1; lia].
    destruct (nth_error (p_modes p) i) as [[fr V]|] eqn:E2; [|apply nth_error_None in E2; lia].
    exists x, (fr, V). repeat split. now apply (HR i x fr V). }
  split.
  - apply Forall_forall. intros r Hr. apply In_nth_error in Hr as (i & Hi).
    assert (L : i < length rows) by (apply nth_error_Some; congruence).
    destruct (HR' i L) as (x & m & _ & E2 & E3). rewrite E3 in Hi. injection Hi as <-.
    cbn [map length]. rewrite map_length. f_equal. rewrite Forall_forall in HM. apply HM. now apply nth_error_In in E2.
  - assert (L : 0 < length rows).
    { rewrite HN'. unfold band_set in HS. destruct (p_k p); [discriminate HS|cbn; lia]. }
    destruct (HR' 0 L) as (x & m & E1 & _ & E3). rewrite K2 in E1. injection E1 as <-. cbn [map] in E3. eauto.
Qed.
Print Assumptions band_file_of_a_run.

(** * C81: total_dos.dat and projected_dos.dat *)
(** The header of the first file: the method used. *)
Theorem dos_file_comment : forall what sigma,
  (sigma = 0%R -> dos_comment what sigma = (what ++ " phonon DOS by Linear Tetrahedron Method")%string) /\
  (sigma <> 0%R -> exists w q, dos_comment what sigma = (what ++ " phonon DOS by Gaussian Smearing with Sigma = " ++ w)%string /\
     parse_float w = Some q /\ (Rabs (Q2R (this q) - sigma) <= 5 / 10 ^ 7)%R).
Proof.
  intros what sigma. unfold dos_comment. split; intros H; destruct (Req_EM_T sigma 0) as [E|E]; try congruence.
  destruct (fixed_parse 6 sigma) as (q & P & V). exists (fixed 6 sigma), q. split; [reflexivity|]. split; [exact P|].
  assert (T : IZR (tenk 6) = (10 ^ 6)%R) by (change (tenk 6) with 1000000%Z; lra).
  rewrite V. pose proof (units_near 6 sigma) as N. rewrite T in *.
  replace (IZR (units 6 sigma) / 10 ^ 6 - sigma)%R with ((IZR (units 6 sigma) - sigma * 10 ^ 6) * / 10 ^ 6)%R by (field; lra).
  rewrite Rabs_mult, (Rabs_right (/ 10 ^ 6)) by (apply Rle_ge; left; apply Rinv_0_lt_compat; lra).
  apply Rle_trans with (1 / 2 * / 10 ^ 6)%R; [|lra].
  apply Rmult_le_compat_r; [left; apply Rinv_0_lt_compat; lra|exact N].
Qed.
Print Assumptions dos_file_comment.
Lemma comment_no_nl what sigma : no_nl what = true -> no_nl (dos_comment what sigma) = true.
Proof.
  intros H. unfold dos_comment. destruct (Req_EM_T sigma 0); rewrite ?no_nl_app, H; [reflexivity|].
  rewrite (no_ws_no_nl (fixed 6 sigma)) by apply fixed_word. reflexivity.
Qed.

Theorem total_dos_file : forall bad folder d, word bad ->
  fst (total_write bad folder d) = (folder ++ "/total_dos.dat")%string /\
  exists rows, is_table bad (snd (total_write bad folder d)) rows /\
    length rows = Nat.min (length (d_freq d)) (length (d_tdos d)) /\
    forall i f y, nth_error (d_freq d) i = Some f -> nth_error (d_tdos d) i = Some y -> nth_error rows i = Some [Some f; y].
Proof.
  intros bad folder d Hb. split; [reflexivity|].
  exists (map (fun xy => [Some (fst xy); snd xy]) (total_rows d)). split; [|split].
  - unfold total_write. cbn [snd app].
    rewrite <- (map_map (fun xy => [Some (fst xy); snd xy]) (table_line bad 16)).
    apply table_from; [exact Hb|now apply comment_no_nl|reflexivity].
  - unfold total_rows. now rewrite map_length, combine_length.
  - intros i f y H1 H2. rewrite nth_error_map. unfold total_rows.
    assert (E : nth_error (combine (d_freq d) (d_tdos d)) i = Some (f, y)).
    { revert H1 H2. generalize (d_freq d) (d_tdos d). clear. intros l m. revert m i.
      induction l as [|z l IH]; intros [|z' m] [|i] H1 H2; try discriminate; cbn in *.
      - now injection H1 as ->; injection H2 as ->.
      - now apply IH. }
    now rewrite E.
Qed.
Print Assumptions total_dos_file.

Lemma projected_lines_eq bad n freq : forall cols, 0 < n ->
  projected_lines bad n freq cols =
    (map (table_line bad 16) (map (fun fc => Some (fst fc) :: map (snd fc) (seq 0 n)) (combine freq cols)),
     if length freq <=? length cols then None else Some EIndex).
Proof.
  destruct n as [|n]; [lia|]. induction freq as [|f fr IH]; intros cols H; [reflexivity|]. cbn [projected_lines].
  destruct cols as [|c cr]; [reflexivity|]. cbn [tl]. rewrite IH by exact H. reflexivity.
Qed.
Lemma pad3_word z : word (pad3 z).
Proof.
  assert (W : word (z_string z)).
  { unfold z_string. destruct (Z.ltb_spec z 0) as [L|L].
    - destruct (nat_digits_spec (- z) ltac:(lia)) as (I1 & _ & I3). split; [discriminate|].
      unfold no_ws. cbn [all_char]. rewrite all_char_digits in I1. eapply all_char_impl; [|exact I1].
      intros c Hc. now rewrite digit_not_ws.
    - destruct (nat_digits_spec z L) as (I1 & _ & I3). split; [exact I3|].
      rewrite all_char_digits in I1. eapply all_char_impl; [|exact I1]. intros c Hc. now rewrite digit_not_ws. }
  destruct W as (W1 & W2). unfold pad3. split.
  - destruct (zeros _); [exact W1|discriminate].
  - unfold no_ws. rewrite all_char_app. apply andb_true_iff. split; [|exact W2].
    pose proof (zeros_digits (3 - String.length (z_string z))) as Z0. rewrite all_char_digits in Z0.
    eapply all_char_impl; [|exact Z0]. intros c Hc. now rewrite digit_not_ws.
Qed.
Definition atom_label (z : Z) : string := ("pdos-atom-" ++ pad3 z)%string.
Lemma label_word z : word (atom_label z).
Proof.
  destruct (pad3_word z) as (_ & H). split; [discriminate|]. unfold atom_label, no_ws. rewrite all_char_app. exact H.
Qed.
Lemma header_split xyz : split_ws ("    Frequency (THz)" ++ String.concat "" (map pdos_label xyz)) =
  "Frequency" :: "(THz)" :: map atom_label xyz.
Proof.
  assert (G : forall xyz, split_ws (String.concat "" (map pdos_label xyz)) = map atom_label xyz).
  { clear. induction xyz as [|z xyz IH]; [reflexivity|]. cbn [map]. rewrite concat_nil_cons. unfold pdos_label at 1.
    replace ("   pdos-atom-" ++ pad3 z ++ "  ")%string with ("   " ++ (atom_label z ++ "  "))%string
      by (unfold atom_label; now rewrite <- string_app_assoc).
    rewrite <- !string_app_assoc. rewrite split_ws_ws_app by reflexivity.
    change ("  " ++ String.concat "" (map pdos_label xyz))%string with (String " " (String " " (String.concat "" (map pdos_label xyz)))).
    rewrite split_ws_word_app; [|apply label_word|reflexivity]. f_equal. exact IH. }
  destruct xyz as [|z xyz]; [reflexivity|]. cbn [map]. rewrite concat_nil_cons.
  unfold pdos_label at 1.
  replace ("    Frequency (THz)" ++ ("   pdos-atom-" ++ pad3 z ++ "  ") ++ String.concat "" (map pdos_label xyz))%string
    with ("    " ++ ("Frequency" ++ String " " ("(THz)" ++ String " " ("  " ++ (atom_label z ++ String " " (String " " (String.concat "" (map pdos_label xyz))))))))%string.
  - rewrite split_ws_ws_app by reflexivity. rewrite split_ws_word_app by (split; [discriminate|reflexivity] || reflexivity).
    f_equal. rewrite split_ws_word_app by (split; [discriminate|reflexivity] || reflexivity). f_equal.
    rewrite split_ws_ws_app by reflexivity. rewrite split_ws_word_app; [|apply label_word|reflexivity]. f_equal.
    change (split_ws (String " " (String.concat "" (map pdos_label xyz)))) with (split_ws (String.concat "" (map pdos_label xyz))). apply G.
  - unfold atom_label. rewrite <- !string_app_assoc. reflexivity.
Qed.
Lemma labels_no_nl xyz : no_nl (String.concat "" (map pdos_label xyz)) = true.
Proof.
  induction xyz as [|z xyz IH]; [reflexivity|]. cbn [map]. rewrite concat_nil_cons, no_nl_app, IH.
  unfold pdos_label. rewrite !no_nl_app, (no_ws_no_nl (pad3 z)) by apply pad3_word. reflexivity.
Qed.
(** Two columns carry the same label exactly when they belong to the same atom. *)
Lemma pad3_value z : (0 <= z)%Z -> digits_val 0 (pad3 z) = z.
Proof.
  intros H. unfold pad3. rewrite digits_val_app, zeros_val. unfold z_string. destruct (Z.ltb_spec z 0); [lia|]. now apply nat_digits_spec.
Qed.
Theorem column_labels_name_atoms : forall a b, (0 <= a)%Z -> (0 <= b)%Z -> (atom_label a = atom_label b <-> a = b).
Proof.
  intros a b Ha Hb. split; [|congruence]. intros H. unfold atom_label in H.
  assert (K : pad3 a = pad3 b) by (revert H; generalize (pad3 a) (pad3 b); intros x y H; cbn in H; now injection H).
  rewrite <- (pad3_value a Ha), <- (pad3_value b Hb). now rewrite K.
Qed.
Print Assumptions column_labels_name_atoms.

(** projected_dos.dat when there is a column of numbers for every frequency. *)
Theorem projected_dos_file : forall bad folder xyz d, word bad -> xyz <> [] -> length (d_freq d) <= length (d_pdos d) ->
  exists lines,
    dos_write bad folder xyz d = ([total_write bad folder d; ((folder ++ "/projected_dos.dat")%string, lines)], None) /\
    nth_error lines 0 = Some (dos_comment "Projected" (d_sigma d)) /\
    option_map split_ws (nth_error lines 1) = Some ("Frequency" :: "(THz)" :: map atom_label xyz)%string /\
    exists rows, is_table bad lines rows /\ length rows = length (d_freq d) /\
      forall i f col, nth_error (d_freq d) i = Some f -> nth_error (d_pdos d) i = Some col ->
        nth_error rows i = Some (Some f :: map col (seq 0 (length xyz))).
Proof.
  intros bad folder xyz d Hb Hx HL. assert (Hn : 0 < length xyz) by (destruct xyz; [congruence|cbn; lia]).
  unfold dos_write, projected_write. rewrite projected_lines_eq by exact Hn.
  destruct (Nat.leb_spec (length (d_freq d)) (length (d_pdos d))) as [_|X]; [|lia].
  eexists. split; [reflexivity|]. split; [reflexivity|]. split; [cbn [nth_error app option_map]; now rewrite header_split|].
  eexists. split; [|split].
  - cbn [app]. apply table_from; [exact Hb|now apply comment_no_nl|]. now rewrite no_nl_app, labels_no_nl.
  - rewrite map_length, combine_length. lia.
  - intros i f col H1 H2. rewrite nth_error_map.
    assert (E : nth_error (combine (d_freq d) (d_pdos d)) i = Some (f, col)).
    { revert H1 H2. generalize (d_freq d) (d_pdos d). clear. intros l m. revert m i.
      induction l as [|z l IH]; intros [|z' m] [|i] H1 H2; try discriminate; cbn in *.
      - now injection H1 as ->; injection H2 as ->.
      - now apply IH. }
    unfold column in *. now rewrite E.
Qed.
Print Assumptions projected_dos_file.

(** With fewer columns than frequencies the write stops with an IndexError: total_dos.dat is
    complete, projected_dos.dat ends after the last frequency that has a column. *)
Theorem projected_dos_file_cut : forall bad folder xyz d, word bad -> xyz <> [] -> length (d_pdos d) < length (d_freq d) ->
  exists lines,
    dos_write bad folder xyz d = ([total_write bad folder d; ((folder ++ "/projected_dos.dat")%string, lines)], Some EIndex) /\
    exists rows, is_table bad lines rows /\ length rows = length (d_pdos d) /\
      forall i f col, nth_error (d_freq d) i = Some f -> nth_error (d_pdos d) i = Some col ->
        nth_error rows i = Some (Some f :: map col (seq 0 (length xyz))).
Proof.
  intros bad folder xyz d Hb Hx HL. assert (Hn : 0 < length xyz) by (destruct xyz; [congruence|cbn; lia]).
  unfold dos_write, projected_write. rewrite projected_lines_eq by exact Hn.
  destruct (Nat.leb_spec (length (d_freq d)) (length (d_pdos d))) as [X|_]; [lia|].
  eexists. split; [reflexivity|].
  eexists. split; [|split].
  - cbn [app]. apply table_from; [exact Hb|now apply comment_no_nl|]. now rewrite no_nl_app, labels_no_nl.
  - rewrite map_length, combine_length. lia.
  - intros i f col H1 H2. rewrite nth_error_map.
    assert (E : nth_error (combine (d_freq d) (d_pdos d)) i = Some (f, col)).
    { revert H1 H2. generalize (d_freq d) (d_pdos d). clear. intros l m. revert m i.
      induction l as [|z l IH]; intros [|z' m] [|i] H1 H2; try discriminate; cbn in *.
      - now injection H1 as ->; injection H2 as ->.
      - now apply IH. }
    unfold column in *. now rewrite E.
Qed.
Print Assumptions projected_dos_file_cut.

(** ** The files of a finished calculation *)
Lemma tetra_length p vol cells : forall freq cols cols', tetra p vol cells freq cols = Ok cols' -> length cols' = Nat.min (length freq) (length cols).
Proof.
  induction freq as [|f fr IH]; intros cols cols' H; cbn in H; [now injection H as <-|].
  destruct cols as [|c cr]; [now injection H as <-|].
  apply bind_ok in H as (c' & _ & H). apply bind_ok in H as (r & H1 & H). injection H as <-. cbn. f_equal. now apply IH.
Qed.
Lemma map2_length {A B D} (f : A -> B -> D) : forall l r, length (map2 f l r) = Nat.min (length l) (length r).
Proof. induction l as [|a l IH]; intros [|b r]; cbn; [reflexivity..|]. now rewrite IH. Qed.
(** what is calculated: neither smearing nor a periodic direction means a list of discrete lines *)
Definition isolated (p : proc) (sigma : R) : Prop := sigma = 0%R /\ Forall (fun z => z = 0%Z) (p_pbc p).
Lemma ind_pbc_nil l : ind_pbc l = [] <-> Forall (fun z => z = 0%Z) l.
Proof.
  unfold ind_pbc.
  assert (G : forall l k, map fst (filter (fun x : nat * Z => negb (snd x =? 0)%Z) (combine (seq k (length l)) l)) = [] <-> Forall (fun z => z = 0%Z) l).
  { clear. induction l as [|z l IH]; intros k; cbn [length seq combine filter map snd]; [split; [constructor|reflexivity]|].
    destruct (Z.eqb_spec z 0) as [E|E]; cbn [negb].
    - rewrite IH. split; intros H; [constructor; assumption|now inversion H].
    - split; [discriminate|]. intros H. inversion H. contradiction. }
  exact (G l 0).
Qed.
Lemma filter_le {A} (f : A -> bool) l : length (filter f l) <= length l.
Proof. induction l as [|a l IH]; cbn; [lia|]. destruct (f a); cbn; lia. Qed.
Lemma ind_pbc_le l : length (ind_pbc l) <= length l.
Proof.
  unfold ind_pbc. rewrite map_length. eapply Nat.le_trans; [apply filter_le|]. rewrite combine_length, seq_length. lia.
Qed.
Lemma finished_dos p sigma nd d0 d : dos_init p sigma nd = Ok d0 -> dos_set p d0 = Ok d -> length (p_pbc p) = 3 -> ~ isolated p sigma ->
  d_sigma d = sigma /\ d_freq d = d_freq d0 /\ length (d_freq d) = nd /\ length (d_pdos d) = nd /\ d_tdos d = map (osum (p_n p)) (d_pdos d).
Proof.
  intros HI HS H3 HN. unfold dos_init in HI.
  apply bind_ok in HI as (mn & _ & HI). apply bind_ok in HI as (mx & _ & HI). apply (f_equal (fun r => match r with Ok x => x | Err _ => d0 end)) in HI.
  cbn beta iota in HI. set (fr := map _ _) in HI. assert (Lf : length fr = nd) by (unfold fr; now rewrite map_length, seq_length).
  assert (S0 : d_sigma d0 = sigma /\ d_freq d0 = fr /\ length (d_pdos d0) = nd) by (rewrite <- HI; cbn [d_sigma d_freq d_pdos]; now rewrite map_length).
  destruct S0 as (S1 & S2 & S3). unfold dos_set in HS. rewrite S1, S2 in *. clearbody fr. clear HI.
  destruct (Req_EM_T sigma 0) as [E|E].
  - pose proof (ind_pbc_le (p_pbc p)) as LE. rewrite H3 in LE.
    destruct (ind_pbc (p_pbc p)) as [|a [|b [|c [|? ?]]]] eqn:EP; [|..|cbn in LE; lia].
    + exfalso. apply HN. split; [exact E|]. now apply ind_pbc_nil.
    + apply bind_ok in HS as (s & _ & HS). apply bind_ok in HS as (cols & HT & HS). injection HS as <-. cbn [d_sigma d_freq d_pdos d_tdos].
      apply tetra_length in HT. rewrite Lf, S3, Nat.min_id in HT. auto.
    + apply bind_ok in HS as (s & _ & HS). apply bind_ok in HS as (cols & HT & HS). injection HS as <-. cbn [d_sigma d_freq d_pdos d_tdos].
      apply tetra_length in HT. rewrite Lf, S3, Nat.min_id in HT. auto.
    + apply bind_ok in HS as (s & _ & HS). apply bind_ok in HS as (cols & HT & HS). injection HS as <-. cbn [d_sigma d_freq d_pdos d_tdos].
      apply tetra_length in HT. rewrite Lf, S3, Nat.min_id in HT. auto.
  - apply (f_equal (fun r => match r with Ok x => x | Err _ => d0 end)) in HS. cbn beta iota in HS.
    rewrite <- HS. cbn [d_sigma d_freq d_pdos d_tdos]. rewrite map2_length, Lf, S3, Nat.min_id. auto.
Qed.
(** the printed numbers *)
Definition number_of (w : string) (q : Qc) : Prop := parse_float w = Some q.
Lemma shows_number bad w x q : parse_float bad = None -> shows bad w x -> number_of w q ->
  exists v, x = Some v /\ (Rabs (Q2R (this q) - v) <= 5 / 10 ^ 10)%R.
Proof.
  intros Hb H N. destruct x as [v|]; cbn in H.
  - destruct H as (q' & E & _ & B). unfold number_of in N. rewrite E in N. injection N as ->. eauto.
  - subst w. unfold number_of in N. congruence.
Qed.
Lemma osum_printed bad col n v : forall ws, Forall2 (shows bad) ws (map col (seq 0 n)) -> osum n col = Some v ->
  exists qs, Forall2 number_of ws qs /\ (Rabs (sumR (map (fun q => Q2R (this q)) qs) - v) <= INR n * (5 / 10 ^ 10))%R.
Proof.
  revert v. induction n as [|n IH]; intros v ws H E.
  - cbn in H. inversion H; subst. exists []. split; [constructor|]. cbn in E. injection E as <-. cbn.
    replace (0 - 0)%R with 0%R by ring. rewrite Rabs_R0. lra.
  - rewrite seq_S, map_app in H. cbn [Nat.add map] in H. apply Forall2_app_inv_r in H as (w1 & w2 & H1 & H2 & ->).
    cbn [osum] in E. destruct (osum n col) as [a|] eqn:Ea; [|discriminate E]. destruct (col n) as [c|] eqn:Ec; [|discriminate E].
    cbn in E. injection E as <-. destruct (IH a w1 H1 eq_refl) as (qs & Q1 & Q2).
    inversion H2 as [|w x w2' l Hw Hnil]; subst. inversion Hnil; subst. cbn in Hw. destruct Hw as (q & P & _ & B).
    exists (qs ++ [q]). split; [apply Forall2_app; [exact Q1|]; constructor; [exact P|constructor]|].
    rewrite map_app, sumR_app. cbn [map sumR].
    match goal with |- (Rabs ?e <= _)%R => replace e with ((sumR (map (fun q => Q2R (this q)) qs) - a) + (Q2R (this q) - c))%R by (cbn; ring) end.
    eapply Rle_trans; [apply Rabs_triang|]. rewrite S_INR. lra.
Qed.

(** total_dos.dat and projected_dos.dat of one run agree: same frequencies on the same lines, and
    the printed projections of a line add up to its printed total. *)
Theorem dos_files_agree : forall bad folder xyz p sigma nd d0 d,
  word bad -> parse_float bad = None -> xyz <> [] -> length xyz = p_n p -> length (p_pbc p) = 3 -> ~ isolated p sigma ->
  dos_init p sigma nd = Ok d0 -> dos_set p d0 = Ok d ->
  exists total projected,
    dos_write bad folder xyz d = ([((folder ++ "/total_dos.dat")%string, total); ((folder ++ "/projected_dos.dat")%string, projected)], None) /\
    length (data_words total) = nd /\ length (data_words projected) = nd /\
    forall i, i < nd -> exists f y parts,
      nth_error (data_words total) i = Some [f; y] /\ nth_error (data_words projected) i = Some (f :: parts) /\
      length parts = length xyz /\
      forall q, number_of y q -> exists qs, Forall2 number_of parts qs /\
        (Rabs (sumR (map (fun q => Q2R (this q)) qs) - Q2R (this q)) <= (INR (length xyz) + 1) * (5 / 10 ^ 10))%R.
Proof.
  intros bad folder xyz p sigma nd d0 d Hb Hp Hx Hl H3 HN HI HS.
  destruct (finished_dos p sigma nd d0 d HI HS H3 HN) as (_ & _ & L1 & L2 & T).
  assert (Hn : 0 < length xyz) by (destruct xyz; [congruence|cbn; lia]).
  unfold dos_write, projected_write, total_write. rewrite projected_lines_eq by exact Hn. rewrite L1, L2, Nat.leb_refl. cbn [app].
  eexists _, _. split; [reflexivity|].
  rewrite <- (map_map (fun xy => [Some (fst xy); snd xy]) (table_line bad 16)).
  rewrite !data_words_eq; try exact Hb; try reflexivity; try (now apply comment_no_nl); [|now rewrite no_nl_app, labels_no_nl].
  unfold column in *. unfold total_rows. rewrite !map_length, !combine_length. rewrite T, map_length, L1, L2, Nat.min_id. split; [reflexivity|]. split; [reflexivity|].
  intros i Hi. unfold column in *.
  destruct (nth_error (d_freq d) i) as [f|] eqn:Ef; [|apply nth_error_None in Ef; lia].
  destruct (nth_error (d_pdos d) i) as [col|] eqn:Ec; [|unfold column in *; apply nth_error_None in Ec; lia].
  assert (G : forall {B} (l : list R) (m : list B) i f c, nth_error l i = Some f -> nth_error m i = Some c -> nth_error (combine l m) i = Some (f, c)).
  { clear. intros B l. induction l as [|z l IH]; intros [|z' m] [|i] f c H1 H2; try discriminate; cbn in *.
    - now injection H1 as ->; injection H2 as ->.
    - now apply IH. }
  assert (Et : nth_error (map (osum (p_n p)) (d_pdos d)) i = Some (osum (p_n p) col)) by (unfold column in *; rewrite nth_error_map, Ec; reflexivity).
  unfold column in *. rewrite !nth_error_map, (G _ _ _ _ _ _ Ef Et), (G _ _ _ _ _ _ Ef Ec). cbn [option_map fst snd map].
  eexists _, _, _. split; [reflexivity|]. split; [reflexivity|]. split; [now rewrite !map_length, seq_length|].
  intros q Hq. destruct (shows_number bad _ _ _ Hp (value_shows bad _) Hq) as (v & Ev & Bv).
  rewrite <- Hl in Ev.
  destruct (osum_printed bad col (length xyz) v (map (value_text bad 9) (map col (seq 0 (length xyz)))) (Forall2_values bad _) Ev) as (qs & Q1 & Q2).
  exists qs. split; [exact Q1|].
  match goal with |- (Rabs (?a - ?b) <= _)%R => replace (a - b)%R with ((a - v) - (b - v))%R by ring end.
  eapply Rle_trans; [apply Rabs_triang|]. rewrite Rabs_Ropp. lra.
Qed.
Print Assumptions dos_files_agree.

(** The tetrahedron option of a system without a periodic direction: one line per frequency, a
    total of 1 on each, projections 0; the write ends with an IndexError exactly when there are
    more frequencies than requested points. *)
Theorem isolated_dos_files : forall bad folder xyz p nd d0 d fr V r,
  word bad -> xyz <> [] -> isolated p 0 -> p_modes p = (fr, V) :: r ->
  dos_init p 0 nd = Ok d0 -> dos_set p d0 = Ok d ->
  exists total projected e,
    dos_write bad folder xyz d = ([((folder ++ "/total_dos.dat")%string, total); ((folder ++ "/projected_dos.dat")%string, projected)], e) /\
    is_table bad total (map (fun f => [Some f; Some 1%R]) fr) /\
    is_table bad projected (map (fun f => Some f :: map (fun _ => Some 0%R) xyz) (firstn nd fr)) /\
    (e = None <-> length fr <= nd) /\ (e <> None -> e = Some EIndex).
Proof.
  intros bad folder xyz p nd d0 d fr V r Hb Hx (_ & HP) HM HI HS.
  assert (Hn : 0 < length xyz) by (destruct xyz; [congruence|cbn; lia]).
  unfold dos_init in HI. apply bind_ok in HI as (mn & _ & HI). apply bind_ok in HI as (mx & _ & HI).
  apply (f_equal (fun r => match r with Ok x => x | Err _ => d0 end)) in HI. cbn beta iota in HI. set (f0 := map _ _) in HI.
  assert (Lf : length f0 = nd) by (unfold f0; now rewrite map_length, seq_length). clearbody f0.
  unfold dos_set in HS. rewrite <- HI in HS. cbn [d_sigma d_freq d_pdos] in HS.
  destruct (Req_EM_T 0 0) as [_|X]; [|contradiction]. rewrite (proj2 (ind_pbc_nil _) HP), HM in HS.
  change (py_nth ((fr, V) :: r) 0) with (@Ok (list R * cmat) (fr, V)) in HS. cbn [bind fst] in HS. apply (f_equal (fun r => match r with Ok x => x | Err _ => d0 end)) in HS. cbn beta iota in HS.
  unfold dos_write, projected_write, total_write, total_rows. rewrite <- HS. cbn [d_sigma d_freq d_pdos d_tdos].
  rewrite projected_lines_eq by exact Hn. rewrite map_length, Lf. cbn [app].
  eexists _, _, _. split; [reflexivity|]. split; [|split; [|split]].
  - replace (map (fun f => [Some f; Some 1%R]) fr) with (map (fun xy : R * option R => [Some (fst xy); snd xy]) (combine fr (map (fun _ => num 1) fr))).
    + rewrite <- (map_map (fun xy => [Some (fst xy); snd xy]) (table_line bad 16)). apply table_from; [exact Hb|now apply comment_no_nl|reflexivity].
    + clear. induction fr as [|f fr IH]; [reflexivity|]. cbn [map combine fst snd]. f_equal. exact IH.
  - match goal with |- is_table _ (_ :: _ :: map _ ?rows) ?t => replace t with rows end.
    + apply table_from; [exact Hb|now apply comment_no_nl|]. now rewrite no_nl_app, labels_no_nl.
    + rewrite <- Lf. clear.
      assert (Z : map (fun _ : nat => num 0) (seq 0 (length xyz)) = map (fun _ => Some 0%R) xyz).
      { generalize 0. induction xyz as [|z xyz IH]; intros k; [reflexivity|]. cbn [length seq map]. f_equal. apply IH. }
      revert f0. induction fr as [|f fr IH]; intros [|g f0]; cbn [map combine length firstn fst snd]; [reflexivity..|].
      f_equal; [|apply IH]. f_equal. exact Z.
  - destruct (Nat.leb_spec (length fr) nd); split; intros H'; try reflexivity; try lia; discriminate H'.
  - destruct (Nat.leb_spec (length fr) nd); intros H'; [congruence|reflexivity].
Qed.
Print Assumptions isolated_dos_files.

(** * C82: thermal_properties.dat *)
Lemma zip_three_nth {A B C} : forall (a : list A) (b : list B) (c : list C) i x y z,
  nth_error a i = Some x -> nth_error b i = Some y -> nth_error c i = Some z -> nth_error (zip_three a b c) i = Some (x, y, z).
Proof.
  induction a as [|x0 a IH]; intros [|y0 b] [|z0 c] [|i] x y z H1 H2 H3; try discriminate; cbn in *.
  - now injection H1 as ->; injection H2 as ->; injection H3 as ->.
  - now apply IH.
Qed.
Lemma zip_three_length {A B C} : forall (a : list A) (b : list B) (c : list C),
  length (zip_three a b c) = Nat.min (length a) (Nat.min (length b) (length c)).
Proof. induction a as [|x a IH]; intros [|y b] [|z c]; cbn; [reflexivity..|]. now rewrite IH. Qed.
(** entropies are printed in meV *)
Definition thousandfold (x : option R) : option R := option_map (fun v => v * 1000)%R x.
Theorem thermal_file : forall bad folder t, word bad ->
  fst (thermal_write bad folder t) = (folder ++ "/thermal_properties.dat")%string /\
  exists rows, is_table bad (snd (thermal_write bad folder t)) rows /\
    length rows = Nat.min (length (t_temp t)) (Nat.min (length (t_free t)) (length (t_entropy t))) /\
    forall i T f s, nth_error (t_temp t) i = Some T -> nth_error (t_free t) i = Some f -> nth_error (t_entropy t) i = Some s ->
      nth_error rows i = Some [Some T; f; thousandfold s].
Proof.
  intros bad folder t Hb. split; [reflexivity|].
  exists (map (fun '(x, y1, y2) => [Some x; y1; omul y2 (num 1000)]) (zip_three (t_temp t) (t_free t) (t_entropy t))). split; [|split].
  - unfold thermal_write. cbn [snd app].
    rewrite (map_ext _ (fun v => table_line bad 20 ((fun '(x, y1, y2) => [Some x; y1; omul y2 (num 1000)]) v))) by (intros [[? ?] ?]; reflexivity).
    rewrite <- (map_map (fun '(x, y1, y2) => [Some x; y1; omul y2 (num 1000)]) (table_line bad 20)).
    apply table_from; [exact Hb|reflexivity|reflexivity].
  - now rewrite map_length, zip_three_length.
  - intros i T f s H1 H2 H3. rewrite nth_error_map, (zip_three_nth _ _ _ _ _ _ _ H1 H2 H3). cbn [option_map]. destruct s; reflexivity.
Qed.
Print Assumptions thermal_file.

(** The file of a finished calculation: one line per temperature, in the order given, holding the
    free energy and entropy per atom of independent harmonic oscillators. *)
Theorem thermal_file_of_a_run : forall bad folder wq nb temps, word bad ->
  0 < nb -> wq <> [] -> no_zero_freq wq -> Forall (fun T => 0 <= T)%R temps -> at_most_one_zero temps ->
  is_table bad (snd (thermal_write bad folder (fst (thermal_set wq nb (thermal_init temps)))))
    (map (fun T => [Some T;
                    Some (if Req_EM_T T 0 then per_atom wq nb zero_point else per_atom wq nb (helmholtz T));
                    Some (if Req_EM_T T 0 then 0 else 1000 * per_atom wq nb (mode_entropy T))%R]) temps).
Proof.
  intros bad folder wq nb temps Hb Hn W NZ HT Z. rewrite thermal_results by assumption. cbn [fst].
  unfold thermal_write. cbn [snd app t_temp t_free t_entropy].
  rewrite (map_ext _ (fun v => table_line bad 20 ((fun '(x, y1, y2) => [Some x; y1; omul y2 (num 1000)]) v))) by (intros [[? ?] ?]; reflexivity).
  rewrite <- (map_map (fun '(x, y1, y2) => [Some x; y1; omul y2 (num 1000)]) (table_line bad 20)).
  match goal with |- is_table _ (_ :: _ :: map _ ?rows) ?t => replace t with rows end.
  - apply table_from; [exact Hb|reflexivity|reflexivity].
  - clear. induction temps as [|T temps IH]; [reflexivity|]. cbn [map zip_three]. f_equal; [|exact IH].
    unfold omul, obind, num. do 3 f_equal. f_equal. destruct (Req_EM_T T 0); ring.
Qed.
Print Assumptions thermal_file_of_a_run.

(** * C83: the frequencies of a system without periodic directions *)
Theorem gamma_file : forall bad p, word bad ->
  (Exists (fun z => z <> 0%Z) (p_pbc p) -> gamma_write bad p = None) /\
  (Forall (fun z => z = 0%Z) (p_pbc p) ->
     (p_modes p = [] -> exists f, gamma_write bad p = Some (f, Some EIndex) /\ data_words (snd f) = []) /\
     (forall fr V r, p_modes p = (fr, V) :: r -> exists lines,
        gamma_write bad p = Some (("./freqency_at_gamma_point.dat"%string, lines), None) /\
        is_table bad lines (map (fun f => [Some f]) fr))).
Proof.
  intros bad p Hb. split.
  - intros H. unfold gamma_write. destruct (ind_pbc (p_pbc p)) eqn:E; [|reflexivity].
    apply ind_pbc_nil in E. rewrite Exists_exists in H. rewrite Forall_forall in E. destruct H as (z & H1 & H2). now apply E in H1.
  - intros H. apply ind_pbc_nil in H. unfold gamma_write. rewrite H. split.
    + intros ->. eexists. split; [reflexivity|]. reflexivity.
    + intros fr V r ->. eexists. split; [reflexivity|]. cbn [fst app].
      rewrite <- (map_map (fun x => [Some x]) (table_line bad 16)). apply table_from; [exact Hb|reflexivity|reflexivity].
Qed.
Print Assumptions gamma_file.

(** * Concrete cases *)
Lemma rintR_Z z : rintR (IZR z) = z.
Proof.
  pose proof (rintR_near (IZR z)) as N. rewrite <- minus_IZR in N. apply abs_le in N. destruct N as (N1 & N2).
  assert (A : (IZR (-1) < IZR (rintR (IZR z) - z))%R) by lra. assert (B : (IZR (rintR (IZR z) - z) < IZR 1)%R) by lra.
  apply lt_IZR in A. apply lt_IZR in B. lia.
Qed.
Lemma fixed_exact k z : (0 <= z)%Z -> fixed k (IZR z / IZR (tenk k)) = dec_text k z.
Proof.
  intros H. pose proof (tenk_pos k) as T. apply IZR_lt in T. apply IZR_le in H.
  assert (P : (0 <= IZR z / IZR (tenk k))%R) by (apply Rmult_le_pos; [exact H|left; now apply Rinv_0_lt_compat]).
  unfold fixed. rewrite Rabs_right by lra. replace (IZR z / IZR (tenk k) * IZR (tenk k))%R with (IZR z) by (field; lra).
  rewrite rintR_Z. destruct (Rlt_dec _ 0); [lra|reflexivity].
Qed.
Example a_printed_line : table_line "nan" 16 [Some (3 / 2)%R; None; Some 0%R] = "      1.500000000               nan       0.000000000 "%string.
Proof.
  unfold table_line, column_text, value_text. cbn [map].
  replace (3 / 2)%R with (IZR 1500000000 / IZR (tenk 9))%R by (rewrite ten9; field).
  replace 0%R with (IZR 0 / IZR (tenk 9))%R by (rewrite ten9; field).
  rewrite !fixed_exact by lia. vm_compute. reflexivity.
Qed.
(** a chain of two k-points with one mode each *)
Definition sample_proc (pbc : Z) : proc :=
  mkProc [V3 0 0 0; V3 (1/2) 0 0]%R [([1%R], fun _ _ => RtoC 1); ([2%R], fun _ _ => RtoC 1)] 1 [2; 1; 1]%Z [pbc; 0; 0]%Z.
Example sample_band_file : word "nan" /\ parse_float "nan" = None /\
  (exists b, band_set (sample_proc 1) (band_init (sample_proc 1)) = Ok b) /\
  length (p_modes (sample_proc 1)) = length (p_k (sample_proc 1)) /\ Forall (fun m => length (fst m) = p_n (sample_proc 1)) (p_modes (sample_proc 1)).
Proof. split; [split; [discriminate|reflexivity]|]. split; [reflexivity|]. split; [eexists; reflexivity|]. split; [reflexivity|]. repeat constructor. Qed.
Example sample_dos_files : ~ isolated (sample_proc 1) 0 /\ ~ isolated (sample_proc 0) 1 /\ isolated (sample_proc 0) 0 /\
  length (p_pbc (sample_proc 1)) = 3 /\ length [0%Z] = p_n (sample_proc 1) /\
  (exists d0 d, dos_init (sample_proc 0) 1 5 = Ok d0 /\ dos_set (sample_proc 0) d0 = Ok d) /\
  (exists d0 d, dos_init (sample_proc 0) 0 5 = Ok d0 /\ dos_set (sample_proc 0) d0 = Ok d).
Proof.
  split; [intros (_ & H); inversion H as [|? ? X]; discriminate X|]. split; [intros (H & _); lra|].
  split; [split; [reflexivity|repeat constructor]|]. split; [reflexivity|]. split; [reflexivity|]. split.
  - eexists _, _. split; [reflexivity|]. unfold dos_set. cbn [d_sigma]. destruct (Req_EM_T 1 0) as [X|_]; [lra|reflexivity].
  - eexists _, _. split; [reflexivity|]. unfold dos_set. cbn [d_sigma]. destruct (Req_EM_T 0 0) as [_|X]; [reflexivity|contradiction].
Qed.
Example sample_labels : map atom_label [0; 0; 0; 11; 1234]%Z = ["pdos-atom-000"; "pdos-atom-000"; "pdos-atom-000"; "pdos-atom-011"; "pdos-atom-1234"]%string.
Proof. vm_compute. reflexivity. Qed.
Print Assumptions printed_ties_to_even.
