(** Facts about Output.v: what a written number reads back as. *)
From Coq Require Import Reals Qreals Lra.
From Coquelicot Require Import Complex.
From Coq Require Import String Ascii ZArith QArith Qcanon Bool Lia Arith List.
From Verif Require Import Base Dec Field ArgsFacts Text TextFacts Phonon Band Thermal Dos Output.
Import ListNotations.
Local Open Scope list_scope.
Local Open Scope nat_scope.

(** * rounding *)
Lemma abs_le (a b : R) : (Rabs a <= b -> - b <= a <= b)%R.
Proof. unfold Rabs. destruct (Rcase_abs a); lra. Qed.
Lemma rintR_near x : (Rabs (IZR (rintR x) - x) <= 1 / 2)%R.
Proof.
  unfold rintR, frac_part. destruct (base_Int_part x) as (H1 & H2).
  destruct (Rlt_dec _ _); [|destruct (Rlt_dec _ _); [|destruct (Z.even _)]]; rewrite ?plus_IZR; apply Rabs_le; lra.
Qed.
Lemma rintR_nonneg x : (0 <= x)%R -> (0 <= rintR x)%Z.
Proof.
  intros H. pose proof (rintR_near x) as N. apply abs_le in N.
  assert (X : (-1 < IZR (rintR x))%R) by lra. apply lt_IZR in X. lia.
Qed.
Lemma rintR_mono x y : (x <= y)%R -> (rintR x <= rintR y)%Z.
Proof.
  intros H. destruct (Rle_lt_or_eq_dec _ _ H) as [L| ->]; [|lia].
  pose proof (rintR_near x) as N1. pose proof (rintR_near y) as N2.
  apply abs_le in N1. apply abs_le in N2.
  assert (X : (IZR (rintR x) < IZR (rintR y) + 1)%R) by lra.
  rewrite <- plus_IZR in X. apply lt_IZR in X. lia.
Qed.

Lemma tenk_pos k : (0 < tenk k)%Z.
Proof. unfold tenk. apply Z.pow_pos_nonneg; lia. Qed.

(** * digits *)
Lemma fixk_ok k r : (0 <= r < tenk k)%Z ->
  all_digits (fix_digits k r "") = true /\ String.length (fix_digits k r "") = k /\ digits_val 0 (fix_digits k r "") = r.
Proof.
  intros H. destruct (fix_digits_nil k r ltac:(lia)) as (d & -> & H1 & H2 & H3).
  split; [exact H1|]. split; [exact H2|]. rewrite H3. apply Z.mod_small. exact H.
Qed.
Lemma dec_text_parse k m : (0 <= m)%Z -> parse_unsigned (dec_text k m) = Some (scale10 m (- Z.of_nat k)).
Proof.
  intros Hm. unfold dec_text. pose proof (tenk_pos k) as T.
  assert (Hq : (0 <= m / tenk k)%Z) by (apply Z.div_pos; assumption).
  pose proof (Z.mod_pos_bound m (tenk k) T) as Hr.
  destruct (nat_digits_spec (m / tenk k) Hq) as (I1 & I2 & I3).
  destruct (fixk_ok k (m mod tenk k) Hr) as (F1 & F2 & F3).
  revert I1 I2 I3 F1 F2 F3. generalize (nat_digits (m / tenk k)) (fix_digits k (m mod tenk k) ""). intros ip fp I1 I2 I3 F1 F2 F3.
  unfold parse_unsigned.
  assert (Fr : forall c, is_digit c = false -> Ascii.eqb "." c = false -> free c (ip ++ String "." fp) = true).
  { intros c Hc Hd. unfold free. rewrite all_char_app. cbn [all_char]. rewrite Hd.
    fold (free c ip). fold (free c fp). rewrite !digits_free by assumption. reflexivity. }
  rewrite split_at_none by (apply Fr; reflexivity). rewrite split_at_none by (apply Fr; reflexivity).
  rewrite split_at_free by (apply digits_free; [reflexivity|exact I1]).
  cbn beta iota. rewrite I1, F1. replace (nonempty ip) with true by (destruct ip; [congruence|reflexivity]).
  cbn [orb andb]. rewrite F2, I2, digits_val_acc, F2, F3. fold (tenk k).
  replace (m / tenk k * tenk k + m mod tenk k)%Z with m by (pose proof (Z.div_mod m (tenk k) ltac:(lia)); lia).
  reflexivity.
Qed.
Lemma dec_text_chars k m : (0 <= m)%Z ->
  all_char numchar (dec_text k m) = true /\ exists c r, dec_text k m = String c r /\ is_digit c = true.
Proof.
  intros Hm. unfold dec_text. pose proof (tenk_pos k) as T.
  assert (Hq : (0 <= m / tenk k)%Z) by (apply Z.div_pos; assumption).
  pose proof (Z.mod_pos_bound m (tenk k) T) as Hr.
  destruct (nat_digits_spec (m / tenk k) Hq) as (I1 & I2 & I3).
  destruct (fixk_ok k (m mod tenk k) Hr) as (F1 & _ & _).
  revert I1 I2 I3 F1. generalize (nat_digits (m / tenk k)) (fix_digits k (m mod tenk k) ""). intros ip fp I1 I2 I3 F1.
  split.
  - rewrite all_char_app. rewrite all_char_digits in I1, F1. cbn [all_char].
    rewrite (all_char_impl _ _ _ digit_numchar I1), (all_char_impl _ _ _ digit_numchar F1). reflexivity.
  - destruct ip as [|c ip]; [congruence|]. exists c, (ip ++ String "." fp)%string. split; [reflexivity|].
    cbn in I1. now apply andb_true_iff in I1 as (? & _).
Qed.

(** the integer printed, in units of 10^-k *)
Definition units (k : nat) (x : R) : Z :=
  let m := rintR (Rabs x * IZR (tenk k))%R in if Rlt_dec x 0 then (- m)%Z else m.
Lemma scaled_nonneg k x : (0 <= rintR (Rabs x * IZR (tenk k))%R)%Z.
Proof.
  apply rintR_nonneg. apply Rmult_le_pos; [apply Rabs_pos|]. apply IZR_le. pose proof (tenk_pos k). lia.
Qed.
Lemma fixed_word k x : word (fixed k x).
Proof.
  unfold fixed. destruct (dec_text_chars k _ (scaled_nonneg k x)) as (H & c & r & E & Hc).
  assert (NW : no_ws (dec_text k (rintR (Rabs x * IZR (tenk k)))) = true).
  { eapply all_char_impl; [|exact H]. intros c0 H0. cbn. now rewrite numchar_not_ws. }
  destruct (Rlt_dec x 0); split; try discriminate; try exact NW. rewrite E. discriminate.
Qed.
Lemma scale10_R m k : Q2R (this (scale10 m (- Z.of_nat k))) = (IZR m / IZR (tenk k))%R.
Proof.
  unfold scale10. destruct k as [|k].
  - change (- Z.of_nat 0)%Z with 0%Z. change (0 <=? 0)%Z with true. cbn beta iota. unfold Q2Qc; cbn [this].
    rewrite (Qeq_eqR _ _ (Qred_correct _)). unfold Q2R, pow10, tenk, inject_Z. cbn [Qnum Qden].
    change (10 ^ 0)%Z with 1%Z. change (10 ^ Z.of_nat 0)%Z with 1%Z. rewrite Z.mul_1_r. field.
  - destruct (Z.leb_spec 0 (- Z.of_nat (S k))) as [L|L]; [lia|].
    unfold Q2Qc; cbn [this]. rewrite (Qeq_eqR _ _ (Qred_correct _)). unfold Q2R, pow10. cbn [Qnum Qden].
    rewrite Z.opp_involutive. fold (tenk (S k)). rewrite Z2Pos.id by apply tenk_pos. reflexivity.
Qed.
Lemma fixed_parse k x : exists q, parse_float (fixed k x) = Some q /\ Q2R (this q) = (IZR (units k x) / IZR (tenk k))%R.
Proof.
  unfold parse_float. rewrite strip_no_ws by apply fixed_word.
  unfold fixed, units. pose proof (scaled_nonneg k x) as NN. set (m := rintR _) in *.
  pose proof (dec_text_parse k m NN) as P. destruct (dec_text_chars k m NN) as (_ & c & r & E & Hc).
  destruct (Rlt_dec x 0).
  - cbn [parse_sign]. rewrite P. eexists. split; [reflexivity|].
    unfold Qcopp, Q2Qc; cbn [this]. rewrite (Qeq_eqR _ _ (Qred_correct _)), Q2R_opp, scale10_R, opp_IZR.
    unfold Rdiv. ring.
  - assert (S : parse_sign (dec_text k m) = (false, dec_text k m)).
    { rewrite E. unfold parse_sign. destruct (Ascii.eqb_spec c "-") as [->|N1]; [discriminate Hc|].
      destruct (Ascii.eqb_spec c "+") as [->|N2]; [discriminate Hc|].
      destruct c as [[] [] [] [] [] [] [] []]; try reflexivity; exfalso; congruence. }
    rewrite S, P. eexists. split; [reflexivity|]. apply scale10_R.
Qed.
Lemma units_near k x : (Rabs (IZR (units k x) - x * IZR (tenk k)) <= 1 / 2)%R.
Proof.
  unfold units. pose proof (rintR_near (Rabs x * IZR (tenk k))) as N. destruct (Rlt_dec x 0) as [L|L].
  - rewrite (Rabs_left x L) in *. rewrite opp_IZR.
    replace (- IZR (rintR (- x * IZR (tenk k))) - x * IZR (tenk k))%R with (- (IZR (rintR (- x * IZR (tenk k))) - - x * IZR (tenk k)))%R by ring.
    now rewrite Rabs_Ropp.
  - rewrite (Rabs_right x) in * by lra. exact N.
Qed.
Lemma units_mono k x y : (x <= y)%R -> (units k x <= units k y)%Z.
Proof.
  intros H. unfold units. pose proof (scaled_nonneg k x). pose proof (scaled_nonneg k y).
  assert (T : (0 <= IZR (tenk k))%R) by (apply IZR_le; pose proof (tenk_pos k); lia).
  destruct (Rlt_dec x 0) as [L|L], (Rlt_dec y 0) as [L'|L']; try lra.
  - rewrite (Rabs_left x L), (Rabs_left y L').
    assert (rintR (- y * IZR (tenk k)) <= rintR (- x * IZR (tenk k)))%Z; [|lia].
    apply rintR_mono. apply Rmult_le_compat_r; [exact T|lra].
  - lia.
  - rewrite (Rabs_right x), (Rabs_right y) by lra. apply rintR_mono. now apply Rmult_le_compat_r.
Qed.

(** * lines *)
Lemma padw_split w s r : word s -> (r = ""%string \/ exists c r', r = String c r' /\ is_ws c = true) ->
  split_ws (padw w s ++ r)%string = s :: split_ws r.
Proof.
  intros Hs Hr. unfold padw. rewrite <- string_app_assoc, split_ws_ws_app by apply spaces_ws.
  destruct Hr as [->|(c & r' & -> & Hw)].
  - rewrite string_app_nil_r. now apply split_ws_word.
  - rewrite split_ws_word_app by assumption. cbn [split_ws]. now rewrite Hw.
Qed.
Section Bad.
  Variable bad : string.
  Hypothesis Hbad : word bad.
  Lemma value_word k x : word (value_text bad k x).
  Proof. destruct x; [apply fixed_word|exact Hbad]. Qed.
  Lemma concat_nil_cons a l : String.concat "" (a :: l) = (a ++ String.concat "" l)%string.
  Proof. cbn [String.concat]. destruct l; [now rewrite string_app_nil_r|reflexivity]. Qed.
  Lemma table_line_split w xs : split_ws (table_line bad w xs) = map (value_text bad 9) xs.
  Proof.
    unfold table_line. induction xs as [|x xs IH]; [reflexivity|].
    cbn [map]. rewrite concat_nil_cons. unfold column_text at 1. rewrite <- !string_app_assoc.
    rewrite split_ws_ws_app by reflexivity.
    rewrite padw_split; [|apply value_word|right; do 2 eexists; split; reflexivity].
    f_equal. rewrite split_ws_ws_app by reflexivity. exact IH.
  Qed.
  Lemma table_line_no_nl w xs : no_nl (table_line bad w xs) = true.
  Proof.
    unfold table_line. induction xs as [|x xs IH]; [reflexivity|].
    cbn [map]. rewrite concat_nil_cons, no_nl_app, IH. unfold column_text, padw.
    rewrite !no_nl_app, spaces_no_nl, (no_ws_no_nl (value_text bad 9 x)) by apply value_word. reflexivity.
  Qed.
End Bad.
