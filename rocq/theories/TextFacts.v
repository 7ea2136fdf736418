(** Facts about the text layer (Text.v). *)
From Coq Require Import String Ascii ZArith QArith Qcanon Qfield Bool Lia Arith List Permutation Sorted.
From Verif Require Import Base Dec Field Cell CellFacts ArgsFacts Text.
Import ListNotations.
Local Open Scope list_scope.
Local Open Scope nat_scope.

(** * Characters *)
Fixpoint all_char (p : ascii -> bool) (s : string) : bool :=
  match s with EmptyString => true | String c r => (p c && all_char p r)%bool end.
Lemma all_char_app p a b : all_char p (a ++ b)%string = (all_char p a && all_char p b)%bool.
Proof. induction a as [|c a IH]; cbn; [reflexivity|]. rewrite IH. apply andb_assoc. Qed.
Lemma all_char_impl (p q : ascii -> bool) s :
  (forall c, p c = true -> q c = true) -> all_char p s = true -> all_char q s = true.
Proof.
  intros H. induction s as [|c s IH]; cbn; [reflexivity|]. rewrite !andb_true_iff. intros (A & B). auto.
Qed.
Lemma all_char_digits s : all_digits s = all_char is_digit s.
Proof. induction s as [|c s IH]; cbn; [reflexivity|]. now rewrite IH. Qed.
Lemma all_char_rev p s : all_char p (rev_string s) = all_char p s.
Proof.
  induction s as [|c s IH]; [reflexivity|]. rewrite rev_string_cons, all_char_app, IH. cbn. rewrite andb_true_r. apply andb_comm.
Qed.

Definition no_ws (s : string) : bool := all_char (fun c => negb (is_ws c)) s.
Definition no_nl (s : string) : bool := all_char (fun c => negb (Ascii.eqb c nl)) s.
Definition free (x : ascii) (s : string) : bool := all_char (fun c => negb (Ascii.eqb c x)) s.

Lemma no_ws_no_nl s : no_ws s = true -> no_nl s = true.
Proof.
  apply all_char_impl. intros c H. destruct (Ascii.eqb_spec c nl) as [->|]; [discriminate H|reflexivity].
Qed.

Lemma lstrip_no_ws s : no_ws s = true -> lstrip s = s.
Proof.
  destruct s as [|c s]; cbn; [reflexivity|]. intros H. apply andb_true_iff in H as (H & _).
  destruct (is_ws c); [discriminate|reflexivity].
Qed.
Lemma strip_no_ws s : no_ws s = true -> strip s = s.
Proof.
  intros H. unfold strip. rewrite (lstrip_no_ws s H), lstrip_no_ws, rev_string_involutive; [reflexivity|].
  unfold no_ws. rewrite all_char_rev. exact H.
Qed.

(** * Tokens *)
Definition word (s : string) : Prop := s <> ""%string /\ no_ws s = true.

Lemma split_ws_word t : word t -> split_ws t = [t].
Proof.
  intros (Hne & H). induction t as [|c t IH]; [congruence|].
  cbn in H. apply andb_true_iff in H as (Hc & Ht). cbn [split_ws].
  destruct (is_ws c); [discriminate|]. destruct t as [|c' t]; [reflexivity|].
  rewrite IH; [|discriminate|exact Ht]. cbn in Ht. destruct (is_ws c'); [discriminate|reflexivity].
Qed.

Lemma split_ws_word_app t w r : word t -> is_ws w = true -> split_ws (t ++ String w r)%string = t :: split_ws r.
Proof.
  intros (Hne & H) Hw. induction t as [|c t IH]; [congruence|].
  cbn in H. apply andb_true_iff in H as (Hc & Ht).
  destruct t as [|c' t].
  - cbn [append split_ws]. destruct (is_ws c); [discriminate|]. now rewrite Hw.
  - cbn [append]. cbn [append] in IH. cbn [split_ws]. destruct (is_ws c); [discriminate|].
    assert (H2 : is_ws c' = false) by (cbn in Ht; apply andb_true_iff in Ht as (A & _); destruct (is_ws c'); [discriminate|reflexivity]).
    rewrite H2. specialize (IH ltac:(discriminate) Ht). cbn [split_ws] in IH. rewrite H2 in IH. rewrite IH. reflexivity.
Qed.

Lemma spaces_ws n : all_ws (spaces n) = true.
Proof. induction n; cbn; auto. Qed.
Lemma all_ws_concat_ok : all_ws "    " = true. Proof. reflexivity. Qed.

(** "sep".join of words splits back into the words. *)
Lemma split_ws_concat l : Forall word l -> split_ws (String.concat "    " l) = l.
Proof.
  induction l as [|a l IH]; intros H; [reflexivity|].
  inversion H as [|? ? Ha Hl]; subst. destruct l as [|b l]; [cbn; now apply split_ws_word|].
  change (String.concat "    " (a :: b :: l)) with (a ++ "    " ++ String.concat "    " (b :: l))%string.
  change ("    " ++ String.concat "    " (b :: l))%string with (String " " ("   " ++ String.concat "    " (b :: l)))%string.
  rewrite split_ws_word_app by (auto; reflexivity). rewrite split_ws_ws_app by reflexivity. now rewrite IH.
Qed.

(** * Lines *)
Definition addnl (l : string) : string := (l ++ String nl "")%string.
Lemma split_ws_addnl l : split_ws (addnl l) = split_ws l.
Proof. unfold addnl. now apply split_ws_app_ws. Qed.

Lemma readlines_line l rest : no_nl l = true -> readlines (addnl l ++ rest)%string = addnl l :: readlines rest.
Proof.
  intros H. induction l as [|c l IH].
  - cbn. reflexivity.
  - cbn in H. apply andb_true_iff in H as (Hc & Hl). specialize (IH Hl).
    unfold addnl in *. cbn [append readlines]. destruct (Ascii.eqb c nl); [discriminate|]. rewrite IH. reflexivity.
Qed.

Lemma readlines_text ls : Forall (fun l => no_nl l = true) ls -> readlines (to_text ls) = map addnl ls.
Proof.
  induction ls as [|l ls IH]; intros H; [reflexivity|].
  inversion H as [|? ? Hl Hls]; subst.
  assert (E : to_text (l :: ls) = (addnl l ++ to_text ls)%string).
  { unfold to_text. cbn [map]. fold (addnl l). destruct ls as [|l' ls]; cbn [map String.concat].
    - now rewrite string_app_nil_r.
    - reflexivity. }
  rewrite E, readlines_line by exact Hl. cbn [map]. now rewrite IH.
Qed.

(** * Number formatting *)
Definition numchar (c : ascii) : bool := (is_digit c || Ascii.eqb c "-" || Ascii.eqb c ".")%bool.
Lemma digit_numchar c : is_digit c = true -> numchar c = true.
Proof. intros H. unfold numchar. now rewrite H. Qed.
Lemma is_digit_range c : is_digit c = true -> 48 <= nat_of_ascii c <= 57.
Proof. unfold is_digit. rewrite andb_true_iff, !Nat.leb_le. auto. Qed.
Lemma digit_not_char c x : is_digit c = true -> is_digit x = false -> Ascii.eqb c x = false.
Proof. intros H1 H2. destruct (Ascii.eqb_spec c x) as [->|]; [congruence|reflexivity]. Qed.
Lemma digit_not_ws c : is_digit c = true -> is_ws c = false.
Proof.
  intros H. apply is_digit_range in H. unfold is_ws.
  apply orb_false_iff. split; apply andb_false_iff; right; apply Nat.leb_gt; lia.
Qed.
Lemma numchar_not_ws c : numchar c = true -> is_ws c = false.
Proof.
  unfold numchar. rewrite !orb_true_iff. intros [[H|H]|H]; [now apply digit_not_ws| |];
    apply Ascii.eqb_eq in H as ->; reflexivity.
Qed.

Definition rnd_units (x : Qc) : Z := round_half_even (Z.abs (Qnum (this x)) * ten16) (Zpos (Qden (this x))).
(** the decimal value written for x *)
Definition rnd (x : Qc) : Qc :=
  let q := Q2Qc (rnd_units x # Z.to_pos ten16) in
  if (Qnum (this x) <? 0)%Z then Qcopp q else q.

Lemma round_half_even_spec n d : (0 < d)%Z -> (2 * Z.abs (round_half_even n d * d - n) <= d)%Z.
Proof.
  intros Hd. unfold round_half_even.
  pose proof (Z.div_mod n d ltac:(lia)) as E. pose proof (Z.mod_pos_bound n d Hd) as B.
  destruct (Z.ltb_spec (2 * (n mod d)) d); [nia|].
  destruct (Z.ltb_spec d (2 * (n mod d))); [nia|].
  destruct (Z.even _); nia.
Qed.
Lemma round_half_even_nonneg n d : (0 <= n)%Z -> (0 < d)%Z -> (0 <= round_half_even n d)%Z.
Proof.
  intros Hn Hd. pose proof (Z.div_pos n d Hn Hd). unfold round_half_even.
  destruct (_ <? _)%Z; [lia|]. destruct (_ <? _)%Z; [lia|]. destruct (Z.even _); lia.
Qed.
Lemma rnd_units_nonneg x : (0 <= rnd_units x)%Z.
Proof. apply round_half_even_nonneg; [|lia]. unfold ten16. nia. Qed.

Lemma split_at_free c a b : free c a = true -> split_at c (a ++ String c b) = (a, Some b).
Proof.
  induction a as [|x a IH]; cbn; intros H.
  - now rewrite Ascii.eqb_refl.
  - apply andb_true_iff in H as (Hx & Ha). destruct (Ascii.eqb x c); [discriminate|]. now rewrite (IH Ha).
Qed.
Lemma split_at_none c a : free c a = true -> split_at c a = (a, None).
Proof.
  induction a as [|x a IH]; cbn; intros H; [reflexivity|].
  apply andb_true_iff in H as (Hx & Ha). destruct (Ascii.eqb x c); [discriminate|]. now rewrite (IH Ha).
Qed.
Lemma digits_free x s : is_digit x = false -> all_digits s = true -> free x s = true.
Proof.
  intros Hx. rewrite all_char_digits. apply all_char_impl. intros c Hc. now rewrite digit_not_char.
Qed.

Lemma fix16_ok r : (0 <= r < ten16)%Z ->
  all_digits (fix_digits 16 r "") = true /\ String.length (fix_digits 16 r "") = 16 /\ digits_val 0 (fix_digits 16 r "") = r.
Proof.
  intros H. destruct (fix_digits_nil 16 r ltac:(lia)) as (d & -> & H1 & H2 & H3).
  split; [exact H1|]. split; [exact H2|]. rewrite H3.
  change (Z.of_nat 16) with 16%Z. change (10 ^ 16)%Z with ten16. apply Z.mod_small. exact H.
Qed.

Lemma fmt16_unsigned_parse m : (0 <= m)%Z -> parse_unsigned (fmt16_unsigned m) = Some (Q2Qc (m # Z.to_pos ten16)).
Proof.
  intros Hm. unfold fmt16_unsigned.
  assert (Hq : (0 <= m / ten16)%Z) by (apply Z.div_pos; [exact Hm|reflexivity]).
  pose proof (Z.mod_pos_bound m ten16 ltac:(reflexivity)) as Hr.
  destruct (nat_digits_spec (m / ten16) Hq) as (I1 & I2 & I3).
  destruct (fix16_ok (m mod ten16) Hr) as (F1 & F2 & F3).
  revert I1 I2 I3 F1 F2 F3. generalize (nat_digits (m / ten16)) (fix_digits 16 (m mod ten16) ""). intros ip fp I1 I2 I3 F1 F2 F3.
  unfold parse_unsigned.
  assert (Fr : forall c, is_digit c = false -> Ascii.eqb "." c = false -> free c (ip ++ String "." fp) = true).
  { intros c Hc Hd. unfold free. rewrite all_char_app. cbn [all_char]. rewrite Hd.
    fold (free c ip). fold (free c fp). rewrite !digits_free by assumption. reflexivity. }
  rewrite split_at_none by (apply Fr; reflexivity). rewrite split_at_none by (apply Fr; reflexivity).
  rewrite split_at_free by (apply digits_free; [reflexivity|exact I1]).
  cbn beta iota. rewrite I1, F1. replace (nonempty ip) with true by (destruct ip; [congruence|reflexivity]).
  cbn [orb andb]. rewrite F2, I2, digits_val_acc, F2, F3.
  change (Z.of_nat 16) with 16%Z. change (10 ^ 16)%Z with ten16.
  replace (m / ten16 * ten16 + m mod ten16)%Z with m by (pose proof (Z.div_mod m ten16 ltac:(discriminate)); lia).
  reflexivity.
Qed.

Lemma fmt16_unsigned_chars m : (0 <= m)%Z -> all_char numchar (fmt16_unsigned m) = true /\ exists c r, fmt16_unsigned m = String c r /\ is_digit c = true.
Proof.
  intros Hm. unfold fmt16_unsigned.
  assert (Hq : (0 <= m / ten16)%Z) by (apply Z.div_pos; [exact Hm|reflexivity]).
  pose proof (Z.mod_pos_bound m ten16 ltac:(reflexivity)) as Hr.
  destruct (nat_digits_spec (m / ten16) Hq) as (I1 & I2 & I3).
  destruct (fix16_ok (m mod ten16) Hr) as (F1 & _ & _).
  revert I1 I2 I3 F1. generalize (nat_digits (m / ten16)) (fix_digits 16 (m mod ten16) ""). intros ip fp I1 I2 I3 F1.
  split.
  - rewrite all_char_app. rewrite all_char_digits in I1, F1. cbn [all_char].
    rewrite (all_char_impl _ _ _ digit_numchar I1), (all_char_impl _ _ _ digit_numchar F1). reflexivity.
  - destruct ip as [|c ip]; [congruence|]. exists c, (ip ++ String "." fp)%string. split; [reflexivity|].
    cbn in I1. now apply andb_true_iff in I1 as (? & _).
Qed.

Lemma fmt16_chars x : all_char numchar (fmt16 x) = true.
Proof.
  unfold fmt16. fold (rnd_units x). destruct (fmt16_unsigned_chars (rnd_units x) (rnd_units_nonneg x)) as (H & _).
  destruct (_ <? 0)%Z; [|exact H]. cbn [all_char]. now rewrite H.
Qed.
Lemma fmt16_word x : word (fmt16 x).
Proof.
  split.
  - unfold fmt16. fold (rnd_units x). destruct (fmt16_unsigned_chars (rnd_units x) (rnd_units_nonneg x)) as (_ & c & r & -> & _).
    destruct (_ <? 0)%Z; discriminate.
  - eapply all_char_impl; [|apply fmt16_chars]. intros c H. cbn. now rewrite numchar_not_ws.
Qed.

Lemma fmt16_parse x : parse_float (fmt16 x) = Some (rnd x).
Proof.
  unfold parse_float. rewrite strip_no_ws by apply fmt16_word.
  unfold fmt16, rnd. fold (rnd_units x).
  pose proof (fmt16_unsigned_parse (rnd_units x) (rnd_units_nonneg x)) as P.
  destruct (fmt16_unsigned_chars (rnd_units x) (rnd_units_nonneg x)) as (_ & c & r & E & Hc).
  destruct (Qnum (this x) <? 0)%Z.
  - cbn [parse_sign]. rewrite P. reflexivity.
  - assert (S : parse_sign (fmt16_unsigned (rnd_units x)) = (false, fmt16_unsigned (rnd_units x))).
    { rewrite E. unfold parse_sign. destruct (Ascii.eqb_spec c "-") as [->|N1]; [discriminate Hc|].
      destruct (Ascii.eqb_spec c "+") as [->|N2]; [discriminate Hc|].
      destruct c as [[] [] [] [] [] [] [] []]; try reflexivity; exfalso; congruence. }
    rewrite S, P. reflexivity.
Qed.

(** accuracy *)
Definition half_ulp16 : Qc := Q2Qc (1 # 20000000000000000).
Definition on_grid (x : Qc) : Prop := exists z : Z, x = Q2Qc (z # Z.to_pos ten16).
Definition close16 (x y : Qc) : Prop :=
  (Qcopp half_ulp16 <= y - x)%Qc /\ (y - x <= half_ulp16)%Qc /\ (on_grid x -> y = x).

Lemma rnd_this x : this (rnd x) == (Z.sgn (Qnum (this x)) * rnd_units x # Z.to_pos ten16) \/ Qnum (this x) = 0%Z.
Proof.
  destruct (Z.eq_dec (Qnum (this x)) 0) as [E|N]; [right; exact E|left].
  unfold rnd. destruct (Z.ltb_spec (Qnum (this x)) 0) as [L|G].
  - unfold Qcopp, Q2Qc; cbn [this]. rewrite !Qred_correct. unfold Qeq, Qopp. cbn [Qnum Qden].
    replace (Z.sgn (Qnum (this x))) with (-1)%Z by lia. ring.
  - unfold Q2Qc; cbn [this]. rewrite Qred_correct. unfold Qeq. cbn [Qnum Qden].
    replace (Z.sgn (Qnum (this x))) with 1%Z by lia. ring.
Qed.
Lemma rnd_this' x : this (rnd x) == ((if (Qnum (this x) <? 0)%Z then -1 else 1) * rnd_units x # Z.to_pos ten16).
Proof.
  unfold rnd. destruct (Qnum (this x) <? 0)%Z.
  - unfold Qcopp, Q2Qc; cbn [this]. rewrite !Qred_correct. unfold Qeq, Qopp. cbn [Qnum Qden]. ring.
  - unfold Q2Qc; cbn [this]. rewrite Qred_correct. unfold Qeq. cbn [Qnum Qden]. ring.
Qed.

Lemma rnd_close x : close16 x (rnd x).
Proof.
  pose proof (rnd_this' x) as E.
  pose proof (round_half_even_spec (Z.abs (Qnum (this x)) * ten16) (Zpos (Qden (this x))) ltac:(lia)) as B.
  fold (rnd_units x) in B.
  pose proof (rnd_units_nonneg x) as NN.
  set (n := Qnum (this x)) in *. set (d := Zpos (Qden (this x))) in *. set (m := rnd_units x) in *.
  assert (Ex : this x == (n # Qden (this x))) by (subst n; destruct (this x); reflexivity).
  assert (Hs : let s := (if (n <? 0)%Z then -1 else 1)%Z in (2 * Z.abs (s * m * d - n * ten16) <= d)%Z).
  { cbn zeta. destruct (Z.ltb_spec n 0); nia. }
  cbn zeta in Hs. set (s := (if (n <? 0)%Z then -1 else 1)%Z) in *.
  split; [|split].
  - unfold Qcle, Qcopp, Qcminus, Qcplus, half_ulp16, Q2Qc; cbn [this]. rewrite !Qred_correct.
    rewrite E. unfold Qcopp, Q2Qc; cbn [this]. rewrite Qred_correct, Ex.
    unfold Qle, Qplus, Qopp. cbn [Qnum Qden]. fold d. unfold ten16 in *. rewrite Pos2Z.inj_mul. fold d.
    change (Zpos (Z.to_pos 10000000000000000)) with 10000000000000000%Z. nia.
  - unfold Qcle, Qcminus, Qcplus, half_ulp16, Q2Qc; cbn [this]. rewrite !Qred_correct.
    rewrite E. unfold Qcopp, Q2Qc; cbn [this]. rewrite Qred_correct, Ex.
    unfold Qle, Qplus, Qopp. cbn [Qnum Qden]. fold d. unfold ten16 in *. rewrite Pos2Z.inj_mul. fold d.
    change (Zpos (Z.to_pos 10000000000000000)) with 10000000000000000%Z. nia.
  - intros (z & Hz). apply Qc_is_canon. rewrite E.
    assert (Ez : this x == (z # Z.to_pos ten16)) by (rewrite Hz; unfold Q2Qc; cbn [this]; now rewrite Qred_correct).
    rewrite Ez. rewrite Ex in Ez. unfold Qeq in *. cbn [Qnum Qden] in *. fold d in Ez.
    unfold ten16 in *. change (Zpos (Z.to_pos 10000000000000000)) with 10000000000000000%Z in *.
    assert (Hd0 : (0 < d)%Z) by (subst d; lia).
    assert (H : (2 * Z.abs ((s * m - z) * d) <= d)%Z) by (replace ((s * m - z) * d)%Z with (s * m * d - n * 10000000000000000)%Z by lia; exact Hs).
    assert (s * m - z = 0)%Z by nia. lia.
Qed.

(** * Rows *)
Lemma pad20_split s r : word s -> (r = ""%string \/ exists w r', r = String w r' /\ is_ws w = true) ->
  split_ws (pad20 s ++ r)%string = s :: split_ws r.
Proof.
  intros Hs Hr. unfold pad20. rewrite <- string_app_assoc, split_ws_ws_app by apply spaces_ws.
  destruct Hr as [->|(w & r' & -> & Hw)].
  - rewrite string_app_nil_r. now apply split_ws_word.
  - rewrite split_ws_word_app by assumption. cbn [split_ws]. now rewrite Hw.
Qed.

Lemma fmt_row_split v r : (r = ""%string \/ exists w r', r = String w r' /\ is_ws w = true) ->
  split_ws (fmt_row v ++ r)%string = [fmt16 (vx v); fmt16 (vy v); fmt16 (vz v)] ++ split_ws r.
Proof.
  intros Hr. unfold fmt_row. rewrite <- !string_app_assoc.
  rewrite pad20_split; [|apply fmt16_word|right; do 2 eexists; split; reflexivity].
  rewrite split_ws_ws_app by reflexivity.
  rewrite pad20_split; [|apply fmt16_word|right; do 2 eexists; split; reflexivity].
  rewrite split_ws_ws_app by reflexivity.
  rewrite pad20_split; [|apply fmt16_word|exact Hr]. reflexivity.
Qed.

Lemma spaces_no_nl n : no_nl (spaces n) = true.
Proof. induction n; cbn; auto. Qed.
Lemma no_nl_app a b : no_nl (a ++ b)%string = (no_nl a && no_nl b)%bool.
Proof. apply all_char_app. Qed.
Lemma fmt_row_no_nl v : no_nl (fmt_row v) = true.
Proof.
  unfold fmt_row, pad20. rewrite !no_nl_app, !spaces_no_nl.
  rewrite !(no_ws_no_nl (fmt16 _)) by apply fmt16_word. reflexivity.
Qed.

Lemma parse_row_fmt v : parse_row [fmt16 (vx v); fmt16 (vy v); fmt16 (vz v)] = Ok [rnd (vx v); rnd (vy v); rnd (vz v)].
Proof. unfold parse_row. cbn [mapM]. rewrite !fmt16_parse. reflexivity. Qed.

Definition vrnd (v : v3 Qc) : v3 Qc := V3 (rnd (vx v)) (rnd (vy v)) (rnd (vz v)).
Definition vrow (v : v3 Qc) : list Qc := [vx v; vy v; vz v].

Lemma asfarray_fmt (vs : list (v3 Qc)) :
  asfarray (map (fun v => [fmt16 (vx v); fmt16 (vy v); fmt16 (vz v)]) vs) = Ok (map (fun v => vrow (vrnd v)) vs).
Proof.
  unfold asfarray.
  assert (E : mapM parse_row (map (fun v => [fmt16 (vx v); fmt16 (vy v); fmt16 (vz v)]) vs) = Ok (map (fun v => vrow (vrnd v)) vs)).
  { induction vs as [|v vs IH]; [reflexivity|]. cbn [map mapM]. rewrite parse_row_fmt. cbn [bind]. rewrite IH. reflexivity. }
  rewrite E. cbn [bind].
  assert (R : rectangular (map (fun v => vrow (vrnd v)) vs) = true).
  { destruct vs as [|v vs]; [reflexivity|]. cbn. apply forallb_forall. intros x Hx. apply in_map_iff in Hx as (u & <- & _). reflexivity. }
  now rewrite R.
Qed.

Lemma rows3_vrow vs : rows3 (map (fun v => vrow (vrnd v)) vs) = Some (map vrnd vs).
Proof. induction vs as [|v vs IH]; [reflexivity|]. cbn [map rows3]. rewrite IH. reflexivity. Qed.

Lemma scale_rows_1 m : scale_rows 1 m = m.
Proof.
  unfold scale_rows. rewrite <- (map_id m) at 2. apply map_ext. intros r. rewrite <- (map_id r) at 2. apply map_ext. intros x. apply Qcmult_1_r.
Qed.

(** * Selections *)
Definition all_below (n : nat) : list nat := seq 0 n.
Definition sel_indices (tr : list Z) (n : nat) : list nat := filter (in_sel tr) (seq 0 n).

Lemma indices_where_map {B} (f : nat * B -> string) (p : string -> bool) (g : nat -> bool) (l : list B) i :
  (forall j b, In b l -> p (f (j, b)) = g j) ->
  map fst (filter (fun iv => p (snd iv)) (enumerate_from i (map f (enumerate_from i l)))) = filter g (seq i (length l)).
Proof.
  revert i. induction l as [|b l IH]; intros i H; [reflexivity|].
  cbn [enumerate_from map filter length seq snd]. rewrite (H i b (or_introl eq_refl)).
  destruct (g i); cbn [map fst]; rewrite IH by (intros; apply H; right; assumption); reflexivity.
Qed.

Lemma existsb_map_enum {B} (f : nat * B -> string) (p : string -> bool) (g : nat -> bool) (l : list B) i :
  (forall j b, In b l -> p (f (j, b)) = g j) ->
  existsb p (map f (enumerate_from i l)) = existsb g (seq i (length l)).
Proof.
  revert i. induction l as [|b l IH]; intros i H; [reflexivity|].
  cbn [enumerate_from map existsb length seq]. rewrite (H i b (or_introl eq_refl)), IH; [reflexivity|].
  intros; apply H; right; assumption.
Qed.

Lemma py_slice_all {A} (pre l : list A) : py_slice (pre ++ l) (length pre) (Z.of_nat (length pre) + Z.of_nat (length l)) = l.
Proof.
  unfold py_slice. replace (_ <? 0)%Z with false by (symmetry; apply Z.ltb_ge; lia).
  replace (Z.to_nat _) with (length l) by lia. rewrite skipn_app, skipn_all, Nat.sub_diag. cbn. apply firstn_all.
Qed.
Lemma py_slice_mid {A} (pre l post : list A) : py_slice (pre ++ l ++ post) (length pre) (Z.of_nat (length pre) + Z.of_nat (length l)) = l.
Proof.
  unfold py_slice. replace (_ <? 0)%Z with false by (symmetry; apply Z.ltb_ge; lia).
  replace (Z.to_nat _) with (length l) by lia. rewrite skipn_app, skipn_all, Nat.sub_diag. cbn.
  rewrite firstn_app, firstn_all, Nat.sub_diag. cbn. apply app_nil_r.
Qed.

Lemma py_slice_ge {A} (pre l : list A) b : (Z.of_nat (length pre) + Z.of_nat (length l) <= b)%Z -> py_slice (pre ++ l) (length pre) b = l.
Proof.
  intros H. unfold py_slice. replace (_ <? 0)%Z with false by (symmetry; apply Z.ltb_ge; lia).
  rewrite skipn_app, skipn_all, Nat.sub_diag. cbn. apply firstn_all2. lia.
Qed.

(** strictly increasing lists are fixed by py_sorted *)
Lemma py_sorted_sorted l : StronglySorted Z.le l -> py_sorted l = l.
Proof.
  induction l as [|a l IH]; intros H; [reflexivity|]. inversion H as [|? ? Hl Ha]; subst.
  unfold py_sorted in *. cbn [fold_right]. rewrite IH by exact Hl. destruct l as [|b l]; [reflexivity|].
  cbn [insert_sorted]. inversion Ha as [|? ? Hab _]; subst. replace (a <=? b)%Z with true by (symmetry; apply Z.leb_le; exact Hab).
  reflexivity.
Qed.
Lemma seq_sorted n : forall i, StronglySorted Z.le (map Z.of_nat (seq i n)).
Proof.
  induction n as [|n IH]; intros i; cbn [seq map]; constructor; auto.
  apply Forall_forall. intros z Hz. apply in_map_iff in Hz as (k & <- & Hk). apply in_seq in Hk. lia.
Qed.
Lemma filter_sorted (g : nat -> bool) l : StronglySorted Z.le (map Z.of_nat l) -> StronglySorted Z.le (map Z.of_nat (filter g l)).
Proof.
  induction l as [|a l IH]; intros H; cbn [filter]; [constructor|].
  cbn [map] in H. inversion H as [|? ? Hl Ha]; subst. destruct (g a); [|auto].
  cbn [map]. constructor; [auto|]. rewrite Forall_forall in *. intros z Hz. apply Ha.
  apply in_map_iff in Hz as (k & <- & Hk). apply filter_In in Hk as (Hk & _). apply in_map_iff. eauto.
Qed.
Lemma xyz_sorted l : StronglySorted Z.le (map Z.of_nat l) -> StronglySorted Z.le (map Z.of_nat (xyz_of l)).
Proof.
  unfold xyz_of. induction l as [|a l IH]; intros H; cbn [flat_map app map]; [constructor|].
  cbn [map] in H. inversion H as [|? ? Hl Ha]; subst. specialize (IH Hl).
  assert (F : Forall (Z.le (Z.of_nat a)) (map Z.of_nat (flat_map (fun i => [i; i; i]) l))).
  { rewrite Forall_forall in *. intros z Hz. apply in_map_iff in Hz as (k & <- & Hk).
    apply in_flat_map in Hk as (b & Hb & Hk). apply Ha. apply in_map_iff. exists k. split; [reflexivity|].
    cbn in Hk. destruct Hk as [<-|[<-|[<-|[]]]]; exact Hb. }
  repeat (constructor; [|repeat (constructor; [lia|]); exact F]). exact IH.
Qed.

(** * What [read_unit_cell] stores when the reader returned a consistent tuple *)
Lemma assign_rd L ty num sel vs tr :
  0 < length vs -> length ty = length vs -> fold_right Z.add 0%Z num = Z.of_nat (length vs) ->
  StronglySorted Z.le (map Z.of_nat tr) -> Forall (fun i => i < length vs) tr ->
  assign_all cell_init (rd_ops (mkRd (map (fun v => vrow (vrnd v)) [r1 L; r2 L; r3 L]) ty num sel "cartesian"
                                     (map (fun v => vrow (vrnd v)) vs) tr (xyz_of tr)))
  = (mkCell (Some (M3 (vrnd (r1 L)) (vrnd (r2 L)) (vrnd (r3 L)))) (Some ty) (Some num) sel (Some Cartesian)
            (Some (map vrnd vs)) (Some (map Z.of_nat tr)) (Some (map Z.of_nat (xyz_of tr))) None, None).
Proof.
  intros H0 Hl Hs Ht Hr. unfold rd_ops. cbn [rd_lat rd_type rd_num rd_sel rd_coord rd_cart rd_true rd_xyz].
  cbn [assign_all run_op]. unfold set_lattice. cbn [map mat33 row3 vrow].
  unfold set_atom_type; cbn [c_cart cell_init].
  unfold set_num_atom; cbn [c_cart]. unfold set_selective; cbn [c_lat c_type c_num c_sel c_coord c_cart c_true c_xyz c_mass].
  unfold set_coordinate. cbn [Ascii.eqb Bool.eqb orb c_lat c_type c_num c_sel c_coord c_cart c_true c_xyz c_mass].
  unfold set_atom_cart. rewrite rows3_vrow. cbn [c_type c_lat c_num c_sel c_coord c_cart c_true c_xyz c_mass].
  unfold shape_ok. rewrite map_length, Hl, Nat.eqb_refl, (proj2 (Nat.ltb_lt _ _) H0). cbn [andb].
  unfold set_atom_true, put_cart. cbn [c_type c_lat c_num c_sel c_coord c_cart c_true c_xyz c_mass].
  assert (IR : forallb (in_range (length ty)) (map Z.of_nat tr) = true).
  { apply forallb_forall. intros z Hz. apply in_map_iff in Hz as (k & <- & Hk). rewrite Forall_forall in Hr. specialize (Hr _ Hk).
    unfold in_range. apply andb_true_iff. split; [apply Z.leb_le|apply Z.ltb_lt]; lia. }
  rewrite IR. unfold set_xyz_true. cbn [c_type c_lat c_num c_sel c_coord c_cart c_true c_xyz c_mass].
  rewrite (py_sorted_sorted _ Ht).
  assert (IX : forallb (fun z => existsb (Z.eqb z) (map Z.of_nat tr)) (map Z.of_nat (xyz_of tr)) = true).
  { apply forallb_forall. intros z Hz. apply existsb_exists. exists z. split; [|apply Z.eqb_refl].
    apply in_map_iff in Hz as (k & <- & Hk). apply in_flat_map in Hk as (b & Hb & Hk). apply in_map_iff. exists k. split; [reflexivity|].
    cbn in Hk. destruct Hk as [<-|[<-|[<-|[]]]]; exact Hb. }
  rewrite IX. rewrite (py_sorted_sorted _ (xyz_sorted _ Ht)). reflexivity.
Qed.
