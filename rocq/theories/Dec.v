(** Decimal printing of integers (str(n), the digits of '%f') and its inverse
    on the parsing side (Base.digits_val). *)
From Coq Require Import String Ascii ZArith Bool Lia List.
From Verif Require Import Base.
Local Open Scope string_scope.
Local Open Scope Z_scope.

(** part of str(int) and of the formats, e.g. vasp.py 125, pre_process.py 173. *)
Definition dchar (d : Z) : ascii := ascii_of_nat (Z.to_nat (48 + d)).

(** part of str(int), e.g. vasp.py 135, interphon.py 654. *)
Fixpoint dec_digits (fuel : nat) (n : Z) (acc : string) : string :=
  match fuel with
  | O => acc
  | S f => let acc' := String (dchar (n mod 10)) acc in
           if n <? 10 then acc' else dec_digits f (n / 10) acc'
  end.

(** str(n) for n >= 0. *)
(** str(int) of a non-negative number, e.g. vasp.py 135, interphon.py 654. *)
Definition nat_digits (n : Z) : string := dec_digits (S (Z.to_nat (Z.log2 n))) n "".

(** str(n). *)
(** str(int), e.g. interphon.py 654-655, mode.py 104. *)
Definition z_string (n : Z) : string :=
  if n <? 0 then String "-" (nat_digits (- n)) else nat_digits n.

(** Exactly [k] digits of n (most significant first, zero padded). *)
(** the zero padded digits of '{0:0>4}' (pre_process.py 173) and of '{:.16f}' (vasp.py 125). *)
Fixpoint fix_digits (k : nat) (n : Z) (acc : string) : string :=
  match k with
  | O => acc
  | S k' => fix_digits k' (n / 10) (String (dchar (n mod 10)) acc)
  end.

Lemma dchar_val d : 0 <= d < 10 -> is_digit (dchar d) = true /\ digit_val (dchar d) = d.
Proof.
  intros H. assert (C : d = 0 \/ d = 1 \/ d = 2 \/ d = 3 \/ d = 4 \/ d = 5 \/ d = 6 \/ d = 7 \/ d = 8 \/ d = 9) by lia.
  repeat (destruct C as [->|C]; [split; reflexivity|]). subst. split; reflexivity.
Qed.

Lemma digits_val_app a : forall acc b, digits_val acc (a ++ b) = digits_val (digits_val acc a) b.
Proof. induction a as [|c a IH]; intros acc b; cbn; auto. Qed.

Lemma all_digits_app a b : all_digits (a ++ b) = (all_digits a && all_digits b)%bool.
Proof. induction a as [|c a IH]; cbn; [reflexivity|]. rewrite IH. apply andb_assoc. Qed.

Lemma string_app_length a b : String.length (a ++ b) = (String.length a + String.length b)%nat.
Proof. induction a as [|c a IH]; cbn; auto. Qed.

Lemma digits_val_acc s : forall acc, digits_val acc s = acc * 10 ^ Z.of_nat (String.length s) + digits_val 0 s.
Proof.
  induction s as [|c s IH]; intros acc; [cbn; lia|].
  cbn [digits_val String.length]. rewrite IH, (IH (10 * 0 + digit_val c)).
  replace (Z.of_nat (S (String.length s))) with (1 + Z.of_nat (String.length s)) by lia.
  rewrite Z.pow_add_r by lia. change (10 ^ 1) with 10. ring.
Qed.

Lemma digits_val_bounds s : all_digits s = true -> 0 <= digits_val 0 s < 10 ^ Z.of_nat (String.length s).
Proof.
  induction s as [|c s IH]; intros H; [cbn; lia|].
  cbn in H. apply andb_true_iff in H as [Hc Hs]. specialize (IH Hs).
  cbn [digits_val String.length]. rewrite digits_val_acc.
  replace (Z.of_nat (S (String.length s))) with (1 + Z.of_nat (String.length s)) by lia.
  rewrite Z.pow_add_r by lia. change (10 ^ 1) with 10.
  assert (0 <= digit_val c <= 9).
  { unfold is_digit in Hc. apply andb_true_iff in Hc as [H1 H2]. apply Nat.leb_le in H1, H2. unfold digit_val. lia. }
  nia.
Qed.

Lemma dec_digits_spec fuel : forall n acc, 0 <= n < 2 ^ Z.of_nat fuel -> (0 < fuel)%nat ->
  exists d, dec_digits fuel n acc = d ++ acc /\ all_digits d = true /\ digits_val 0 d = n /\ d <> "" /\
    (n <> 0 -> forall c r, d = String c r -> c <> "0"%char).
Proof.
  induction fuel as [|f IH]; intros n acc Hn Hf; [lia|].
  cbn [dec_digits].
  pose proof (Z.mod_pos_bound n 10 ltac:(lia)) as Hm.
  destruct (dchar_val (n mod 10) Hm) as (D1 & D2).
  destruct (Z.ltb_spec n 10) as [Hs|Hs].
  - exists (String (dchar (n mod 10)) ""). cbn [append all_digits digits_val].
    rewrite D1, D2. split; [reflexivity|]. split; [reflexivity|].
    rewrite Z.mod_small by lia. split; [lia|]. split; [discriminate|].
    intros Hn0 c r E. injection E as <- <-. intros C.
    destruct (dchar_val n ltac:(lia)) as (_ & D3). rewrite C in D3. change (digit_val "0") with 0 in D3. lia.
  - assert (Hb : 0 <= n / 10 < 2 ^ Z.of_nat f).
    { split; [apply Z.div_pos; lia|]. apply Z.div_lt_upper_bound; [lia|].
      replace (Z.of_nat (S f)) with (1 + Z.of_nat f) in Hn by lia. rewrite Z.pow_add_r in Hn by lia.
      change (2 ^ 1) with 2 in Hn. nia. }
    assert (Hf' : (0 < f)%nat).
    { destruct f; [|lia]. cbn in Hn. lia. }
    destruct (IH (n / 10) (String (dchar (n mod 10)) acc) Hb Hf') as (d & E & Hd & Hv & Hne & Hz).
    exists (d ++ String (dchar (n mod 10)) ""). split.
    + rewrite E. clear. induction d as [|c d IH]; cbn; [reflexivity|]. now rewrite IH.
    + split; [rewrite all_digits_app, Hd; cbn; now rewrite D1|]. split.
      * rewrite digits_val_app, Hv. cbn [digits_val]. rewrite D2. pose proof (Z.div_mod n 10 ltac:(lia)). lia.
      * split; [destruct d; discriminate|]. intros Hn0 c r Ed. destruct d as [|c' d]; [congruence|].
        cbn in Ed. injection Ed as <- _. eapply Hz; [|reflexivity].
        intros C. pose proof (Z.div_mod n 10 ltac:(lia)). lia.
Qed.

Lemma nat_digits_spec n : 0 <= n ->
  all_digits (nat_digits n) = true /\ digits_val 0 (nat_digits n) = n /\ nat_digits n <> "".
Proof.
  intros Hn. unfold nat_digits.
  destruct (dec_digits_spec (S (Z.to_nat (Z.log2 n))) n "") as (d & E & H1 & H2 & H3 & _); [|lia|].
  - split; [exact Hn|]. destruct (Z.eq_dec n 0) as [->|N0]; [cbn; lia|].
    pose proof (Z.log2_spec n ltac:(lia)). pose proof (Z.log2_nonneg n).
    replace (Z.of_nat (S (Z.to_nat (Z.log2 n)))) with (Z.succ (Z.log2 n)) by lia. lia.
  - rewrite E. assert (X : forall s : string, s ++ "" = s) by (clear; induction s as [|c s IH]; cbn; [reflexivity|now rewrite IH]).
    rewrite X. auto.
Qed.

Lemma nat_digits_head n : 0 < n -> forall c r, nat_digits n = String c r -> c <> "0"%char.
Proof.
  intros Hn. unfold nat_digits.
  destruct (dec_digits_spec (S (Z.to_nat (Z.log2 n))) n "") as (d & E & H1 & H2 & H3 & H4); [|lia|].
  - split; [lia|].
    pose proof (Z.log2_spec n ltac:(lia)). pose proof (Z.log2_nonneg n).
    replace (Z.of_nat (S (Z.to_nat (Z.log2 n)))) with (Z.succ (Z.log2 n)) by lia. lia.
  - rewrite E. assert (X : forall s : string, s ++ "" = s) by (clear; induction s as [|c s IH]; cbn; [reflexivity|now rewrite IH]).
    rewrite X. apply H4. lia.
Qed.

(** Number of digits. *)
Lemma nat_digits_length n k : 0 < n < 10 ^ Z.of_nat k -> (String.length (nat_digits n) <= k)%nat.
Proof.
  intros H. destruct (nat_digits_spec n ltac:(lia)) as (H1 & H2 & H3).
  destruct (nat_digits n) as [|c s] eqn:E; [congruence|].
  pose proof (nat_digits_head n ltac:(lia) c s E) as Hc.
  cbn in H1. apply andb_true_iff in H1 as [Dc Ds].
  cbn [digits_val] in H2. rewrite digits_val_acc in H2.
  pose proof (digits_val_bounds s Ds) as Hb.
  assert (Hd : 1 <= digit_val c).
  { unfold is_digit in Dc. apply andb_true_iff in Dc as [A1 A2]. apply Nat.leb_le in A1, A2.
    unfold digit_val. destruct (Nat.eq_dec (nat_of_ascii c) 48) as [e|ne]; [|lia].
    exfalso. apply Hc. rewrite <- (ascii_nat_embedding c), e. reflexivity. }
  cbn [String.length].
  destruct (le_lt_dec (S (String.length s)) k) as [|Hl]; [assumption|exfalso].
  assert (10 ^ Z.of_nat k <= 10 ^ Z.of_nat (String.length s)) by (apply Z.pow_le_mono_r; lia).
  nia.
Qed.

Lemma fix_digits_spec k : forall n acc, 0 <= n ->
  exists d, fix_digits k n acc = d ++ acc /\ all_digits d = true /\ String.length d = k /\
            digits_val 0 d = n mod 10 ^ Z.of_nat k.
Proof.
  induction k as [|k IH]; intros n acc Hn.
  - exists "". cbn. rewrite Z.mod_1_r. auto.
  - cbn [fix_digits].
    pose proof (Z.mod_pos_bound n 10 ltac:(lia)) as Hm.
    destruct (dchar_val (n mod 10) Hm) as (D1 & D2).
    destruct (IH (n / 10) (String (dchar (n mod 10)) acc)) as (d & E & Hd & Hl & Hv); [apply Z.div_pos; lia|].
    exists (d ++ String (dchar (n mod 10)) ""). split; [|split; [|split]].
    + rewrite E. clear. induction d as [|c d IH]; cbn; [reflexivity|]. now rewrite IH.
    + rewrite all_digits_app, Hd; cbn; now rewrite D1.
    + rewrite string_app_length, Hl. cbn. lia.
    + rewrite digits_val_app, Hv. cbn [digits_val]. rewrite D2.
      replace (Z.of_nat (S k)) with (1 + Z.of_nat k) by lia. rewrite Z.pow_add_r by lia. change (10 ^ 1) with 10.
      rewrite Z.rem_mul_r by lia. lia.
Qed.

Lemma fix_digits_nil k n : 0 <= n -> exists d, fix_digits k n "" = d /\ all_digits d = true /\ String.length d = k /\
   digits_val 0 d = n mod 10 ^ Z.of_nat k.
Proof.
  intros H. destruct (fix_digits_spec k n "" H) as (d & E & H1 & H2 & H3). exists d.
  assert (X : forall s : string, s ++ "" = s) by (clear; induction s as [|c s IH]; cbn; [reflexivity|now rewrite IH]).
  rewrite E, X. auto.
Qed.

(** '0' padding on the left. *)
(** part of the zero padding, pre_process.py 173. *)
Fixpoint zeros (n : nat) : string :=
  match n with O => "" | S m => String "0" (zeros m) end.
Lemma zeros_length n : String.length (zeros n) = n.
Proof. induction n; cbn; auto. Qed.
Lemma zeros_digits n : all_digits (zeros n) = true.
Proof. induction n; cbn; auto. Qed.
Lemma zeros_val n : digits_val 0 (zeros n) = 0.
Proof. induction n; cbn; auto. Qed.

(** Lexicographic order of strings by character code: Python's order on str,
    and the order of a sorted directory listing. *)
(** the order Python uses to sort strings, interphon.py 511. *)
Inductive str_lt : string -> string -> Prop :=
| str_lt_nil c s : str_lt "" (String c s)
| str_lt_head a b s t : (nat_of_ascii a < nat_of_ascii b)%nat -> str_lt (String a s) (String b t)
| str_lt_tail a s t : str_lt s t -> str_lt (String a s) (String a t).

Lemma str_lt_irrefl s : ~ str_lt s s.
Proof.
  induction s as [|c s IH]; intros H; inversion H; subst; [lia|auto].
Qed.
Lemma str_lt_trans a b c : str_lt a b -> str_lt b c -> str_lt a c.
Proof.
  intros H; revert c; induction H; intros u H2; inversion H2; subst; try (constructor; auto; lia).
Qed.
Lemma str_lt_app_l p s t : str_lt s t -> str_lt (p ++ s) (p ++ t).
Proof. intros H. induction p as [|c p IH]; [exact H|]. now apply str_lt_tail. Qed.
Lemma str_lt_app_r s t : str_lt s t -> String.length s = String.length t -> forall x y, str_lt (s ++ x) (t ++ y).
Proof.
  intros H. induction H as [c s|a b s t Hab|a s t H IH]; intros Hl x y; cbn in *; try lia.
  - now apply str_lt_head.
  - apply str_lt_tail. apply IH. lia.
Qed.

Lemma digit_char_lt a b : is_digit a = true -> is_digit b = true ->
  (digit_val a < digit_val b <-> (nat_of_ascii a < nat_of_ascii b)%nat).
Proof. unfold digit_val. intros _ _. lia. Qed.
Lemma digit_char_eq a b : digit_val a = digit_val b -> a = b.
Proof.
  unfold digit_val. intros H. rewrite <- (ascii_nat_embedding a), <- (ascii_nat_embedding b). f_equal. lia.
Qed.

(** On digit strings of equal length lexicographic order is numeric order. *)
Lemma digits_lex s : forall t, all_digits s = true -> all_digits t = true ->
  String.length s = String.length t -> (str_lt s t <-> digits_val 0 s < digits_val 0 t).
Proof.
  induction s as [|a s IH]; intros [|b t] Hs Ht Hl; cbn in Hl; try discriminate.
  - cbn. split; [intros H; inversion H|lia].
  - cbn in Hs, Ht. apply andb_true_iff in Hs as [Da Ds]. apply andb_true_iff in Ht as [Db Dt].
    injection Hl as Hl. specialize (IH t Ds Dt Hl).
    cbn [digits_val]. rewrite (digits_val_acc s), (digits_val_acc t). rewrite Hl.
    pose proof (digits_val_bounds s Ds) as B1. pose proof (digits_val_bounds t Dt) as B2. rewrite Hl in B1.
    split.
    + intros H. inversion H; subst.
      * assert (digit_val a < digit_val b) by (unfold digit_val; lia). nia.
      * apply IH in H1. lia.
    + intros H. destruct (Z.lt_trichotomy (digit_val a) (digit_val b)) as [L|[E|G]].
      * apply str_lt_head. unfold digit_val in L; lia.
      * apply digit_char_eq in E as ->. apply str_lt_tail. apply IH. lia.
      * exfalso. nia.
Qed.
