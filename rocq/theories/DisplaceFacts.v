(** Proofs about displaced supercells (model: Displace.v). *)
From Coq Require Import String Ascii ZArith Arith Bool Lia List Field.
From Verif Require Import Base Dec Field Args Cell Super SuperFacts Displace.
Import ListNotations.
Local Open Scope list_scope.
Local Open Scope nat_scope.

Section S.
  Context {A : Type} {F : Fld A}.
  Add Field fld_A4 : (@f_theory A F).

  (** [ps] is [cur] with atom [k] moved to [v] and nothing else changed. *)
  Definition moved_one (cur ps : list (v3 A)) (k : nat) (v : v3 A) : Prop :=
    length ps = length cur /\ nth_error ps k = Some v /\
    forall m, m <> k -> nth_error ps m = nth_error cur m.

  Lemma moved_one_set_nth cur k v : k < length cur -> moved_one cur (set_nth k v cur) k v.
  Proof.
    intros H. split; [apply set_nth_length|]. split; [apply set_nth_same, H|].
    intros m Hm. apply set_nth_other. congruence.
  Qed.

  Fixpoint exp_dirs (s : cell A) cur i r d (dirs : list (v3 A)) (num : nat) : list (out A) :=
    match dirs with
    | [] => []
    | dir :: rest =>
        mkOut (suffix (num + 1)) forward (put_cart s (set_nth i (vadd r (vscale d dir)) cur)) ::
        mkOut (suffix (num + 2)) backward (put_cart s (set_nth i (vsub r (vscale d dir)) cur)) ::
        exp_dirs s cur i r d rest (num + 2)
    end.

  Lemma put_cart_twice s p q : put_cart (put_cart (A:=A) s p) q = put_cart s q.
  Proof. reflexivity. Qed.

  Lemma displace_dirs_ok s cur at_ i r d dirs : forall num w,
    np_index (length cur) at_ = Ok i -> nth_error cur i = Some r ->
    exists w', displace_dirs (put_cart s (set_nth i w cur)) cur at_ d dirs num
      = Ok (put_cart s (set_nth i w' cur), exp_dirs s cur i r d dirs num)
      /\ w' = match rev dirs with [] => w | dir :: _ => vsub r (vscale d dir) end.
  Proof.
    induction dirs as [|dir dirs IH]; intros num w Hi Hr.
    - exists w. split; reflexivity.
    - cbn [displace_dirs]. unfold displace_pair. rewrite Hi. cbn [bind]. unfold py_nth. rewrite Hr.
      cbn [of_option bind c_cart]. change (c_cart (put_cart s (set_nth i w cur))) with (Some (set_nth i w cur)). cbn [of_option bind]. cbv zeta.
      rewrite !put_cart_twice, !set_nth_twice.
      destruct (IH (num + 2) (vsub r (vscale d dir)) Hi Hr) as (w' & E & Ew).
      rewrite E. cbn [bind]. exists w'. split; [reflexivity|].
      rewrite Ew. cbn [rev]. destruct (rev dirs) as [|x l]; reflexivity.
  Qed.

  (** Offset (in displaced pairs) of target number [t]. *)
  Fixpoint pair_count {B} (l : list (B * list (v3 A))) : nat :=
    match l with [] => 0 | (_, dirs) :: r => length dirs + pair_count r end.

  Fixpoint exp_atoms (s : cell A) cur d (l : list (nat * list (v3 A))) (num : nat) : list (out A) :=
    match l with
    | [] => []
    | (i, dirs) :: rest =>
        exp_dirs s cur i (nth i cur v3z) d dirs num ++ exp_atoms s cur d rest (num + 2 * length dirs)
    end.

  Lemma displace_atoms_ok s cur d l : forall num l' p0,
    Forall2 (fun '(at_, dirs) '(i, dirs') => np_index (length cur) at_ = Ok i /\ i < length cur /\ dirs = dirs') l l' ->
    exists p', displace_atoms (put_cart s p0) cur d l num = Ok (put_cart s p', exp_atoms s cur d l' num)
      /\ p' = match rev l' with
              | [] => p0
              | (i, dirs) :: _ => match rev dirs with
                                  | [] => cur
                                  | dir :: _ => set_nth i (vsub (nth i cur v3z) (vscale d dir)) cur
                                  end
              end.
  Proof.
    induction l as [|[at_ dirs] l IH]; intros num l' p0 H; inversion H as [|? [i dirs'] ? l2 H1 H2]; subst.
    - exists p0. split; reflexivity.
    - destruct H1 as (Hi & Hlt & <-). cbn [displace_atoms exp_atoms].
      assert (Hr : nth_error cur i = Some (nth i cur v3z)) by (apply nth_error_nth'; exact Hlt).
      rewrite put_cart_twice.
      destruct (displace_dirs_ok s cur at_ i (nth i cur v3z) d dirs num (nth i cur v3z) Hi Hr) as (w' & E & Ew).
      rewrite (set_nth_id i _ cur Hr) in E. rewrite E. cbn [bind].
      destruct (IH (num + 2 * length dirs) l2 (set_nth i w' cur) H2) as (p' & E2 & Ep).
      rewrite E2. cbn [bind]. exists p'. split; [reflexivity|]. rewrite Ep.
      cbn [rev]. destruct (rev l2) as [|[i2 d2] t] eqn:R; cbn [app]; [|reflexivity].
      rewrite Ew. destruct (rev dirs); [apply set_nth_id, Hr|reflexivity].
  Qed.

  Lemma exp_dirs_length s cur i r d dirs num : length (exp_dirs s cur i r d dirs num) = 2 * length dirs.
  Proof. revert num; induction dirs as [|x l IH]; intros num; cbn [exp_dirs length]; [reflexivity|]. rewrite IH; lia. Qed.
  Lemma exp_atoms_length s cur d l num : length (exp_atoms s cur d l num) = 2 * pair_count l.
  Proof.
    revert num; induction l as [|[i dirs] l IH]; intros num; cbn [exp_atoms pair_count]; [reflexivity|].
    rewrite app_length, exp_dirs_length, IH. lia.
  Qed.

  Lemma exp_dirs_nth s cur i r d dirs : forall num j dir, nth_error dirs j = Some dir ->
    nth_error (exp_dirs s cur i r d dirs num) (2 * j) =
      Some (mkOut (suffix (num + 2 * j + 1)) forward (put_cart s (set_nth i (vadd r (vscale d dir)) cur))) /\
    nth_error (exp_dirs s cur i r d dirs num) (2 * j + 1) =
      Some (mkOut (suffix (num + 2 * j + 2)) backward (put_cart s (set_nth i (vsub r (vscale d dir)) cur))).
  Proof.
    induction dirs as [|x l IH]; intros num [|j] dir H; cbn in H; try discriminate.
    - injection H as ->. cbn [exp_dirs]. replace (2 * 0) with 0 by lia. cbn [nth_error Nat.add].
      replace (num + 0 + 1) with (num + 1) by lia. replace (num + 0 + 2) with (num + 2) by lia. split; reflexivity.
    - cbn [exp_dirs]. replace (2 * S j) with (S (S (2 * j))) by lia. cbn [Nat.add nth_error].
      destruct (IH (num + 2) j dir H) as (E1 & E2).
      replace (num + S (S (2 * j)) + 1) with (num + 2 + 2 * j + 1) by lia.
      replace (num + S (S (2 * j)) + 2) with (num + 2 + 2 * j + 2) by lia.
      split; [exact E1|exact E2].
  Qed.

  Lemma exp_atoms_nth s cur d l : forall num t i dirs j dir,
    nth_error l t = Some (i, dirs) -> nth_error dirs j = Some dir ->
    let k := 2 * (pair_count (firstn t l) + j) in
    nth_error (exp_atoms s cur d l num) k =
      Some (mkOut (suffix (num + k + 1)) forward (put_cart s (set_nth i (vadd (nth i cur v3z) (vscale d dir)) cur))) /\
    nth_error (exp_atoms s cur d l num) (k + 1) =
      Some (mkOut (suffix (num + k + 2)) backward (put_cart s (set_nth i (vsub (nth i cur v3z) (vscale d dir)) cur))).
  Proof.
    induction l as [|[i0 dirs0] l IH]; intros num [|t] i dirs j dir Ht Hj; cbn in Ht; try discriminate.
    - injection Ht as -> ->. cbn [firstn pair_count exp_atoms]. cbn zeta.
      assert (Hlt : j < length dirs) by (apply nth_error_Some; congruence).
      destruct (exp_dirs_nth s cur i (nth i cur v3z) d dirs num j dir Hj) as (E1 & E2).
      replace (2 * (0 + j)) with (2 * j) by lia.
      rewrite !nth_error_app1 by (rewrite exp_dirs_length; lia). split; assumption.
    - cbn [firstn pair_count exp_atoms]. cbn zeta.
      destruct (IH (num + 2 * length dirs0) t i dirs j dir Ht Hj) as (E1 & E2). cbn zeta in E1, E2.
      rewrite !nth_error_app2 by (rewrite exp_dirs_length; lia). rewrite exp_dirs_length.
      set (c := pair_count (firstn t l)) in *.
      replace (2 * (length dirs0 + c + j) - 2 * length dirs0) with (2 * (c + j)) by lia.
      replace (2 * (length dirs0 + c + j) + 1 - 2 * length dirs0) with (2 * (c + j) + 1) by lia.
      replace (num + 2 * (length dirs0 + c + j) + 1) with (num + 2 * length dirs0 + 2 * (c + j) + 1) by lia.
      replace (num + 2 * (length dirs0 + c + j) + 2) with (num + 2 * length dirs0 + 2 * (c + j) + 2) by lia.
      split; assumption.
  Qed.

  (** All suffixes are consecutive. *)
  Lemma exp_dirs_suffix s cur i r d dirs : forall num k o,
    nth_error (exp_dirs s cur i r d dirs num) k = Some o -> o_suffix o = suffix (num + k + 1).
  Proof.
    induction dirs as [|x l IH]; intros num k o H; [destruct k; discriminate|].
    destruct k as [|[|k]]; cbn [exp_dirs nth_error] in H.
    - injection H as <-. cbn [o_suffix]. f_equal. lia.
    - injection H as <-. cbn [o_suffix]. f_equal. lia.
    - apply IH in H. rewrite H. f_equal. lia.
  Qed.
  Lemma exp_atoms_suffix s cur d l : forall num k o,
    nth_error (exp_atoms s cur d l num) k = Some o -> o_suffix o = suffix (num + k + 1).
  Proof.
    induction l as [|[i dirs] l IH]; intros num k o H; [destruct k; discriminate|].
    cbn [exp_atoms] in H. destruct (lt_dec k (length (exp_dirs s cur i (nth i cur v3z) d dirs num))) as [Hk|Hk].
    - rewrite nth_error_app1 in H by exact Hk. eapply exp_dirs_suffix; eauto.
    - rewrite nth_error_app2 in H by lia. apply IH in H. rewrite H. rewrite exp_dirs_length in Hk. rewrite exp_dirs_length.
      f_equal. lia.
  Qed.

  (** Hypotheses on the process state before writing: the supercell has
      [n * E] atoms, [E] copies per unit-cell atom. *)
  Record ready (s : cell A) (ar : args) (cur : list (v3 A)) (E n : nat) : Prop := {
    rd_cart : c_cart s = Some cur;
    rd_len : length cur = n * E;
    rd_type : forall t, c_type s = Some t -> length t = n * E;
    rd_E : exists enl pbc, a_enl ar = Some enl /\ a_pbc ar = Some pbc /\ enlarge enl pbc = Ok (Z.of_nat E);
    rd_pos : 0 < E }.

  Definition targets_ok (n : nat) (targets : list (Z * list (v3 A))) : Prop :=
    Forall (fun '(a, _) => 0 <= a < Z.of_nat n)%Z targets.

  Lemma np_index_nonneg len k : k < len -> np_index len (Z.of_nat k) = Ok k.
  Proof.
    intros H. unfold np_index. destruct (Z.leb_spec 0 (Z.of_nat k)); [|lia].
    destruct (Z.ltb_spec (Z.of_nat k) (Z.of_nat len)); [|lia]. now rewrite Nat2Z.id.
  Qed.

  Lemma write_displaced_ok s ar cur E n d targets :
    ready s ar cur E n -> targets_ok n targets ->
    exists s',
      write_displaced s ar (Some d) targets =
        Ok (s', exp_atoms (set_selective s false) cur d (map (fun '(a, dirs) => (E * Z.to_nat a, dirs)) targets) 0) /\
      s' = match rev targets with
           | [] => set_selective s false
           | (a, dirs) :: _ =>
               put_cart (set_selective s false)
                 (match rev dirs with
                  | [] => cur
                  | dir :: _ => set_nth (E * Z.to_nat a) (vsub (nth (E * Z.to_nat a) cur v3z) (vscale d dir)) cur
                  end)
           end.
  Proof.
    intros [Hc Hl Ht (enl & pbc & He & Hp & HE) Hpos] Hok.
    unfold write_displaced. cbv zeta. change (c_cart (set_selective s false)) with (c_cart s). rewrite Hc. cbn [of_option bind].
    rewrite He, Hp. cbn [of_option bind]. rewrite HE. cbn [bind].
    destruct targets as [|tg tgs]; [exists (set_selective s false); split; reflexivity|].
    set (targets := tg :: tgs) in *.
    assert (CO : cart_ok (set_selective s false) cur = true).
    { unfold cart_ok. cbn. destruct (c_type s) as [t|] eqn:Et; [|reflexivity].
      apply Nat.eqb_eq. rewrite Hl. symmetry. apply Ht; reflexivity. }
    change (tg :: tgs) with targets.
    assert (Hs : set_selective s false = put_cart (set_selective s false) cur).
    { unfold put_cart, set_selective. cbn. rewrite <- Hc. reflexivity. }
    rewrite CO. cbn [negb of_option bind].
    assert (F2 : Forall2 (fun '(at_, dirs) '(i, dirs') => np_index (length cur) at_ = Ok i /\ i < length cur /\ dirs = dirs')
      (map (fun '(i, dirs) => (Z.of_nat E * i, dirs)%Z) targets)
      (map (fun '(a, dirs) => (E * Z.to_nat a, dirs)) targets)).
    { clear Hs CO. induction targets as [|[a dirs] l IH]; cbn [map]; constructor.
      - inversion Hok as [|? ? Ha _]; subst.
        assert (LT : E * Z.to_nat a < length cur).
        { rewrite Hl. replace (n * E) with (E * n) by lia. apply Nat.mul_lt_mono_pos_l; lia. }
        split; [|split; [exact LT|reflexivity]].
        replace (Z.of_nat E * a)%Z with (Z.of_nat (E * Z.to_nat a)) by lia.
        apply np_index_nonneg, LT.
      - apply IH. inversion Hok; assumption. }
    destruct (displace_atoms_ok (set_selective s false) cur d _ 0 _ cur F2) as (p' & E1 & E2).
    rewrite <- Hs in E1. rewrite E1. eexists. split; [reflexivity|].
    rewrite E2, <- map_rev. destruct (rev targets) as [|[a dirs] r] eqn:R; cbn [map].
    - apply (f_equal (@rev _)) in R. rewrite rev_involutive in R. discriminate.
    - reflexivity.
  Qed.
End S.

(** ** file names *)
Local Open Scope string_scope.

Lemma pad4_digits n : all_digits (pad4 n) = true /\ digits_val 0 (pad4 n) = Z.of_nat n.
Proof.
  unfold pad4. destruct (nat_digits_spec (Z.of_nat n) ltac:(lia)) as (H1 & H2 & _). cbn zeta.
  rewrite all_digits_app, zeros_digits, H1. split; [reflexivity|].
  rewrite digits_val_app, zeros_val. exact H2.
Qed.
Lemma pad4_length n : (0 < n < 10 ^ 4)%Z -> String.length (pad4 (Z.to_nat n)) = 4.
Proof.
  intros H. unfold pad4. cbn zeta. rewrite string_app_length, zeros_length.
  pose proof (nat_digits_length (Z.of_nat (Z.to_nat n)) 4 ltac:(lia)). lia.
Qed.
Lemma pad4_inj n m : pad4 n = pad4 m -> n = m.
Proof.
  intros H. destruct (pad4_digits n) as (_ & H1). destruct (pad4_digits m) as (_ & H2).
  rewrite H in H1. lia.
Qed.
Lemma suffix_inj n m : suffix n = suffix m -> n = m.
Proof. unfold suffix. cbn. intros H. injection H as H. now apply pad4_inj. Qed.
Lemma suffix_order n m : (0 < Z.of_nat n < 10 ^ 4)%Z -> (0 < Z.of_nat m < 10 ^ 4)%Z ->
  (str_lt (suffix n) (suffix m) <-> n < m).
Proof.
  intros Hn Hm. unfold suffix.
  assert (G : str_lt ("-" ++ pad4 n) ("-" ++ pad4 m) <-> str_lt (pad4 n) (pad4 m)).
  { cbn. split; [intros H; inversion H; subst; [lia|assumption]|apply str_lt_tail]. }
  rewrite G. destruct (pad4_digits n) as (D1 & V1). destruct (pad4_digits m) as (D2 & V2).
  rewrite digits_lex; auto.
  - rewrite V1, V2. lia.
  - pose proof (pad4_length _ Hn) as L1. pose proof (pad4_length _ Hm) as L2. rewrite Nat2Z.id in L1, L2. congruence.
Qed.
(** file 10000 sorts before every file 1001..9999 *)
Lemma suffix_overflow m : (1000 < Z.of_nat m < 10 ^ 4)%Z -> str_lt (suffix (Z.to_nat 10000)) (suffix m).
Proof.
  intros Hm. unfold suffix. cbn [append]. apply str_lt_tail.
  assert (E : pad4 (Z.to_nat 10000) = "1000" ++ "0").
  { unfold pad4. rewrite Z2Nat.id by lia. vm_compute. reflexivity. }
  rewrite E. assert (E2 : pad4 m = pad4 m ++ "").
  { generalize (pad4 m). induction s as [|c s IH]; cbn; [reflexivity|]. now rewrite <- IH. }
  rewrite E2. destruct (pad4_digits m) as (D2 & V2).
  assert (L : String.length (pad4 m) = 4) by (pose proof (pad4_length (Z.of_nat m) ltac:(lia)) as L2; rewrite Nat2Z.id in L2; exact L2).
  apply str_lt_app_r; [|rewrite L; reflexivity].
  apply digits_lex; auto. rewrite V2. vm_compute. apply Hm.
Qed.
