(** Proofs about the argument object (model: Args.v). *)
From Coq Require Import String Ascii ZArith QArith Qcanon Bool Lia List.
From Verif Require Import Base Args.
Import ListNotations.
Local Open Scope string_scope.
Local Open Scope list_scope.
Local Open Scope nat_scope.

(** ** strings *)
Lemma rev_string_acc_app s acc : rev_string_acc s acc = (rev_string s ++ acc)%string.
Proof.
  unfold rev_string. revert acc.
  assert (G : forall s acc acc', rev_string_acc s (acc ++ acc')%string = (rev_string_acc s acc ++ acc')%string).
  { clear. induction s as [|c s IH]; intros acc acc'; cbn; [reflexivity|].
    rewrite <- IH. reflexivity. }
  intros acc. rewrite <- (G s "" acc). reflexivity.
Qed.

Lemma string_app_nil_r (s : string) : (s ++ "")%string = s.
Proof. induction s as [|c s IH]; cbn; [reflexivity|]. now rewrite IH. Qed.
Lemma string_app_assoc (a b c : string) : (a ++ (b ++ c))%string = ((a ++ b) ++ c)%string.
Proof. induction a as [|x a IH]; cbn; [reflexivity|]. now rewrite IH. Qed.

Lemma rev_string_cons c s : rev_string (String c s) = (rev_string s ++ String c "")%string.
Proof. unfold rev_string at 1. cbn. apply rev_string_acc_app. Qed.

Lemma rev_string_app a b : rev_string (a ++ b)%string = (rev_string b ++ rev_string a)%string.
Proof.
  induction a as [|c a IH].
  - cbn. now rewrite string_app_nil_r.
  - cbn [append]. rewrite !rev_string_cons, IH. now rewrite string_app_assoc.
Qed.

Lemma rev_string_involutive s : rev_string (rev_string s) = s.
Proof.
  induction s as [|c s IH]; [reflexivity|].
  rewrite rev_string_cons, rev_string_app, IH. reflexivity.
Qed.

Lemma lstrip_decomp s : exists w, s = (w ++ lstrip s)%string /\ forall c t, w = (t ++ String c "")%string -> is_ws c = true.
Proof.
  induction s as [|c s (w & Hs & Hw)]; [exists ""; split; [reflexivity|]; intros [] []; discriminate|].
  cbn. destruct (is_ws c) eqn:Hc.
  - exists (String c w). split; [cbn; now rewrite <- Hs|].
    intros c' [|a t] E; cbn in E; injection E as <- E.
    + exact Hc.
    + exact (Hw _ _ E).
  - exists "". split; [reflexivity|]. intros c' [|? ?]; discriminate.
Qed.

Fixpoint all_ws (s : string) : bool :=
  match s with EmptyString => true | String c r => (is_ws c && all_ws r)%bool end.

Lemma lstrip_decomp' s : exists w, s = (w ++ lstrip s)%string /\ all_ws w = true.
Proof.
  induction s as [|c s (w & Hs & Hw)]; [exists ""; split; reflexivity|].
  cbn. destruct (is_ws c) eqn:Hc.
  - exists (String c w). split; [cbn; now rewrite <- Hs|]. cbn. now rewrite Hc.
  - exists "". split; reflexivity.
Qed.

Lemma all_ws_app a b : all_ws (a ++ b)%string = (all_ws a && all_ws b)%bool.
Proof. induction a as [|c a IH]; cbn; [reflexivity|]. rewrite IH. apply andb_assoc. Qed.

Lemma all_ws_rev a : all_ws (rev_string a) = all_ws a.
Proof.
  induction a as [|c a IH]; [reflexivity|].
  rewrite rev_string_cons, all_ws_app, IH. cbn. rewrite andb_true_r. apply andb_comm.
Qed.

Lemma split_ws_ws_app w s : all_ws w = true -> split_ws (w ++ s)%string = split_ws s.
Proof.
  induction w as [|c w IH]; cbn [append]; [reflexivity|]. intros H. cbn in H.
  apply andb_true_iff in H as [Hc Hw]. cbn [split_ws]. rewrite Hc. exact (IH Hw).
Qed.

Lemma split_ws_app_ws s w : all_ws w = true -> split_ws (s ++ w)%string = split_ws s.
Proof.
  intros Hw. induction s as [|c s IH]; cbn [append].
  - rewrite <- (string_app_nil_r w), split_ws_ws_app by exact Hw. reflexivity.
  - cbn [split_ws]. destruct (is_ws c) eqn:Hc; [exact IH|].
    destruct s as [|c' s].
    + cbn [append]. destruct w as [|d w]; [reflexivity|].
      cbn in Hw. apply andb_true_iff in Hw as [Hd Hw]. rewrite Hd.
      rewrite <- (string_app_nil_r (String d w)), split_ws_ws_app; [reflexivity|].
      cbn. now rewrite Hd.
    + cbn [append]. destruct (is_ws c'); cbn [append] in IH; rewrite IH; reflexivity.
Qed.

Lemma split_ws_strip s : split_ws (strip s) = split_ws s.
Proof.
  unfold strip.
  destruct (lstrip_decomp' s) as (w & Hs & Hw).
  destruct (lstrip_decomp' (rev_string (lstrip s))) as (w2 & H2 & Hw2).
  assert (E : lstrip s = (rev_string (lstrip (rev_string (lstrip s))) ++ rev_string w2)%string).
  { rewrite <- rev_string_app, <- H2, rev_string_involutive. reflexivity. }
  transitivity (split_ws (lstrip s)).
  - rewrite E at 2. rewrite split_ws_app_ws by (now rewrite all_ws_rev). reflexivity.
  - rewrite Hs at 2. now rewrite split_ws_ws_app.
Qed.

Lemma split_ws_nonempty s w : In w (split_ws s) -> w <> "".
Proof.
  induction s as [|c s IH]; cbn [split_ws]; [intros []|].
  destruct (is_ws c); [exact IH|].
  destruct s as [|c' s].
  - intros [<-|[]]; discriminate.
  - destruct (is_ws c').
    + intros [<-|H]; [discriminate|]. exact (IH H).
    + destruct (split_ws (String c' s)) as [|v vs].
      * intros [<-|[]]; discriminate.
      * intros [<-|H]; [discriminate|]. apply IH; right; exact H.
Qed.

(** ** state-passing version agrees with the result version *)
Lemma set_entries_st_ok a d a' :
  set_entries_st a d = (a', None) <-> set_entries a d = Ok a'.
Proof.
  revert a; induction d as [|kv d IH]; intros a; cbn.
  - split; intros H; injection H as <-; reflexivity.
  - destruct (set_entry a kv) as [a1|e]; cbn; [apply IH|].
    split; discriminate.
Qed.

Lemma set_user_arg_st_ok a d a' :
  set_user_arg_st a d = (a', None) <-> set_user_arg a d = Ok a'.
Proof.
  unfold set_user_arg_st, set_user_arg, set_user_argument.
  destruct (set_entries_st (initialization a) d) as [a1 [e|]] eqn:E.
  - split; [discriminate|]. intros H. apply bind_ok in H as (a2 & H2 & _).
    apply set_entries_st_ok in H2. congruence.
  - apply set_entries_st_ok in E. rewrite E. cbn.
    destruct (check_user_argument a1) as [u|e]; cbn; split; intros H; inversion H; reflexivity.
Qed.

(** ** well-formedness *)
Definition pbc01 (a : args) : Prop :=
  match a_pbc a with None => True | Some p => Forall (fun v => v = 0%Z \/ v = 1%Z) p end.

Lemma flag_of_token_01 w : flag_of_token w = 0%Z \/ flag_of_token w = 1%Z.
Proof.
  destruct w as [|c w]; cbn; [right; reflexivity|].
  destruct (_ || _)%bool; [left|right]; reflexivity.
Qed.

Lemma set_entry_pbc01 a kv a' : set_entry a kv = Ok a' -> pbc01 a -> pbc01 a'.
Proof.
  destruct kv as [k v]. unfold set_entry.
  destruct (contains "displacement" k); [|destruct (contains "enlargement" k); [|destruct (contains "periodicity" k)]].
  - unfold set_displacement. intros H Ha. apply bind_ok in H as (d & _ & H).
    destruct (Qcltb d _); injection H as <-; exact Ha.
  - unfold set_enlargement. intros H Ha. apply bind_ok in H as (e & _ & H).
    destruct (Nat.eqb _ 3); [|discriminate]. injection H as <-; exact Ha.
  - unfold set_periodicity. destruct v as [|s|z|q|l]; try discriminate.
    destruct (Nat.eqb _ 3); [|discriminate].
    intros H Ha. apply bind_ok in H as (u & _ & H). injection H as <-.
    unfold pbc01; cbn. apply Forall_forall. intros x Hx. apply in_map_iff in Hx as (w & <- & _).
    apply flag_of_token_01.
  - intros H Ha. injection H as <-. exact Ha.
Qed.

Lemma set_entries_pbc01 d a a' : set_entries a d = Ok a' -> pbc01 a -> pbc01 a'.
Proof.
  revert a; induction d as [|kv d IH]; cbn; intros a H Ha.
  - injection H as <-; exact Ha.
  - apply bind_ok in H as (a1 & H1 & H). eapply IH; [exact H|]. eapply set_entry_pbc01; eauto.
Qed.

Lemma len3 {A} (l : list A) : List.length l = 3 -> exists a b c, l = [a; b; c].
Proof.
  destruct l as [|a [|b [|c [|d l]]]]; cbn; intros H; try discriminate.
  exists a, b, c; reflexivity.
Qed.

Lemma check_pbc3 e1 e2 e3 p1 p2 p3 :
  check_pbc_from 0 (Some [e1; e2; e3]) [p1; p2; p3] = Ok tt <->
  ((p1 = 0 -> e1 = 1) /\ (p2 = 0 -> e2 = 1) /\ (p3 = 0 -> e3 = 1))%Z.
Proof.
  cbn.
  destruct (Z.eqb_spec p1 0), (Z.eqb_spec p2 0), (Z.eqb_spec p3 0),
    (Z.eqb_spec e1 1), (Z.eqb_spec e2 1), (Z.eqb_spec e3 1); cbn;
  split; intros H; try discriminate; try reflexivity; try (repeat split; intros; congruence);
  exfalso; destruct H as (H1 & H2 & H3); auto.
Qed.

Lemma check_pbc_err e p ind r :
  check_pbc_from ind (Some e) p = Err r -> ind + List.length p <= List.length e -> r = EMismatchENLARGEPBC.
Proof.
  revert ind; induction p as [|v p IH]; cbn; intros ind H Hl; [discriminate|].
  destruct (Z.eqb v 0); cbn in H.
  - unfold py_nth in H. destruct (nth_error e ind) as [x|] eqn:Hx; cbn in H.
    + destruct (Z.eqb x 1); cbn in H; [|congruence]. eapply IH; [exact H|lia].
    + apply nth_error_None in Hx. lia.
  - eapply IH; [exact H|lia].
Qed.

Lemma check_user_argument_ok a u :
  check_user_argument a = Ok u ->
  exists e1 e2 e3 p1 p2 p3,
    a_enl a = Some [e1; e2; e3] /\ a_pbc a = Some [p1; p2; p3] /\
    ((p1 = 0 -> e1 = 1) /\ (p2 = 0 -> e2 = 1) /\ (p3 = 0 -> e3 = 1))%Z.
Proof.
  unfold check_user_argument. destruct (a_enl a) as [e|]; [|discriminate].
  destruct (Nat.eqb_spec (List.length e) 3) as [He|]; [|discriminate]. cbn [negb].
  destruct (a_pbc a) as [p|]; [|discriminate].
  destruct (Nat.eqb_spec (List.length p) 3) as [Hp|]; [|discriminate]. cbn [negb].
  apply len3 in He as (e1 & e2 & e3 & ->). apply len3 in Hp as (p1 & p2 & p3 & ->).
  intros H. destruct u. exists e1, e2, e3, p1, p2, p3. repeat split; auto.
  all: apply check_pbc3 in H; tauto.
Qed.

Lemma set_user_arg_wf a d a' :
  set_user_arg a d = Ok a' ->
  exists e1 e2 e3 p1 p2 p3,
    a_enl a' = Some [e1; e2; e3] /\ a_pbc a' = Some [p1; p2; p3] /\
    (forall p, In p [p1; p2; p3] -> p = 0 \/ p = 1)%Z /\
    ((p1 = 0 -> e1 = 1) /\ (p2 = 0 -> e2 = 1) /\ (p3 = 0 -> e3 = 1))%Z.
Proof.
  unfold set_user_arg. intros H. apply bind_ok in H as (a1 & H1 & H).
  apply bind_ok in H as (u & H2 & H). injection H as <-.
  apply check_user_argument_ok in H2 as (e1 & e2 & e3 & p1 & p2 & p3 & He & Hp & Hm).
  exists e1, e2, e3, p1, p2, p3. repeat split; auto; try tauto.
  unfold set_user_argument in H1. apply set_entries_pbc01 in H1; [|exact I].
  unfold pbc01 in H1. rewrite Hp in H1. rewrite Forall_forall in H1. exact H1.
Qed.

(** ** history independence *)
Lemma set_user_arg_st_indep a1 a2 d : set_user_arg_st a1 d = set_user_arg_st a2 d.
Proof. reflexivity. Qed.

(** ** the canonical dictionary *)
Definition dict3 (d e p : pyval) : list (string * pyval) :=
  [("displacement", d); ("enlargement", e); ("periodicity", p)].

Lemma dict3_unfold a d e p :
  set_user_arg a (dict3 d e p) =
  (let! a1 := set_displacement args_init d in
   let! a2 := set_enlargement a1 e in
   let! a3 := set_periodicity a2 p in
   let! _ := check_user_argument a3 in Ok a3).
Proof.
  unfold set_user_arg, set_user_argument, dict3. cbn [set_entries set_entry].
  change (contains "displacement" "displacement") with true.
  change (contains "displacement" "enlargement") with false.
  change (contains "enlargement" "enlargement") with true.
  change (contains "displacement" "periodicity") with false.
  change (contains "enlargement" "periodicity") with false.
  change (contains "periodicity" "periodicity") with true.
  unfold initialization.
  destruct (set_displacement args_init d) as [a1|]; cbn [bind]; [|reflexivity].
  destruct (set_enlargement a1 e) as [a2|]; cbn [bind]; [|reflexivity].
  destruct (set_periodicity a2 p) as [a3|]; cbn [bind]; reflexivity.
Qed.

(** flags as booleans: token means False iff its first character is 0, F or f *)
Definition token_false (w : string) : Prop :=
  exists c r, w = String c r /\ (c = "0" \/ c = "F" \/ c = "f")%char.

Lemma flag_of_token_false w : flag_of_token w = 0%Z <-> token_false w.
Proof.
  unfold token_false. destruct w as [|c r]; cbn.
  - split; [discriminate|]. intros (c & r & H & _); discriminate.
  - destruct (Ascii.eqb_spec c "0"), (Ascii.eqb_spec c "F"), (Ascii.eqb_spec c "f"); cbn;
    (split; intros H; [try discriminate; exists c, r; auto | try reflexivity]);
    destruct H as (c' & r' & E & Hc); injection E as -> ->; intuition congruence.
Qed.

Lemma mapM_int_tokens l (zs : list Z) :
  Forall2 (fun w z => parse_int w = Some z) l zs ->
  mapM (fun w => of_option EValue (parse_int w)) l = Ok zs.
Proof.
  intros H. apply mapM_ok_Forall2. induction H as [|w z l zs Hw _ IH]; constructor; auto.
  rewrite Hw; reflexivity.
Qed.

Lemma mapM_int_err l :
  (exists w, In w l /\ parse_int w = None) ->
  mapM (fun w => of_option EValue (parse_int w)) l = Err EValue.
Proof.
  induction l as [|w l IH]; intros (x & Hin & Hx); [destruct Hin|]. cbn.
  destruct (parse_int w) as [z|] eqn:Hw; cbn; [|reflexivity].
  destruct Hin as [->|Hin]; [congruence|].
  rewrite IH by (exists x; auto). reflexivity.
Qed.

Lemma canonical_success a ds es ps dq e1 e2 e3 w1 w2 w3 :
  parse_float ds = Some dq ->
  Forall2 (fun w z => parse_int w = Some z) (split_ws es) [e1; e2; e3] ->
  split_ws ps = [w1; w2; w3] ->
  (token_false w1 -> e1 = 1%Z) -> (token_false w2 -> e2 = 1%Z) -> (token_false w3 -> e3 = 1%Z) ->
  set_user_arg a (dict3 (VStr ds) (VStr es) (VStr ps)) =
  Ok (mkArgs (if Qcltb dq (Q2Qc 0) then None else Some dq)
             (Some [e1; e2; e3])
             (Some [flag_of_token w1; flag_of_token w2; flag_of_token w3])).
Proof.
  intros Hd He Hp H1 H2 H3. rewrite dict3_unfold.
  unfold set_displacement, py_float. rewrite Hd. cbn [of_option bind].
  assert (C : check_pbc_from 0 (Some [e1; e2; e3])
                [flag_of_token w1; flag_of_token w2; flag_of_token w3] = Ok tt).
  { apply check_pbc3. rewrite !flag_of_token_false. auto. }
  destruct (Qcltb dq (Q2Qc 0)); cbn [bind];
  unfold set_enlargement, to_int_numpy; rewrite split_ws_strip, (mapM_int_tokens _ _ He); cbn [bind List.length Nat.eqb];
  unfold set_periodicity; rewrite split_ws_strip, Hp; cbn [map List.length Nat.eqb a_enl];
  rewrite C; cbn [bind]; unfold check_user_argument; cbn [a_enl a_pbc List.length Nat.eqb negb];
  rewrite C; reflexivity.
Qed.

Lemma canonical_errors a ds es ps dq :
  parse_float ds = Some dq ->
  ((exists w, In w (split_ws es) /\ parse_int w = None) ->
     set_user_arg a (dict3 (VStr ds) (VStr es) (VStr ps)) = Err EValue) /\
  (forall zs, Forall2 (fun w z => parse_int w = Some z) (split_ws es) zs ->
     (List.length zs <> 3 -> set_user_arg a (dict3 (VStr ds) (VStr es) (VStr ps)) = Err EInsufficientENLARGE) /\
     (List.length zs = 3 -> List.length (split_ws ps) <> 3 ->
        set_user_arg a (dict3 (VStr ds) (VStr es) (VStr ps)) = Err EInsufficientPBC) /\
     (List.length zs = 3 -> List.length (split_ws ps) = 3 ->
        (exists i w z, nth_error (split_ws ps) i = Some w /\ token_false w /\ nth_error zs i = Some z /\ z <> 1%Z) ->
        set_user_arg a (dict3 (VStr ds) (VStr es) (VStr ps)) = Err EMismatchENLARGEPBC)).
Proof.
  intros Hd.
  assert (U : exists a1, set_displacement args_init (VStr ds) = Ok a1).
  { unfold set_displacement, py_float. rewrite Hd. cbn. destruct (Qcltb dq _); eexists; reflexivity. }
  destruct U as (a1 & U). split.
  - intros Hw. rewrite dict3_unfold, U. cbn [bind]. unfold set_enlargement, to_int_numpy.
    rewrite split_ws_strip, mapM_int_err by exact Hw. reflexivity.
  - intros zs Hz. repeat split.
    + intros Hl. rewrite dict3_unfold, U. cbn [bind]. unfold set_enlargement, to_int_numpy.
      rewrite split_ws_strip, (mapM_int_tokens _ _ Hz). cbn [bind].
      destruct (Nat.eqb_spec (List.length zs) 3); [contradiction|]. reflexivity.
    + intros Hl Hp. rewrite dict3_unfold, U. cbn [bind]. unfold set_enlargement, to_int_numpy.
      rewrite split_ws_strip, (mapM_int_tokens _ _ Hz). cbn [bind]. rewrite Hl. cbn [Nat.eqb bind].
      unfold set_periodicity. rewrite split_ws_strip, map_length.
      destruct (Nat.eqb_spec (List.length (split_ws ps)) 3); [contradiction|]. reflexivity.
    + intros Hl Hp (i & w & z & Hi & Hf & Hzi & Hz1).
      rewrite dict3_unfold, U. cbn [bind]. unfold set_enlargement, to_int_numpy.
      rewrite split_ws_strip, (mapM_int_tokens _ _ Hz). cbn [bind]. rewrite Hl. cbn [Nat.eqb bind].
      unfold set_periodicity. rewrite split_ws_strip, map_length, Hp. cbn [Nat.eqb a_enl].
      destruct (check_pbc_from 0 (Some zs) (map flag_of_token (split_ws ps))) as [u|e] eqn:C.
      * exfalso. apply len3 in Hl as (e1 & e2 & e3 & ->).
        apply len3 in Hp as (w1 & w2 & w3 & Hp). rewrite Hp in *. cbn [map] in C. destruct u.
        apply check_pbc3 in C. rewrite !flag_of_token_false in C. destruct C as (C1 & C2 & C3).
        destruct i as [|[|[|i]]]; cbn in Hi, Hzi; try discriminate;
          try (destruct i; discriminate); injection Hi as ->; injection Hzi as ->; tauto.
      * cbn [bind]. f_equal. eapply check_pbc_err; [exact C|]. rewrite map_length. lia.
Qed.

Lemma canonical_bad_displacement a ds e p :
  parse_float ds = None -> set_user_arg a (dict3 (VStr ds) e p) = Err EValue.
Proof. intros H. rewrite dict3_unfold. unfold set_displacement, py_float. rewrite H. reflexivity. Qed.

(** periodicity given before enlargement *)
Lemma pbc_before_enlargement a ps e r w :
  In w (split_ws ps) -> token_false w -> List.length (split_ws ps) = 3 ->
  set_user_arg a (("periodicity", VStr ps) :: ("enlargement", e) :: r) = Err EType.
Proof.
  intros Hin Hf Hl. unfold set_user_arg, set_user_argument. cbn [set_entries set_entry].
  change (contains "displacement" "periodicity") with false.
  change (contains "enlargement" "periodicity") with false.
  change (contains "periodicity" "periodicity") with true. cbn match.
  unfold set_periodicity at 1. rewrite split_ws_strip, map_length, Hl. cbn [Nat.eqb].
  assert (C : forall l i, In w l -> check_pbc_from i None (map flag_of_token l) = Err EType).
  { clear - Hf. induction l as [|x l IH]; intros i Hi; [destruct Hi|]. cbn.
    destruct (Z.eqb_spec (flag_of_token x) 0) as [E|E]; [reflexivity|]. cbn.
    destruct Hi as [->|Hi]; [exfalso; apply E, flag_of_token_false, Hf|]. exact (IH _ Hi). }
  cbn [initialization args_init a_enl]. rewrite C by exact Hin. reflexivity.
Qed.

(** displacement and enlargement entries commute *)
Lemma disp_enl_commute a v w r :
  is_ok (set_displacement args_init v) = true ->
  is_ok (set_enlargement args_init w) = true ->
  set_user_arg a (("displacement", v) :: ("enlargement", w) :: r) =
  set_user_arg a (("enlargement", w) :: ("displacement", v) :: r).
Proof.
  unfold set_user_arg, set_user_argument. cbn [set_entries set_entry].
  change (contains "displacement" "displacement") with true.
  change (contains "displacement" "enlargement") with false.
  change (contains "enlargement" "enlargement") with true. cbn match.
  unfold initialization, set_displacement, set_enlargement.
  destruct (py_float v) as [q|]; cbn [bind]; [|discriminate].
  destruct (to_int_numpy w) as [e|]; cbn [bind]; [|destruct (Qcltb q _); discriminate].
  destruct (Qcltb q (Q2Qc 0)), (Nat.eqb (List.length e) 3); cbn [bind a_disp a_enl a_pbc args_init]; intros; try discriminate; reflexivity.
Qed.
