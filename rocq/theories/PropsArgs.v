(** Property theorems: user arguments (C01-C04, C56).
    Model: Args.v (InterPhon/core/pre_check.py).  Proofs: ArgsFacts.v. *)
From Coq Require Import String Ascii ZArith QArith Qcanon Bool Lia List.
From Verif Require Import Base Args ArgsFacts.
Import ListNotations.
Local Open Scope string_scope.
Local Open Scope list_scope.
Local Open Scope nat_scope.

(** C01. *)
Theorem accepted_arguments_well_formed :
  forall (a : args) (d : list (string * pyval)) (a' : args),
    set_user_arg a d = Ok a' ->
    exists e1 e2 e3 p1 p2 p3 : Z,
      a_enl a' = Some [e1; e2; e3] /\ a_pbc a' = Some [p1; p2; p3] /\
      (forall p, In p [p1; p2; p3] -> p = 0 \/ p = 1)%Z /\
      ((p1 = 0 -> e1 = 1) /\ (p2 = 0 -> e2 = 1) /\ (p3 = 0 -> e3 = 1))%Z.
Proof. exact set_user_arg_wf. Qed.
Print Assumptions accepted_arguments_well_formed.

Example accepted_arguments_witness :
  set_user_arg args_init
    [("enlargement", VSeq [VInt 3; VStr "2"; VInt 1]); ("my periodicity", VStr "T 1 False"); ("displacement", VStr "2e-2"); ("other", VNone)]
  = Ok (mkArgs (Some (Q2Qc (1#50))) (Some [3; 2; 1]%Z) (Some [1; 1; 0]%Z)).
Proof. vm_compute. do 3 f_equal. apply Qc_is_canon. reflexivity. Qed.

(** C02: success.  Tokens are the blank-separated words of the argument string. *)
Theorem canonical_arguments_accepted :
  forall (a : args) (ds es ps : string) (dq : Qc) (e1 e2 e3 : Z) (w1 w2 w3 : string),
    parse_float ds = Some dq ->
    Forall2 (fun w z => parse_int w = Some z) (split_ws es) [e1; e2; e3] ->
    split_ws ps = [w1; w2; w3] ->
    (token_false w1 -> e1 = 1%Z) -> (token_false w2 -> e2 = 1%Z) -> (token_false w3 -> e3 = 1%Z) ->
    set_user_arg a [("displacement", VStr ds); ("enlargement", VStr es); ("periodicity", VStr ps)] =
    Ok (mkArgs (if Qcltb dq (Q2Qc 0) then None else Some dq)
               (Some [e1; e2; e3])
               (Some [flag_of_token w1; flag_of_token w2; flag_of_token w3])).
Proof. exact canonical_success. Qed.
Print Assumptions canonical_arguments_accepted.

(** C02: the flag stored for a token is 0 exactly for tokens starting with 0, F, f. *)
Theorem periodicity_token_meaning :
  forall w, flag_of_token w = 0%Z <->
            exists c r, w = String c r /\ (c = "0" \/ c = "F" \/ c = "f")%char.
Proof. exact flag_of_token_false. Qed.
Print Assumptions periodicity_token_meaning.

(** C02: errors, in the order in which the conditions are looked at. *)
Theorem canonical_arguments_rejected :
  forall (a : args) (ds es ps : string) (dq : Qc),
    parse_float ds = Some dq ->
    let call := set_user_arg a [("displacement", VStr ds); ("enlargement", VStr es); ("periodicity", VStr ps)] in
    ((exists w, In w (split_ws es) /\ parse_int w = None) -> call = Err EValue) /\
    (forall zs, Forall2 (fun w z => parse_int w = Some z) (split_ws es) zs ->
       (List.length zs <> 3 -> call = Err EInsufficientENLARGE) /\
       (List.length zs = 3 -> List.length (split_ws ps) <> 3 -> call = Err EInsufficientPBC) /\
       (List.length zs = 3 -> List.length (split_ws ps) = 3 ->
          (exists i w z, nth_error (split_ws ps) i = Some w /\ token_false w /\
                         nth_error zs i = Some z /\ z <> 1%Z) ->
          call = Err EMismatchENLARGEPBC)).
Proof. exact canonical_errors. Qed.
Print Assumptions canonical_arguments_rejected.

Theorem canonical_bad_displacement_rejected :
  forall a ds e p, parse_float ds = None ->
    set_user_arg a [("displacement", VStr ds); ("enlargement", e); ("periodicity", p)] = Err EValue.
Proof. exact canonical_bad_displacement. Qed.
Print Assumptions canonical_bad_displacement_rejected.

Example canonical_rejected_witness :
  set_user_arg args_init [("displacement", VStr "0.02"); ("enlargement", VStr " 4 4  2"); ("periodicity", VStr "1 1 0")]
  = Err EMismatchENLARGEPBC
  /\ parse_float "0.02" = Some (Q2Qc (1#50))
  /\ Forall2 (fun w z => parse_int w = Some z) (split_ws " 4 4  2") [4; 4; 2]%Z.
Proof. split; [vm_compute; reflexivity|].
  split; [vm_compute; f_equal; apply Qc_is_canon; reflexivity|]. repeat constructor. Qed.

(** C03: after any two histories of (possibly failing) calls on any two objects,
    the next call gives the same object state and the same exception. *)
Theorem arguments_forget_history :
  forall a1 a2 (h1 h2 : list (list (string * pyval))) (d : list (string * pyval)),
    set_user_arg_st (run_history a1 h1) d = set_user_arg_st (run_history a2 h2) d.
Proof. intros. apply set_user_arg_st_indep. Qed.
Print Assumptions arguments_forget_history.

(** C03: link between the mutable-object view and the pure view. *)
Theorem object_view_agrees :
  forall a d a', set_user_arg_st a d = (a', None) <-> set_user_arg a d = Ok a'.
Proof. exact set_user_arg_st_ok. Qed.
Print Assumptions object_view_agrees.

Example history_witness :
  run_history args_init [[("enlargement", VStr "2 2 1"); ("periodicity", VStr "0 0 0")]]
    = mkArgs None (Some [2; 2; 1]%Z) None (* a failed call leaves a half-set object *).
Proof. vm_compute. reflexivity. Qed.

(** C03: order of the displacement and enlargement entries is irrelevant. *)
Theorem displacement_enlargement_order_irrelevant :
  forall a v w r,
    is_ok (set_displacement args_init v) = true ->
    is_ok (set_enlargement args_init w) = true ->
    set_user_arg a (("displacement", v) :: ("enlargement", w) :: r) =
    set_user_arg a (("enlargement", w) :: ("displacement", v) :: r).
Proof. exact disp_enl_commute. Qed.
Print Assumptions displacement_enlargement_order_irrelevant.

(** C56: but the order of periodicity and enlargement matters: periodicity first,
    with a non-periodic direction, always fails with a TypeError. *)
Theorem periodicity_before_enlargement_fails :
  forall a ps e r w,
    In w (split_ws ps) -> token_false w -> List.length (split_ws ps) = 3 ->
    set_user_arg a (("periodicity", VStr ps) :: ("enlargement", e) :: r) = Err EType.
Proof. exact pbc_before_enlargement. Qed.
Print Assumptions periodicity_before_enlargement_fails.

Theorem entry_order_matters_refuted :
  exists v w, is_ok (set_user_arg args_init [("enlargement", v); ("periodicity", w)]) = true /\
              set_user_arg args_init [("periodicity", w); ("enlargement", v)] = Err EType.
Proof. exists (VStr "2 2 1"), (VStr "1 1 0"). vm_compute. split; reflexivity. Qed.

(** C04: a negative displacement is never rejected; it is stored as "not set". *)
Theorem negative_displacement_not_rejected :
  forall a (dq : Qc) e1 e2 e3, (dq < Q2Qc 0)%Qc ->
    set_user_arg a [("displacement", VFloat dq); ("enlargement", VSeq [VInt e1; VInt e2; VInt e3]); ("periodicity", VStr "1 1 1")]
    = Ok (mkArgs None (Some [e1; e2; e3]) (Some [1; 1; 1]%Z)).
Proof.
  intros a dq e1 e2 e3 H. change [("displacement", VFloat dq); ("enlargement", VSeq [VInt e1; VInt e2; VInt e3]); ("periodicity", VStr "1 1 1")]
    with (dict3 (VFloat dq) (VSeq [VInt e1; VInt e2; VInt e3]) (VStr "1 1 1")).
  rewrite dict3_unfold. unfold set_displacement. cbn [py_float bind].
  apply Qcltb_lt in H. rewrite H. reflexivity.
Qed.
Print Assumptions negative_displacement_not_rejected.

(** C04: a non-negative displacement is stored exactly. *)
Theorem nonnegative_displacement_stored :
  forall a (dq : Qc) e1 e2 e3, (Q2Qc 0 <= dq)%Qc ->
    set_user_arg a [("displacement", VFloat dq); ("enlargement", VSeq [VInt e1; VInt e2; VInt e3]); ("periodicity", VStr "1 1 1")]
    = Ok (mkArgs (Some dq) (Some [e1; e2; e3]) (Some [1; 1; 1]%Z)).
Proof.
  intros a dq e1 e2 e3 H. change [("displacement", VFloat dq); ("enlargement", VSeq [VInt e1; VInt e2; VInt e3]); ("periodicity", VStr "1 1 1")]
    with (dict3 (VFloat dq) (VSeq [VInt e1; VInt e2; VInt e3]) (VStr "1 1 1")).
  rewrite dict3_unfold. unfold set_displacement. cbn [py_float bind].
  destruct (Qcltb dq (Q2Qc 0)) eqn:E; [|reflexivity].
  apply Qcltb_lt in E. exfalso. exact (Qcle_not_lt _ _ H E).
Qed.
Print Assumptions nonnegative_displacement_stored.

(** C04: the documented intent ("should be positive") is refuted. *)
Theorem displacement_positive_refuted :
  exists d a', set_user_arg args_init d = Ok a' /\ a_disp a' = None /\ In ("displacement", VStr "-0.02") d.
Proof.
  exists [("displacement", VStr "-0.02"); ("enlargement", VStr "0 -2 1"); ("periodicity", VStr "1 1 0")].
  eexists. split; [vm_compute; reflexivity|]. split; [reflexivity|left; reflexivity].
Qed.
Print Assumptions displacement_positive_refuted.

(** C01-C04: what is stored, for dictionaries of any length and keys.  An entry is about the
    displacement, the enlargement or the periodicity when its key contains that word (the first
    of the three that it contains); the last entry of each kind counts, a negative displacement
    counting as no entry.  Text is read word by word, numbers are truncated towards zero. *)
Definition about_displacement (k : string) : Prop := contains "displacement" k = true.
Definition about_enlargement (k : string) : Prop := ~ about_displacement k /\ contains "enlargement" k = true.
Definition about_periodicity (k : string) : Prop := ~ about_displacement k /\ ~ about_enlargement k /\ contains "periodicity" k = true.
Definition truncates_to (q : Qc) (z : Z) : Prop :=
  ((0 <= q)%Qc -> (inject_Z z <= q < inject_Z (z + 1))%Q) /\ ((q <= 0)%Qc -> (inject_Z (z - 1) < q <= inject_Z z)%Q).
Inductive item_int : pyval -> Z -> Prop :=
| item_VInt : forall z, item_int (VInt z) z
| item_VStr : forall s z, parse_int s = Some z -> item_int (VStr s) z
| item_VFloat : forall q z, truncates_to q z -> item_int (VFloat q) z.
Inductive int_list : pyval -> list Z -> Prop :=
| list_VInt : forall z, int_list (VInt z) [z]
| list_VStr : forall s l, Forall2 (fun w z => parse_int w = Some z) (split_ws s) l -> int_list (VStr s) l
| list_VSeq : forall vs l, Forall2 item_int vs l -> int_list (VSeq vs) l.
Inductive flag_list : pyval -> list Z -> Prop :=
| flags_VStr : forall s l, Forall2 (fun w p => (token_false w /\ p = 0%Z) \/ (~ token_false w /\ p = 1%Z)) (split_ws s) l -> flag_list (VStr s) l.
Definition last_with {A B} (P : A -> Prop) (d : list (A * B)) (v : B) : Prop :=
  exists d1 k d2, d = d1 ++ (k, v) :: d2 /\ P k /\ Forall (fun kv => ~ P (fst kv)) d2.

Lemma truncates_quot q : truncates_to q (Z.quot (Qnum q) (Zpos (Qden q))).
Proof.
  destruct q as [[n d] C]. unfold truncates_to, Qcle. cbn [this Qnum Qden]. unfold Qle, Qlt, inject_Z. cbn [Qnum Qden].
  pose proof (Z.quot_rem' n (Zpos d)) as E. split; intro H.
  - pose proof (Z.rem_bound_pos n (Zpos d)). change (this (Q2Qc 0)) with 0%Q in H. cbn in H. lia.
  - pose proof (Z.rem_nonpos n (Zpos d)) as B2. pose proof (Z.rem_bound_abs n (Zpos d)).
    change (this (Q2Qc 0)) with 0%Q in H. cbn in H. lia.
Qed.
Lemma py_int_item v z : py_int v = Ok z -> item_int v z.
Proof.
  destruct v as [|s|z'|q|l]; cbn; try discriminate.
  - destruct (parse_int s) eqn:E; [|discriminate]. cbn. intro H. injection H as <-. now constructor.
  - intro H. injection H as <-. constructor.
  - intro H. injection H as <-. constructor. apply truncates_quot.
Qed.
Lemma to_int_numpy_list v l : to_int_numpy v = Ok l -> int_list v l.
Proof.
  destruct v as [|s|z|q|vs]; cbn; try discriminate.
  - rewrite split_ws_strip. intro H. apply mapM_ok_Forall2 in H. constructor. clear - H. induction H as [|w z ws zs A _ IH]; constructor; [|exact IH].
    destruct (parse_int w); [now injection A as ->|discriminate].
  - intro H. injection H as <-. constructor.
  - intro H. apply mapM_ok_Forall2 in H. constructor. induction H; constructor; [now apply py_int_item|assumption].
Qed.

Theorem stored_arguments_are_the_last_ones :
  forall (a : args) (d : list (string * pyval)) (a' : args), set_user_arg a d = Ok a' ->
    (exists v l, last_with about_enlargement d v /\ int_list v l /\ List.length l = 3 /\ a_enl a' = Some l) /\
    (exists v l, last_with about_periodicity d v /\ flag_list v l /\ List.length l = 3 /\ a_pbc a' = Some l) /\
    match a_disp a' with
    | Some q => exists d1 k v d2, d = d1 ++ (k, v) :: d2 /\ about_displacement k /\ py_float v = Ok q /\ (0 <= q)%Qc /\
                  Forall (fun kv => about_displacement (fst kv) -> exists q', py_float (snd kv) = Ok q' /\ (q' < 0)%Qc) d2
    | None => Forall (fun kv => about_displacement (fst kv) -> exists q', py_float (snd kv) = Ok q' /\ (q' < 0)%Qc) d
    end.
Proof.
  intros a d a' H. unfold set_user_arg in H. apply bind_ok in H as (a1 & H & C). apply bind_ok in C as ([] & C & E). injection E as ->.
  assert (G : forall d a', set_entries args_init d = Ok a' ->
    match a_enl a' with
    | Some l => exists v, last_with about_enlargement d v /\ int_list v l /\ List.length l = 3
    | None => True end /\
    match a_pbc a' with
    | Some l => exists v, last_with about_periodicity d v /\ flag_list v l /\ List.length l = 3
    | None => True end /\
    match a_disp a' with
    | Some q => exists d1 k v d2, d = d1 ++ (k, v) :: d2 /\ about_displacement k /\ py_float v = Ok q /\ (0 <= q)%Qc /\
                  Forall (fun kv => about_displacement (fst kv) -> exists q', py_float (snd kv) = Ok q' /\ (q' < 0)%Qc) d2
    | None => Forall (fun kv => about_displacement (fst kv) -> exists q', py_float (snd kv) = Ok q' /\ (q' < 0)%Qc) d
    end).
  { clear. assert (SN : forall d a kv, set_entries a (d ++ [kv]) = (let! a' := set_entries a d in set_entry a' kv)).
    { induction d as [|x d IH]; intros a kv; cbn; [destruct (set_entry a kv); reflexivity|]. destruct (set_entry a x); cbn; [apply IH|reflexivity]. }
    assert (LW : forall (P : string -> Prop) d v (kv : string * pyval), ~ P (fst kv) -> last_with P d v -> last_with P (d ++ [kv]) v).
    { intros P d v kv N (d1 & k & d2 & -> & A & B). exists d1, k, (d2 ++ [kv]). rewrite <- app_assoc. split; [reflexivity|]. split; [exact A|].
      apply Forall_app. split; [exact B|]. now repeat constructor. }
    assert (LN : forall (P : string -> Prop) d k (v : pyval), P k -> last_with P (d ++ [(k, v)]) v).
    { intros P d k v K. exists d, k, []. split; [reflexivity|]. split; [exact K|constructor]. }
    induction d as [|[k v] d IH] using rev_ind; intros a' H.
    - cbn in H. injection H as <-. cbn. auto.
    - rewrite SN in H. apply bind_ok in H as (a1 & H & S). specialize (IH a1 H) as (IE & IP & ID).
      assert (DK : ~ about_displacement k -> match a_disp a1 with
        | Some q => exists d1 k0 v0 d2, d ++ [(k, v)] = d1 ++ (k0, v0) :: d2 /\ about_displacement k0 /\ py_float v0 = Ok q /\ (0 <= q)%Qc /\
                  Forall (fun kv => about_displacement (fst kv) -> exists q', py_float (snd kv) = Ok q' /\ (q' < 0)%Qc) d2
        | None => Forall (fun kv => about_displacement (fst kv) -> exists q', py_float (snd kv) = Ok q' /\ (q' < 0)%Qc) (d ++ [(k, v)])
        end).
      { intro N. destruct (a_disp a1) as [q|].
        - destruct ID as (d1 & k0 & v0 & d2 & -> & A & B & Q & F). exists d1, k0, v0, (d2 ++ [(k, v)]). rewrite <- app_assoc.
          repeat split; auto. apply Forall_app. split; [exact F|]. repeat constructor. intro. contradiction.
        - apply Forall_app. split; [exact ID|]. repeat constructor. intro. contradiction. }
      unfold set_entry in S. destruct (contains "displacement" k) eqn:KD.
      + unfold set_displacement in S. apply bind_ok in S as (q & Q & S).
        assert (AD : about_displacement k) by exact KD.
        assert (NE : ~ about_enlargement k) by (intros [X _]; contradiction).
        assert (NP : ~ about_periodicity k) by (intros [X _]; contradiction).
        assert (IE' : match a_enl a1 with Some l => exists v0, last_with about_enlargement (d ++ [(k, v)]) v0 /\ int_list v0 l /\ List.length l = 3 | None => True end).
        { destruct (a_enl a1); [|trivial]. destruct IE as (v0 & A & B). exists v0. split; [apply LW; assumption|exact B]. }
        assert (IP' : match a_pbc a1 with Some l => exists v0, last_with about_periodicity (d ++ [(k, v)]) v0 /\ flag_list v0 l /\ List.length l = 3 | None => True end).
        { destruct (a_pbc a1); [|trivial]. destruct IP as (v0 & A & B). exists v0. split; [apply LW; assumption|exact B]. }
        destruct (Qcltb q (Q2Qc 0)) eqn:L; injection S as <-; cbn [a_enl a_pbc a_disp].
        * split; [exact IE'|]. split; [exact IP'|]. apply Qcltb_lt in L.
          destruct (a_disp a1) as [q1|].
          -- destruct ID as (d1 & k0 & v0 & d2 & -> & A & B & Q1 & F). exists d1, k0, v0, (d2 ++ [(k, v)]). rewrite <- app_assoc.
             repeat split; auto. apply Forall_app. split; [exact F|]. repeat constructor. intros _. exists q. auto.
          -- apply Forall_app. split; [exact ID|]. repeat constructor. intros _. exists q. auto.
        * split; [exact IE'|]. split; [exact IP'|]. exists d, k, v, []. repeat split; auto.
          apply Qcnot_lt_le. intro X. apply Qcltb_lt in X. congruence.
      + assert (ND : ~ about_displacement k) by (unfold about_displacement; congruence). specialize (DK ND).
        destruct (contains "enlargement" k) eqn:KE.
        * assert (AE : about_enlargement k) by (split; [exact ND|exact KE]).
          assert (NP : ~ about_periodicity k) by (intros (_ & X & _); contradiction).
          unfold set_enlargement in S. apply bind_ok in S as (l & L & S). destruct (Nat.eqb_spec (List.length l) 3) as [L3|]; [|discriminate]. injection S as <-. cbn [a_enl a_pbc a_disp].
          split; [|split; [|exact DK]].
          -- exists v. split; [apply LN, AE|]. split; [apply to_int_numpy_list, L|exact L3].
          -- destruct (a_pbc a1); [|trivial]. destruct IP as (v0 & A & B). exists v0. split; [apply LW; assumption|exact B].
        * assert (NE : ~ about_enlargement k) by (intros [_ X]; congruence).
          assert (IE' : match a_enl a1 with Some l => exists v0, last_with about_enlargement (d ++ [(k, v)]) v0 /\ int_list v0 l /\ List.length l = 3 | None => True end).
          { destruct (a_enl a1); [|trivial]. destruct IE as (v0 & A & B). exists v0. split; [apply LW; assumption|exact B]. }
          destruct (contains "periodicity" k) eqn:KP.
          -- unfold set_periodicity in S. destruct v as [|s| | |]; try discriminate. destruct (Nat.eqb_spec (List.length (map flag_of_token (split_ws (strip s)))) 3) as [L3|]; [|discriminate].
             apply bind_ok in S as ([] & _ & S). injection S as <-. cbn [a_enl a_pbc a_disp]. split; [exact IE'|]. split; [|exact DK].
             exists (VStr s). split; [apply LN; split; [exact ND|split; [exact NE|exact KP]]|]. split; [|exact L3].
             constructor. rewrite split_ws_strip. clear. induction (split_ws s) as [|w ws IH]; cbn; constructor; [|exact IH].
             pose proof (flag_of_token_false w) as T. fold (token_false w) in T.
             destruct (Z.eq_dec (flag_of_token w) 0) as [Z0|Z1]; [left; split; [now apply T|exact Z0]|right; split; [now rewrite <- T|]].
             revert Z1. clear. unfold flag_of_token. destruct w as [|c r]; [reflexivity|]. destruct (_ || _ || _)%bool; [congruence|reflexivity].
          -- injection S as <-. split; [exact IE'|]. split; [|exact DK].
             destruct (a_pbc a1); [|trivial]. destruct IP as (v0 & A & B). exists v0. split; [apply LW; [intros (_ & _ & X); cbn in X; congruence|assumption]|exact B]. }
  destruct (G d a' H) as (GE & GP & GD).
  unfold check_user_argument in C. destruct (a_enl a') as [l|]; [|discriminate]. destruct (negb _); [discriminate|]. destruct (a_pbc a') as [p|]; [|discriminate].
  destruct GE as (v & A & B & L). destruct GP as (v' & A' & B' & L'). split; [exists v, l; auto|]. split; [exists v', p; auto|exact GD].
Qed.
Print Assumptions stored_arguments_are_the_last_ones.

Example stored_arguments_witness :
  let d := [("enlargement", VInt 2); ("max displacement", VFloat (Q2Qc (1#10))); ("enlargement", VSeq [VFloat (Q2Qc (-5#2)); VInt 4; VStr "1"]);
            ("periodicity", VStr "1 1 1"); ("displacement", VStr "-1")] in
  set_user_arg args_init d = Err EInsufficientENLARGE /\
  set_user_arg args_init (tl d) = Ok (mkArgs (Some (Q2Qc (1#10))) (Some [-2; 4; 1]%Z) (Some [1; 1; 1]%Z)).
Proof. vm_compute. split; reflexivity. Qed.

(** C01: a bare number is one entry: rejected as an enlargement. *)
Theorem single_number_enlargement_rejected : forall a z r, set_user_arg a (("enlargement", VInt z) :: r) = Err EInsufficientENLARGE.
Proof. reflexivity. Qed.
Print Assumptions single_number_enlargement_rejected.
