(** Property theorems: what the texts of the options mean to the analyses (C84, C85).
    Model: Cli.v. *)
From Coq Require Import String Ascii ZArith QArith Qcanon Bool Lia Arith List Permutation Sorted.
From Verif Require Import Base Dec Args ArgsFacts PropsArgs Field Cell Displace DisplaceFacts Text TextFacts TextRound Weight Cli PropsCli.
Import ListNotations.
Local Open Scope list_scope.
Local Open Scope nat_scope.

(** * Specification *)
(** the environment that [res] leaves differs from [e] in one variable *)
Definition sets (e : env) (res : result env) (x : string) (v : pyval) : Prop :=
  exists e', res = Ok e' /\ e' x = v /\ forall y, y <> x -> e' y = e y.
(** the words of a text, as numbers *)
Definition int_words (s : string) (l : list Z) : Prop := Forall2 (fun w z => parse_int w = Some z) (split_ws s) l.
Definition float_words (s : string) (l : list Qc) : Prop := Forall2 (fun w z => parse_float w = Some z) (split_ws s) l.
(** a text and its parts between commas *)
Definition comma_parts (s : string) (parts : list string) : Prop :=
  parts <> [] /\ Forall (fun p => free "," p = true) parts /\ s = String.concat "," parts.

Definition float_options : list (string * string) := [("sigma", "sigma"); ("sig", "sigma")]%string.
Definition int_options : list (string * string) :=
  [("number_dos", "num_dos"); ("ndos", "num_dos"); ("temperature_minimum", "tmin"); ("tmin", "tmin");
   ("temperature_maximum", "tmax"); ("tmax", "tmax"); ("temperature_step", "tstep"); ("tstep", "tstep")]%string.
Definition choice_options : list (list string * string * list string) :=
  [ (["dft"; "dft_code"], "dft", ["vasp"; "espresso"; "aims"]);
    (["projection_option_dos"; "option_dos"], "option_dos", ["plain"; "line"; "stack"]);
    (["image_orientation_dos"; "orientation_dos"], "orientation_dos", ["horizontal"; "vertical"]);
    (["legend_location_dos"; "legend_loc_dos"], "legend_loc_dos",
       ["best"; "upper right"; "upper left"; "lower left"; "lower right"; "right"; "center left"; "center right"; "lower center"; "upper center"; "center"]);
    (["projection_option_band"; "option_band"], "option_band", ["plain"; "projection"]);
    (["colorbar_location_band"; "bar_loc_band"], "bar_loc_band", ["right"; "bottom"]) ]%string.
Definition text_options : list (list string * string) :=
  [ (["displacement"; "disp"], "displacement"); (["enlargement"; "enlarge"], "enlargement"); (["periodicity"; "pbc"], "periodicity");
    (["unitcell"; "c"], "unitcell"); (["supercell"; "sc"], "supercell"); (["kpoint_dos"; "kdos"], "kpoint_dos");
    (["projection_atom_dos"; "atom_dos"], "atom_dos"); (["projection_legend_dos"; "legend_dos"], "legend_dos");
    (["energy_limit"; "elimit"], "elimit"); (["tdos_color_dos"; "color_dos"], "color_dos");
    (["kpoint_band"; "kband"], "kpoint_band"); (["kpoint_label_band"; "k_label_band"], "k_label_band");
    (["projection_atom_band"; "atom_band"], "atom_band"); (["total_color_band"; "color_band"], "color_band");
    (["colorbar_label_band"; "bar_label_band"], "bar_label_band"); (["index_mode"; "ind_mode"], "ind_mode");
    (["k_point_mode"; "kpt_mode"], "kpt_mode"); (["displacement_amplitude_mode"; "disp_amp_mode"], "disp_amp_mode") ]%string.

(** * C84: the meaning of one assignment in the option file *)
Lemma one_entry e lines k v : entries lines [(k, v)] ->
  with_option_file e (Some lines) = apply_option e (k, v).
Proof.
  intro H. unfold with_option_file. rewrite (entries_read lines [] _ H). cbn. destruct (apply_option e (k, v)); reflexivity.
Qed.
Lemma upd_sets e x v : sets e (Ok (upd e x v)) x v.
Proof.
  exists (upd e x v). unfold upd. rewrite String.eqb_refl. split; [reflexivity|]. split; [reflexivity|].
  intros y N. destruct (String.eqb_spec y x); [contradiction|reflexivity].
Qed.
Lemma mem_string_iff s l : mem_string s l = true <-> In s l.
Proof.
  unfold mem_string. rewrite existsb_exists. split.
  - intros (x & I1 & E). apply String.eqb_eq in E. now subst.
  - intro I1. exists s. split; [exact I1|apply String.eqb_refl].
Qed.

Theorem option_assignment_meaning : forall (e : env) (lines : list string) (k v : string),
  entries lines [(k, v)] ->
  let res := with_option_file e (Some lines) in
  (forall x, In (k, x) float_options ->
     match parse_float v with Some q => sets e res x (VFloat q) | None => res = Err EValue end) /\
  (forall x, In (k, x) int_options ->
     match parse_int v with Some z => sets e res x (VInt z) | None => res = Err EValue end) /\
  (forall ks x l, In (ks, x, l) choice_options -> In k ks ->
     (In v l -> sets e res x (VStr v)) /\ (~ In v l -> res = Err EExc)) /\
  (forall ks x, In (ks, x) text_options -> In k ks -> sets e res x (VStr v)) /\
  ((forall x, ~ In (k, x) float_options) -> (forall x, ~ In (k, x) int_options) ->
   (forall ks x l, In (ks, x, l) choice_options -> ~ In k ks) -> (forall ks x, In (ks, x) text_options -> ~ In k ks) ->
   res = Ok e).
Proof.
  intros e lines k v EN res. subst res. rewrite (one_entry e lines k v EN). clear EN.
  split; [|split; [|split; [|split]]].
  - intros x I1. assert (F : find_option k option_table = Some ("sigma"%string, AsFloat) /\ x = "sigma"%string).
    { repeat (destruct I1 as [E|I1]; [injection E as <- <-; split; reflexivity|]). destruct I1. }
    destruct F as [F ->]. unfold apply_option. cbn [fst snd]. rewrite F. cbn [convert].
    destruct (parse_float v); cbn [of_option bind]; [apply upd_sets|reflexivity].
  - intros x I1. assert (F : find_option k option_table = Some (x, AsInt)).
    { repeat (destruct I1 as [E|I1]; [injection E as <- <-; reflexivity|]). destruct I1. }
    unfold apply_option. cbn [fst snd]. rewrite F. cbn [convert].
    destruct (parse_int v); cbn [of_option bind]; [apply upd_sets|reflexivity].
  - intros ks x l I1 K. assert (F : find_option k option_table = Some (x, Choice l)).
    { repeat (destruct I1 as [E|I1]; [injection E as <- <- <-; repeat (destruct K as [<-|K]; [reflexivity|]); destruct K|]). destruct I1. }
    unfold apply_option. cbn [fst snd]. rewrite F. cbn [convert].
    destruct (mem_string v l) eqn:M.
    + split; [intros _; apply upd_sets|]. intro N. apply mem_string_iff in M. contradiction.
    + split; [|reflexivity]. intro N. apply mem_string_iff in N. congruence.
  - intros ks x I1 K. assert (F : find_option k option_table = Some (x, AsStr)).
    { repeat (destruct I1 as [E|I1]; [injection E as <- <-; repeat (destruct K as [<-|K]; [reflexivity|]); destruct K|]). destruct I1. }
    unfold apply_option. cbn [fst snd]. rewrite F. apply upd_sets.
  - intros NF NI NC NT. unfold apply_option. cbn [fst snd].
    destruct (find_option k option_table) as [[x c]|] eqn:F; [exfalso|reflexivity].
    apply find_option_table in F as (ks & IT & IK).
    assert (G : forall t, In (ks, x, c) t ->
      Forall (fun r => match r with (ks, x, AsStr) => In (ks, x) text_options
                              | (ks, x, AsFloat) => forall k, In k ks -> In (k, x) float_options
                              | (ks, x, AsInt) => forall k, In k ks -> In (k, x) int_options
                              | (ks, x, Choice l) => In (ks, x, l) choice_options end) t ->
      match c with AsStr => In (ks, x) text_options | AsFloat => forall k, In k ks -> In (k, x) float_options
                 | AsInt => forall k, In k ks -> In (k, x) int_options | Choice l => In (ks, x, l) choice_options end).
    { intros t I1 FA. rewrite Forall_forall in FA. specialize (FA _ I1). cbn in FA. destruct c; exact FA. }
    assert (FA : Forall (fun r => match r with (ks, x, AsStr) => In (ks, x) text_options
                              | (ks, x, AsFloat) => forall k, In k ks -> In (k, x) float_options
                              | (ks, x, AsInt) => forall k, In k ks -> In (k, x) int_options
                              | (ks, x, Choice l) => In (ks, x, l) choice_options end) option_table).
    { unfold option_table. repeat (apply Forall_cons); try apply Forall_nil.
      all: cbv beta iota.
      all: first [ intros k0 K0; cbn in K0; destruct K0 as [<-|[<-|[]]]; solve [repeat (first [left; reflexivity | right])]
                 | solve [repeat (first [left; reflexivity | right])] ]. }
    specialize (G _ IT FA). destruct c.
    + exact (NT _ _ G IK).
    + exact (NF _ (G _ IK)).
    + exact (NI _ (G _ IK)).
    + exact (NC _ _ _ G IK).
Qed.
Print Assumptions option_assignment_meaning.

Example option_assignment_witness :
  entries ["  NDOS = 300  # points"]%string [("ndos", "300")]%string /\ In ("ndos", "num_dos")%string int_options /\
  entries ["option_dos=area"]%string [("option_dos", "area")]%string /\
  with_option_file default_env (Some ["option_dos=area"]%string) = Err EExc.
Proof.
  split; [apply entries_set; [vm_compute; reflexivity|constructor]|]. split; [right; left; reflexivity|].
  split; [apply entries_set; [vm_compute; reflexivity|constructor]|vm_compute; reflexivity].
Qed.

(** * C85: the arguments of the analyses *)
Lemma split_on_ne c s : split_on c s <> [].
Proof. destruct (split_on_head c s) as (r & ->). discriminate. Qed.
Lemma split_on_concat parts : parts <> [] -> Forall (fun p => free "," p = true) parts ->
  split_on "," (String.concat "," parts) = parts.
Proof.
  induction parts as [|p r IH]; intros N F; [contradiction|]. inversion F as [|? ? F1 F2]; subst.
  destruct r as [|p2 r]; [cbn; now apply split_on_free|].
  change (String.concat "," (p :: p2 :: r)) with (p ++ "," ++ String.concat "," (p2 :: r))%string.
  change ("," ++ String.concat "," (p2 :: r))%string with (String "," (String.concat "," (p2 :: r))).
  rewrite split_on_app by exact F1. f_equal. now apply IH.
Qed.
Lemma free_cons c a s : free c (String a s) = (negb (Ascii.eqb a c) && free c s)%bool.
Proof. reflexivity. Qed.
Lemma ws_free w : all_ws w = true -> free "," w = true.
Proof.
  induction w as [|c w IH]; [reflexivity|]. cbn [all_ws]. intro H. apply andb_true_iff in H as [H1 H2]. rewrite free_cons, (IH H2), andb_true_r.
  destruct (Ascii.eqb_spec c ","); [subst; discriminate|reflexivity].
Qed.

Lemma split_on_ws_l w s : all_ws w = true -> map strip (split_on "," (w ++ s)) = map strip (split_on "," s).
Proof.
  intro H. induction w as [|c w IH]; [reflexivity|]. cbn [all_ws] in H. apply andb_true_iff in H as [H1 H2]. specialize (IH H2).
  cbn [append split_on]. destruct (Ascii.eqb_spec c ","); [subst; discriminate|].
  destruct (split_on "," (w ++ s)) as [|p r] eqn:E; [destruct (split_on_ne _ _ E)|]. rewrite <- IH. cbn [map]. f_equal.
  apply (strip_ws_l (String c "")). cbn. now rewrite H1.
Qed.
Lemma split_on_ws_r w s : all_ws w = true -> map strip (split_on "," (s ++ w)) = map strip (split_on "," s).
Proof.
  intro H. induction s as [|c s IH].
  - cbn [append]. rewrite (split_on_free "," w (ws_free w H)). cbn [split_on map]. now rewrite (strip_all_ws w H).
  - cbn [append split_on]. destruct (Ascii.eqb c ","); [cbn [map]; now rewrite IH|].
    assert (HD : exists p r1 r2, split_on "," (s ++ w) = (p ++ (if free "," s then w else ""))%string :: r1 /\ split_on "," s = p :: r2 /\ map strip r1 = map strip r2).
    { clear IH. induction s as [|a s IH].
      - cbn [append]. exists ""%string, [], []. rewrite (split_on_free "," w (ws_free w H)). auto.
      - rewrite free_cons. cbn [append split_on]. destruct (Ascii.eqb a ",") eqn:A.
        + cbn [negb andb]. exists ""%string, (split_on "," (s ++ w)), (split_on "," s). cbn [append].
          split; [reflexivity|]. split; [reflexivity|]. destruct IH as (p & r1 & r2 & -> & -> & E). cbn [map]. rewrite E. f_equal.
          destruct (free "," s); [now apply strip_ws_r|now rewrite string_app_nil_r].
        + destruct IH as (p & r1 & r2 & -> & -> & E). cbn [negb andb]. exists (String a p), r1, r2. auto. }
    destruct HD as (p & r1 & r2 & -> & -> & E). cbn [map]. rewrite E. f_equal.
    destruct (free "," s); [apply (strip_ws_r (String c p) w H)|now rewrite string_app_nil_r].
Qed.
Lemma strip_decomp s : exists w1 w2, s = (w1 ++ strip s ++ w2)%string /\ all_ws w1 = true /\ all_ws w2 = true.
Proof.
  destruct (lstrip_decomp' s) as (w1 & E1 & H1). destruct (lstrip_decomp' (rev_string (lstrip s))) as (w2 & E2 & H2).
  exists w1, (rev_string w2). split; [|split; [exact H1|now rewrite all_ws_rev]].
  rewrite E1 at 1. f_equal. rewrite <- (rev_string_involutive (lstrip s)). rewrite E2, rev_string_app. reflexivity.
Qed.
Lemma comma_parts_split s parts : comma_parts s parts -> map strip (split_on "," (strip s)) = map strip parts.
Proof.
  intros (N & F & E). destruct (strip_decomp s) as (w1 & w2 & D & H1 & H2).
  rewrite <- (split_on_concat parts N F), <- E. rewrite D at 2. now rewrite split_on_ws_l, split_on_ws_r.
Qed.
Lemma Forall2_weaken {A B} (P Q : A -> B -> Prop) l l' : (forall a b, P a b -> Q a b) -> Forall2 P l l' -> Forall2 Q l l'.
Proof. intros H F. induction F; constructor; auto. Qed.
Lemma ints_spec s l : ints s = Ok l <-> int_words s l.
Proof.
  unfold ints, int_words. rewrite split_ws_strip, mapM_ok_Forall2. split; intro H; (eapply Forall2_weaken; [|exact H]); intros w z; cbn.
  - destruct (parse_int w); cbn; congruence.
  - intros ->. reflexivity.
Qed.
Lemma ints_error s e : ints s = Err e -> e = EValue.
Proof.
  unfold ints. generalize (split_ws (strip s)). induction l as [|w l IH]; cbn; [discriminate|].
  destruct (parse_int w); cbn; [|congruence]. destruct (mapM _ l); cbn; [discriminate|]. intro H. apply IH. congruence.
Qed.
Lemma group_spec s parts l : comma_parts s parts ->
  (mapM ints (split_on "," (strip s)) = Ok l <-> Forall2 int_words parts l).
Proof.
  intro C. apply comma_parts_split in C. revert l.
  assert (G : forall p, int_words p = int_words (strip p)) by (intro p; unfold int_words; now rewrite split_ws_strip).
  assert (K : forall (a b : list string), map strip a = map strip b -> forall l, Forall2 int_words a l -> Forall2 int_words b l).
  { intros a. induction a as [|x a IH]; intros [|y b] E l H; try discriminate; [exact H|]. injection E as E1 E2.
    inversion H; subst. constructor; [rewrite G, <- E1, <- G; assumption|]. now apply IH. }
  intro l. rewrite mapM_ok_Forall2. split; intro H.
  - apply (K _ _ C). eapply Forall2_weaken; [|exact H]. intros a b. apply (proj1 (ints_spec a b)).
  - apply (K _ _ (eq_sym C)) in H. eapply Forall2_weaken; [|exact H]. intros a b. apply (proj2 (ints_spec a b)).
Qed.

(** "a b c" of range(a, b, c): the temperatures a, a + c, a + 2 c, ... before b *)
Lemma range3_spec a b c l : range3 a b c = Ok l ->
  c <> 0%Z /\
  (forall T, In T l <-> exists i : nat, T = (a + Z.of_nat i * c)%Z /\ ((0 < c -> T < b) /\ (c < 0 -> b < T))%Z) /\
  StronglySorted (fun s t => (0 < c -> s < t) /\ (c < 0 -> t < s))%Z l.
Proof.
  unfold range3. destruct (Z.eqb_spec c 0) as [|NZ]; [discriminate|]. intro H.
  set (n := (if (0 <? c)%Z then (b - a + c - 1) / c else (a - b - c - 1) / - c)%Z) in *.
  injection H as <-. split; [exact NZ|].
  assert (K : forall i : nat, i < Z.to_nat n <-> ((0 < c -> a + Z.of_nat i * c < b) /\ (c < 0 -> b < a + Z.of_nat i * c))%Z).
  { intro i. subst n. destruct (0 <? c)%Z eqn:S; [apply Z.ltb_lt in S|apply Z.ltb_ge in S].
    - pose proof (Z.div_mod (b - a + c - 1) c ltac:(lia)) as D. pose proof (Z.mod_pos_bound (b - a + c - 1) c S) as M.
      set (q := ((b - a + c - 1) / c)%Z) in *. set (r := ((b - a + c - 1) mod c)%Z) in *. clearbody q r. split.
      + intro L. split; [|lia]. intros _. assert (Z.of_nat i + 1 <= q)%Z by lia.
        assert (c * (Z.of_nat i + 1) <= c * q)%Z by (apply Z.mul_le_mono_nonneg_l; lia). lia.
      + intros [L _]. specialize (L S). assert (~ (q <= Z.of_nat i)%Z); [|lia]. intro Q.
        assert (c * q <= c * Z.of_nat i)%Z by (apply Z.mul_le_mono_nonneg_l; lia). lia.
    - assert (S' : (0 < - c)%Z) by lia.
      pose proof (Z.div_mod (a - b - c - 1) (- c) ltac:(lia)) as D. pose proof (Z.mod_pos_bound (a - b - c - 1) (- c) S') as M.
      set (q := ((a - b - c - 1) / - c)%Z) in *. set (r := ((a - b - c - 1) mod - c)%Z) in *. clearbody q r. split.
      + intro L. split; [lia|]. intros _. assert (Z.of_nat i + 1 <= q)%Z by lia.
        assert (- c * (Z.of_nat i + 1) <= - c * q)%Z by (apply Z.mul_le_mono_nonneg_l; lia). lia.
      + intros [_ L]. specialize (L ltac:(lia)). assert (~ (q <= Z.of_nat i)%Z); [|lia]. intro Q.
        assert (- c * q <= - c * Z.of_nat i)%Z by (apply Z.mul_le_mono_nonneg_l; lia). lia. }
  split.
  - intro T. rewrite in_map_iff. split.
    + intros (i & <- & I1). apply in_seq in I1. exists i. split; [reflexivity|]. apply K. lia.
    + intros (i & -> & C). exists i. split; [reflexivity|]. apply in_seq. apply K in C. lia.
  - generalize (Z.to_nat n) as m, 0 as s. induction m as [|m IH]; intro s; cbn [seq map]; constructor; [apply IH|].
    apply Forall_forall. intros t I1. apply in_map_iff in I1 as (j & <- & I1). apply in_seq in I1. 
    assert (0 < Z.of_nat j - Z.of_nat s)%Z by lia. 
    assert ((Z.of_nat j * c - Z.of_nat s * c = (Z.of_nat j - Z.of_nat s) * c)%Z) by ring. split; intro P.
    + assert (0 < (Z.of_nat j - Z.of_nat s) * c)%Z by (apply Z.mul_pos_pos; lia). lia.
    + assert ((Z.of_nat j - Z.of_nat s) * c < 0)%Z by (apply Z.mul_pos_neg; lia). lia.
Qed.
Lemma merge_other e r x : mem_string x ["unitcell"; "supercell"; "dft"; "sym"; "displacement"; "enlargement"; "periodicity"]%string = false ->
  merge_record e r x = e x.
Proof.
  intro N. destruct (record_precedence e r x) as (_ & _ & _ & _ & _ & _ & P). apply P. intro I1. apply mem_string_iff in I1. congruence.
Qed.
Lemma plan_stages glob e forces r a sym u s ff d t b m :
  post_plan glob e forces r = Ok (PostPlan a sym u s ff d t b m) ->
  let e' := merge_record e r in
  (forall da k, d = Some (da, k) -> get_dos_args e' = Ok da) /\
  (forall l, t = Some l -> exists t0 t1 t2, e' "tmin"%string = VInt t0 /\ e' "tmax"%string = VInt t1 /\ e' "tstep"%string = VInt t2 /\ range3 t0 t1 t2 = Ok l) /\
  (forall ba k, b = Some (ba, k) -> get_band_args e' (option_map fst d) = Ok ba) /\
  (forall ma, m = Some ma -> get_mode_args e' = Ok ma).
Proof.
  intros H e'. unfold post_plan in H. fold e' in H. destruct (_ && _)%bool; [discriminate|].
  apply bind_ok in H as (ff' & F & H). apply bind_ok in H as (da & Dd & H). apply bind_ok in H as (th & T & H).
  apply bind_ok in H as (ba & B & H). apply bind_ok in H as (ma & M & H). injection H as <- <- <- <- <- <- <- <- <-.
  split; [|split; [|split]].
  - intros d' k E. unfold when in Dd. destruct (truthy (e' "dos"%string) || _)%bool; [|injection Dd as <-; discriminate].
    apply bind_ok in Dd as (x & X & Dd). injection Dd as <-. cbn in E. injection E as <- <-. exact X.
  - intros l E. unfold when in T. destruct (truthy (e' "thermal"%string)); [|injection T as <-; discriminate].
    apply bind_ok in T as (x & X & T). injection T as <-. injection E as <-.
    apply bind_ok in X as (t0 & X0 & X). apply bind_ok in X as (t1 & X1 & X). apply bind_ok in X as (t2 & X2 & X). apply bind_ok in X as (l & X3 & X).
    assert (x = l) by (destruct (_ || _)%bool; [congruence|discriminate]). subst l.
    exists t0, t1, t2. unfold as_int in *.
    destruct (e' "tmin"%string); try discriminate. destruct (e' "tmax"%string); try discriminate. destruct (e' "tstep"%string); try discriminate.
    injection X0 as ->. injection X1 as ->. injection X2 as ->. auto.
  - intros d' k E. unfold when in B. destruct (truthy (e' "band"%string) || _)%bool; [|injection B as <-; discriminate].
    apply bind_ok in B as (x & X & B). injection B as <-. cbn in E. injection E as <- <-.
    replace (option_map fst (option_map (fun d : dos_args => (d, e' "kpoint_dos"%string)) da)) with da by (destruct da; reflexivity). exact X.
  - intros d' E. unfold when in M. destruct (truthy (e' "mode"%string)); [|injection M as <-; discriminate].
    apply bind_ok in M as (x & X & M). injection M as <-. injection E as <-. exact X.
Qed.

(** C85: the temperatures of the thermal stage are tmin, tmin + tstep, tmin + 2 tstep, ..., as far as
    they are below tmax (above it for a negative step), in this order. *)
Theorem thermal_temperatures : forall glob (e : env) forces r a sym u s ff d l b m,
  post_plan glob e forces r = Ok (PostPlan a sym u s ff d (Some l) b m) ->
  exists tmin tmax tstep,
    e "tmin"%string = VInt tmin /\ e "tmax"%string = VInt tmax /\ e "tstep"%string = VInt tstep /\ tstep <> 0%Z /\
    (forall T, In T l <-> exists i : nat, T = (tmin + Z.of_nat i * tstep)%Z /\ ((0 < tstep -> T < tmax) /\ (tstep < 0 -> tmax < T))%Z) /\
    StronglySorted (fun s t => (0 < tstep -> s < t) /\ (tstep < 0 -> t < s))%Z l.
Proof.
  intros glob e forces r a sym u s ff d l b m H. apply plan_stages in H as (_ & H & _). cbv zeta in H.
  destruct (H l eq_refl) as (t0 & t1 & t2 & A & B & C & R). rewrite merge_other in A, B, C by reflexivity.
  exists t0, t1, t2. apply range3_spec in R. tauto.
Qed.
Print Assumptions thermal_temperatures.

Lemma energy_limit_spec v l : energy_limit v = Ok l ->
  (v = VNone /\ l = None) \/ exists s lo hi, v = VStr s /\ int_words s [lo; hi] /\ l = Some [lo; hi].
Proof.
  unfold energy_limit. destruct v; cbn [as_str bind]; intro H; try discriminate; [left; split; congruence|]. rename s into txt.
  right. apply bind_ok in H as (x & X & H). destruct (Nat.eqb_spec (length x) 2) as [L|]; [|discriminate]. injection H as <-.
  destruct x as [|lo [|hi [|]]]; try discriminate. exists txt, lo, hi. apply ints_spec in X. auto.
Qed.
(** C85: the energy window of the plots: none, or exactly two integers; the same for DOS and band. *)
Theorem energy_window : forall glob (e : env) forces r a sym u s ff d t b m,
  post_plan glob e forces r = Ok (PostPlan a sym u s ff d t b m) -> d <> None \/ b <> None ->
  exists w, (forall da k, d = Some (da, k) -> da_elimit da = w) /\ (forall ba k, b = Some (ba, k) -> ba_elimit ba = w) /\
    ((e "elimit"%string = VNone /\ w = None) \/
     exists txt lo hi, e "elimit"%string = VStr txt /\ int_words txt [lo; hi] /\ w = Some [lo; hi]).
Proof.
  intros glob e forces r a sym u s ff d t b m H N. apply plan_stages in H as (D & _ & B & _). cbv zeta in *.
  assert (GD : forall da, get_dos_args (merge_record e r) = Ok da -> energy_limit (e "elimit"%string) = Ok (da_elimit da)).
  { intros da H. unfold get_dos_args in H. do 3 (apply bind_ok in H as (? & _ & H)). apply bind_ok in H as ([? ?] & _ & H).
    apply bind_ok in H as (? & _ & H). apply bind_ok in H as (el & E & H). rewrite merge_other in E by reflexivity. injection H as <-. exact E. }
  assert (GB : forall ba, get_band_args (merge_record e r) (option_map fst d) = Ok ba -> energy_limit (e "elimit"%string) = Ok (ba_elimit ba)).
  { intros ba H. unfold get_band_args in H. apply bind_ok in H as (? & _ & H). apply bind_ok in H as ([? ?] & _ & H).
    apply bind_ok in H as (el & E & H). injection H as <-. cbn [ba_elimit]. destruct d as [[da k]|]; cbn [option_map fst] in E.
    - rewrite merge_other in E by reflexivity. pose proof (GD da (D da k eq_refl)) as G.
      destruct (e "elimit"%string); try (injection E as <-; exact G). rewrite <- E. reflexivity.
    - rewrite merge_other in E by reflexivity. exact E. }
  assert (X : exists w, energy_limit (e "elimit"%string) = Ok w).
  { destruct N as [N|N].
    - destruct d as [[da k]|]; [|contradiction]. exists (da_elimit da). exact (GD da (D da k eq_refl)).
    - destruct b as [[ba k]|]; [|contradiction]. exists (ba_elimit ba). exact (GB ba (B ba k eq_refl)). }
  destruct X as (w & X). exists w. split; [|split].
  - intros da k E. pose proof (GD da (D da k E)). congruence.
  - intros ba k E. pose proof (GB ba (B ba k E)). congruence.
  - apply energy_limit_spec. exact X.
Qed.
Print Assumptions energy_window.

(** C85: the DOS stage. *)
Theorem dos_arguments : forall glob (e : env) forces r a sym u s ff da k t b m,
  post_plan glob e forces r = Ok (PostPlan a sym u s ff (Some (da, k)) t b m) ->
  (forall q, e "sigma"%string = VFloat q -> da_sigma da = q) /\
  (forall n, e "num_dos"%string = VInt n -> da_num da = n) /\
  (e "atom_dos"%string = VNone -> da_atom da = None /\ da_option da = "plain"%string /\ da_legend da = None) /\
  (forall txt, e "atom_dos"%string = VStr txt ->
     VStr (da_option da) = e "option_dos"%string /\
     exists groups, da_atom da = Some groups /\ (forall parts, comma_parts txt parts -> Forall2 int_words parts groups) /\
       (e "legend_dos"%string = VNone \/ da_option da = "plain"%string -> da_legend da = None) /\
       (forall leg parts, e "legend_dos"%string = VStr leg -> da_option da <> "plain"%string -> comma_parts leg parts ->
          da_legend da = Some (map strip parts) /\ length parts = length groups)).
Proof.
  intros glob e forces r a sym u s ff da k t b m H. apply plan_stages in H as (D & _). cbv zeta in D. specialize (D da k eq_refl).
  unfold get_dos_args in D. rewrite !merge_other in D by reflexivity.
  apply bind_ok in D as (sg & S1 & D). apply bind_ok in D as (nm & N1 & D). apply bind_ok in D as (op & O1 & D).
  apply bind_ok in D as ([at_ op2] & A1 & D). apply bind_ok in D as (lg & L1 & D). apply bind_ok in D as (el & E1 & D). injection D as <-.
  cbn [da_sigma da_num da_atom da_option da_legend].
  assert (OP : e "option_dos"%string = VStr op) by (unfold as_str in O1; destruct (e "option_dos"%string); congruence).
  split; [|split; [|split]].
  - intros q E. rewrite E in S1. cbn in S1. congruence.
  - intros n E. rewrite E in N1. cbn in N1. congruence.
  - intro E. rewrite E in A1. injection A1 as <- <-. split; [reflexivity|]. split; [reflexivity|].
    destruct (e "legend_dos"%string); cbn in L1; congruence.
  - intros txt E. rewrite E in A1. cbn [as_str bind] in A1. apply bind_ok in A1 as (gr & G & A1). injection A1 as <- <-.
    split; [now rewrite OP|]. exists gr. split; [reflexivity|]. split; [|split].
    + intros parts C. exact (proj1 (group_spec txt parts gr C) G).
    + intros [N|P].
      * rewrite N in L1. congruence.
      * destruct (e "legend_dos"%string); cbn [as_str bind] in L1; try discriminate; try congruence.
        rewrite P in L1. cbn in L1. congruence.
    + intros leg parts EL NP C. rewrite EL in L1. cbn [as_str bind] in L1. cbv zeta in L1.
      destruct (String.eqb_spec op "plain"); [contradiction|].
      rewrite (comma_parts_split leg parts C) in L1. destruct (Nat.eqb_spec (length (map strip parts)) (length gr)) as [L|]; [|discriminate].
      injection L1 as <-. rewrite map_length in L. auto.
Qed.
Print Assumptions dos_arguments.

(** C85: the band stage. *)
Theorem band_arguments : forall glob (e : env) forces r a sym u s ff d t ba k m,
  post_plan glob e forces r = Ok (PostPlan a sym u s ff d t (Some (ba, k)) m) ->
  (e "atom_band"%string = VNone -> ba_atom ba = None /\ ba_option ba = "plain"%string) /\
  (forall txt, e "atom_band"%string = VStr txt ->
     VStr (ba_option ba) = e "option_band"%string /\ exists l, ba_atom ba = Some l /\ int_words txt l).
Proof.
  intros glob e forces r a sym u s ff d t ba k m H. apply plan_stages in H as (_ & _ & B & _). cbv zeta in B. specialize (B ba k eq_refl).
  unfold get_band_args in B. rewrite !merge_other in B by reflexivity.
  apply bind_ok in B as (op & O1 & B). apply bind_ok in B as ([at_ op2] & A1 & B). apply bind_ok in B as (el & _ & B). injection B as <-.
  cbn [ba_atom ba_option].
  assert (OP : e "option_band"%string = VStr op) by (unfold as_str in O1; destruct (e "option_band"%string); congruence).
  split.
  - intro E. rewrite E in A1. injection A1 as <- <-. auto.
  - intros txt E. rewrite E in A1. cbn [as_str bind] in A1. apply bind_ok in A1 as (gr & G & A1). injection A1 as <- <-.
    split; [now rewrite OP|]. exists gr. split; [reflexivity|]. now apply ints_spec.
Qed.
Print Assumptions band_arguments.

(** C85: the mode stage: mode numbers and exactly three coordinates. *)
Theorem mode_arguments : forall glob (e : env) forces r a sym u s ff d t b ma,
  post_plan glob e forces r = Ok (PostPlan a sym u s ff d t b (Some ma)) ->
  exists ti tk x y z, e "ind_mode"%string = VStr ti /\ int_words ti (ma_index ma) /\
    e "kpt_mode"%string = VStr tk /\ float_words tk [x; y; z] /\ ma_k ma = [x; y; z] /\
    ma_amplitude ma = e "disp_amp_mode"%string /\ (forall n, e "disp_mode"%string = VInt n -> (ma_write ma = true <-> n <> 0%Z)).
Proof.
  intros glob e forces r a sym u s ff d t b ma H. apply plan_stages in H as (_ & _ & _ & M). cbv zeta in M. specialize (M ma eq_refl).
  unfold get_mode_args in M. rewrite !merge_other in M by reflexivity.
  apply bind_ok in M as (ti & T1 & M). apply bind_ok in M as (ind & I1 & M). apply bind_ok in M as (tk & T2 & M). apply bind_ok in M as (kk & K1 & M).
  destruct (Nat.eqb_spec (length kk) 3) as [L|]; [|discriminate]. injection M as <-. destruct kk as [|x [|y [|z [|]]]]; try discriminate.
  exists ti, tk, x, y, z. cbn [ma_index ma_k ma_amplitude ma_write].
  split; [unfold as_str in T1; destruct (e "ind_mode"%string); congruence|]. split; [now apply ints_spec|].
  split; [unfold as_str in T2; destruct (e "kpt_mode"%string); congruence|].
  split; [|split; [reflexivity|split; [reflexivity|]]].
  - unfold float_words. rewrite split_ws_strip in K1. apply (proj1 (mapM_ok_Forall2 _ _ _)) in K1. eapply Forall2_weaken; [|exact K1].
    intros w q. cbn. destruct (parse_float w); cbn; congruence.
  - intros n E. rewrite E. destruct n; cbn; split; congruence.
Qed.
Print Assumptions mode_arguments.

(** C85: an unusable text is refused before anything is computed. *)
Theorem analysis_arguments_refused : forall glob (e : env) f1 f2 fs r,
  e "kpoint_dos"%string <> VNone -> 
  let res := post_plan glob e (f1 :: f2 :: fs) r in
  let sound := exists q n o, e "sigma"%string = VFloat q /\ e "num_dos"%string = VInt n /\ e "option_dos"%string = VStr o in
  (forall txt l, sound -> e "atom_dos"%string = VNone -> e "legend_dos"%string = VNone ->
     e "elimit"%string = VStr txt -> int_words txt l -> length l <> 2 -> res = Err EExc) /\
  (forall txt parts groups leg lparts, sound -> e "atom_dos"%string = VStr txt -> comma_parts txt parts -> Forall2 int_words parts groups ->
     e "legend_dos"%string = VStr leg -> comma_parts leg lparts -> e "option_dos"%string <> VStr "plain" ->
     length lparts <> length parts -> res = Err EExc) /\
  (forall da, get_dos_args (merge_record e r) = Ok da -> truthy (e "thermal"%string) = true ->
     (exists t0, e "tmin"%string = VInt t0) -> (exists t1, e "tmax"%string = VInt t1) -> e "tstep"%string = VInt 0 -> res = Err EValue).
Proof.
  intros glob e f1 f2 fs r KD res sound. subst res sound. unfold post_plan. rewrite !merge_other by reflexivity.
  assert (G : is_none (e "kpoint_dos"%string) = false) by (destruct (e "kpoint_dos"%string); cbn; congruence).
  rewrite G. cbn [andb negb]. rewrite orb_true_r. cbn [bind when].
  split; [|split].
  - intros txt l (q & n & o & Q & N & O) A L E W LEN.
    assert (X : get_dos_args (merge_record e r) = Err EExc); [|now rewrite X].
    unfold get_dos_args. rewrite !merge_other by reflexivity. rewrite Q, N, O, A, L, E. cbn [py_float py_int as_str bind].
    unfold energy_limit. cbn [as_str bind]. apply ints_spec in W. rewrite W. cbn [bind].
    destruct (Nat.eqb_spec (length l) 2); [contradiction|reflexivity].
  - intros txt parts groups leg lparts (q & n & o & Q & N & O) A C W L LC NP LEN.
    assert (X : get_dos_args (merge_record e r) = Err EExc); [|now rewrite X].
    unfold get_dos_args. rewrite !merge_other by reflexivity. rewrite Q, N, O, A, L. cbn [py_float py_int as_str bind].
    apply (proj2 (group_spec txt parts groups C)) in W as W'. rewrite W'. cbn [bind as_str]. cbv zeta. rewrite (comma_parts_split leg lparts LC), map_length.
    destruct (String.eqb_spec o "plain"); [congruence|].
    destruct (Nat.eqb_spec (length lparts) (length groups)) as [E|]; [|reflexivity].
    exfalso. apply LEN. rewrite E. symmetry. clear - W. induction W; cbn; congruence.
  - intros da D T (t0 & T0) (t1 & T1) T2. rewrite D. cbn [bind]. rewrite T, T0, T1, T2. reflexivity.
Qed.
Print Assumptions analysis_arguments_refused.

(** C85: sound texts are accepted. *)
Theorem dos_arguments_accepted : forall (e : env) sigma n o txt parts groups leg lparts lim lo hi,
  e "sigma"%string = VFloat sigma -> e "num_dos"%string = VInt n -> e "option_dos"%string = VStr o -> o <> "plain"%string ->
  e "atom_dos"%string = VStr txt -> comma_parts txt parts -> Forall2 int_words parts groups ->
  e "legend_dos"%string = VStr leg -> comma_parts leg lparts -> length lparts = length parts ->
  e "elimit"%string = VStr lim -> int_words lim [lo; hi] -> e "kpoint_dos"%string <> VNone ->
  e "thermal"%string = VInt 0 -> e "band"%string = VInt 0 -> e "kpoint_band"%string = VNone -> e "mode"%string = VInt 0 ->
  forall glob f1 f2 fs r, exists a sym u s,
    post_plan glob e (f1 :: f2 :: fs) r =
    Ok (PostPlan a sym u s (f1 :: f2 :: fs) (Some (mkDosArgs sigma n o (Some groups) (Some (map strip lparts)) (Some [lo; hi]), e "kpoint_dos"%string)) None None None).
Proof.
  intros e sigma n o txt parts groups leg lparts lim lo hi S N O NP A C W L LC LEN E EW K T B KB M glob f1 f2 fs r.
  assert (X : get_dos_args (merge_record e r) = Ok (mkDosArgs sigma n o (Some groups) (Some (map strip lparts)) (Some [lo; hi]))).
  { unfold get_dos_args. rewrite !merge_other by reflexivity. rewrite S, N, O, A, L. cbn [py_float py_int as_str bind].
    apply (proj2 (group_spec txt parts groups C)) in W as W'. rewrite W'. cbn [bind as_str]. cbv zeta. rewrite (comma_parts_split leg lparts LC), map_length.
    destruct (String.eqb_spec o "plain"); [congruence|].
    assert (LG : length groups = length parts) by (clear - W; induction W; cbn; congruence).
    rewrite LEN, <- LG, Nat.eqb_refl. cbn [bind]. unfold energy_limit. rewrite E. cbn [as_str bind]. apply ints_spec in EW. rewrite EW. reflexivity. }
  unfold post_plan. rewrite !merge_other by reflexivity.
  assert (G : is_none (e "kpoint_dos"%string) = false) by (destruct (e "kpoint_dos"%string); cbn; congruence).
  rewrite G. cbn [andb negb]. rewrite orb_true_r. cbn [bind when]. rewrite X. cbn [bind]. rewrite T, B, KB, M. cbn [truthy is_none negb orb when bind option_map].
  do 4 eexists. reflexivity.
Qed.
Print Assumptions dos_arguments_accepted.

Example dos_arguments_witness :
  comma_parts "1 2 , 3 4" ["1 2 "; " 3 4"]%string /\ Forall2 int_words ["1 2 "; " 3 4"]%string [[1; 2]; [3; 4]]%Z /\
  let e := upd (upd (upd (upd default_env "kpoint_dos" (VStr "K")) "atom_dos" (VStr "1 2 , 3 4")) "legend_dos" (VStr "C, N")) "option_dos" (VStr "line") in
  let r := mkRecord "POSCAR" "SUPERCELL" (VStr "vasp") None (VFloat (Q2Qc (1 # 50))) "2 2 1" "1 1 0" in
  match post_plan (fun _ => []) (upd e "thermal" (VInt 1)) ["a"; "b"]%string r with
  | Ok (PostPlan _ _ _ _ _ (Some (da, _)) (Some l) _ _) =>
      da_atom da = Some [[1; 2]; [3; 4]]%Z /\ da_legend da = Some ["C"; "N"]%string /\ da_option da = "line"%string /\ hd 1%Z l = 0%Z /\ last l 0%Z = 990%Z
  | _ => False
  end /\
  post_plan (fun _ => []) (upd e "legend_dos" (VStr "C")) ["a"; "b"]%string r = Err EExc.
Proof.
  split; [split; [discriminate|split; [repeat constructor|reflexivity]]|].
  split; [repeat constructor|]. split; vm_compute; repeat split.
Qed.
