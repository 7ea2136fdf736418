(** Property theorems: the command line (C94-C96).  Model: Click.v. *)
From Coq Require Import String Ascii ZArith QArith Qcanon Bool Lia Arith List.
From Verif Require Import Base Dec Args Text Cli Run Click PropsCli PropsOptions.
Import ListNotations.
Local Open Scope list_scope.
Local Open Scope nat_scope.

(** * Specification *)
(** What a value must be. *)
Inductive kind : Type := AnyText | Number | Whole | OneOf (l : list string) | ExistingFile.
(** The manual (docs/source/option_tags.rst): long name, short name, variable, kind of value, default. *)
Definition manual : list (string * string * string * kind * pyval) :=
  [ ("--option_file", "-option", "option_file", ExistingFile, VNone);
    ("--dft_code", "-dft", "dft", OneOf ["vasp"; "espresso"; "aims"], VStr "vasp");
    ("--displacement", "-disp", "displacement", AnyText, VStr "0.02");
    ("--enlargement", "-enlarge", "enlargement", AnyText, VStr "2 2 1");
    ("--periodicity", "-pbc", "periodicity", AnyText, VStr "1 1 0");
    ("--unitcell", "-c", "unitcell", ExistingFile, VStr "POSCAR");
    ("--supercell", "-sc", "supercell", ExistingFile, VNone);
    ("--kpoint_dos", "-kdos", "kpoint_dos", ExistingFile, VNone);
    ("--sigma", "-sig", "sigma", Number, VFloat (Q2Qc (1 # 10)));
    ("--number_dos", "-ndos", "num_dos", Whole, VInt 200);
    ("--projection_atom_dos", "-atom_dos", "atom_dos", AnyText, VNone);
    ("--projection_legend_dos", "-legend_dos", "legend_dos", AnyText, VNone);
    ("--energy_limit", "-elimit", "elimit", AnyText, VNone);
    ("--tdos_color_dos", "-color_dos", "color_dos", AnyText, VStr "tab:orange");
    ("--projection_option_dos", "-option_dos", "option_dos", OneOf ["plain"; "line"; "stack"], VStr "plain");
    ("--image_orientation_dos", "-orientation_dos", "orientation_dos", OneOf ["horizontal"; "vertical"], VStr "horizontal");
    ("--legend_location_dos", "-legend_loc_dos", "legend_loc_dos",
       OneOf ["best"; "upper right"; "upper left"; "lower left"; "lower right"; "right"; "center left"; "center right"; "lower center"; "upper center"; "center"], VStr "best");
    ("--temperature_minimum", "-tmin", "tmin", Whole, VInt 0);
    ("--temperature_maximum", "-tmax", "tmax", Whole, VInt 1000);
    ("--temperature_step", "-tstep", "tstep", Whole, VInt 10);
    ("--kpoint_band", "-kband", "kpoint_band", ExistingFile, VNone);
    ("--kpoint_label_band", "-k_label_band", "k_label_band", AnyText, VNone);
    ("--projection_atom_band", "-atom_band", "atom_band", AnyText, VNone);
    ("--total_color_band", "-color_band", "color_band", AnyText, VStr "tab:orange");
    ("--projection_option_band", "-option_band", "option_band", OneOf ["plain"; "projection"], VStr "plain");
    ("--colorbar_label_band", "-bar_label_band", "bar_label_band", AnyText, VNone);
    ("--colorbar_location_band", "-bar_loc_band", "bar_loc_band", OneOf ["right"; "bottom"], VStr "right");
    ("--index_mode", "-ind_mode", "ind_mode", AnyText, VStr "0");
    ("--k_point_mode", "-kpt_mode", "kpt_mode", AnyText, VStr "0.0 0.0 0.0");
    ("--displacement_amplitude_mode", "-disp_amp_mode", "disp_amp_mode", Number, VFloat (Q2Qc 1)) ]%string.
(** The switches: long name, short name, variable and the value they give it. *)
Definition switches : list (string * string * string * bool) :=
  [ ("--preprocess", "-pre", "process", true); ("--postprocess", "-post", "process", false);
    ("--symmetry_on", "-sym_on", "sym", true); ("--symmetry_off", "-sym_off", "sym", false);
    ("--density_of_state", "-dos", "dos", true); ("--thermal_property", "-thermal", "thermal", true);
    ("--phonon_band", "-band", "band", true); ("--phonon_mode", "-mode", "mode", true); ("--displacement_mode", "-disp_mode", "disp_mode", true) ]%string.
(** their variables without a switch on the command line *)
Definition switch_default : list (string * bool) :=
  [ ("process", true); ("sym", true); ("dos", false); ("thermal", false); ("band", false); ("mode", false); ("disp_mode", false) ]%string.

Definition names_option (f p : string) : Prop := exists l s k d, In (l, s, p, k, d) manual /\ (f = l \/ f = s).
Definition names_switch (f p : string) (b : bool) : Prop := exists l s, In (l, s, p, b) switches /\ (f = l \/ f = s).

(** What a group of words on the command line asks for. *)
Inductive effect : Type := File (s : string) | SetTo (p text : string) | Turn (p : string) (b : bool).
Inductive asks : list string -> effect -> Prop :=
| asks_apart : forall f p v, names_option f p -> asks [f; v] (SetTo p v)                       (* --name value, any value *)
| asks_joined : forall f p v, names_option f p -> f <> "-c"%string -> asks [(f ++ "=" ++ v)%string] (SetTo p v)  (* --name=value *)
| asks_attached : forall v, v <> EmptyString ->
    (forall u, v = u \/ (exists t, v = (u ++ "=" ++ t)%string) -> u <> "olor_dos"%string /\ u <> "olor_band"%string) ->
    asks [("-c" ++ v)%string] (SetTo "unitcell" v)                                             (* -cvalue *)
| asks_switch : forall f p b, names_switch f p b -> asks [f] (Turn p b)
| asks_file : forall s, (s = "-"%string \/ forall r, s <> String "-" r) -> asks [s] (File s).

Definition files (l : list effect) : list string := flat_map (fun x => match x with File s => [s] | _ => [] end) l.
(** the text given last for a variable *)
Definition given (l : list effect) (p : string) : option string :=
  fold_left (fun acc x => match x with SetTo q t => if String.eqb q p then Some t else acc | _ => acc end) l None.
(** the last switch of a variable *)
Definition turned (l : list effect) (p : string) (b0 : bool) : bool :=
  fold_left (fun acc x => match x with Turn q b => if String.eqb q p then b else acc | _ => acc end) l b0.
(** text [t] is a value of that kind, meaning [v] *)
Definition reads (exists_ : string -> bool) (k : kind) (t : string) (v : pyval) : Prop :=
  match k with
  | AnyText => v = VStr t
  | Number => exists q, parse_float t = Some q /\ v = VFloat q
  | Whole => exists z, parse_int t = Some z /\ v = VInt z
  | OneOf l => In t l /\ v = VStr t
  | ExistingFile => exists_ t = true /\ v = VStr t
  end.
(** the value of an option: the text given last, or the default (itself checked when it is a text) *)
Definition value_now (exists_ : string -> bool) (l : list effect) (p : string) (k : kind) (d v : pyval) : Prop :=
  match given l p with
  | Some t => reads exists_ k t v
  | None => match d with VStr t => reads exists_ k t v | _ => v = d end
  end.

(** * Proofs *)
Definition ptype_of (k : kind) : ptype :=
  match k with AnyText => TStr | Number => TFloat | Whole => TInt | OneOf l => TChoice l | ExistingFile => TPath end.
Lemma manual_declared : forall l s p k d, In (l, s, p, k, d) manual -> In (Valued [l; s] p (ptype_of k) d) declarations.
Proof.
  intros l s p k d H. unfold manual in H. cbn [In] in H.
  repeat (destruct H as [H|H]; [injection H as <- <- <- <- <-; cbn [In ptype_of declarations]; tauto|]). contradiction.
Qed.
Lemma declared_manual : forall fs p t d, In (Valued fs p t d) declarations -> exists l s k, fs = [l; s] /\ t = ptype_of k /\ In (l, s, p, k, d) manual.
Proof.
  intros fs p t d H. unfold declarations in H. cbn [In] in H.
  repeat (destruct H as [H|H]; [try discriminate H; injection H as <- <- <- <-; do 2 eexists;
    first [exists AnyText; split; [reflexivity|split; [reflexivity|]]; cbn [In manual]; tauto
          |exists Number; split; [reflexivity|split; [reflexivity|]]; cbn [In manual]; tauto
          |exists Whole; split; [reflexivity|split; [reflexivity|]]; cbn [In manual]; tauto
          |exists ExistingFile; split; [reflexivity|split; [reflexivity|]]; cbn [In manual]; tauto
          |eexists (OneOf _); split; [reflexivity|split; [reflexivity|]]; cbn [In manual]; tauto]|]).
  contradiction.
Qed.

Lemma each_option (P : string -> string -> Prop) :
  (forall l s p k d, In (l, s, p, k, d) manual -> P l p /\ P s p) -> forall f p, names_option f p -> P f p.
Proof. intros H f p (l & s & k & d & HI & [-> | ->]); apply (H _ _ _ _ _ HI). Qed.
Ltac all_options := intros l s p k d H; unfold manual in H; cbn [In] in H;
  repeat (destruct H as [H|H]; [injection H as <- <- <- <- <-|]); [..|contradiction].
Lemma word_option f p : names_option f p -> read_word f = WNext p.
Proof. revert f p. apply (each_option (fun f p => read_word f = WNext p)). all_options; split; vm_compute; reflexivity. Qed.
Definition long_ok (f p : string) : Prop := find_long f = Some (Takes p) /\ cut_eq f = (f, None) /\ exists c r, f = String "-" (String c r).
Lemma option_long f p : names_option f p -> f = "-c"%string \/ long_ok f p.
Proof.
  revert f p. apply (each_option (fun f p => f = "-c"%string \/ long_ok f p)).
  all_options; split; first [left; reflexivity|right; split; [vm_compute; reflexivity|split; [vm_compute; reflexivity|do 2 eexists; reflexivity]]].
Qed.
Lemma cut_app f v : forall g, cut_eq f = (g, None) -> g = f /\ cut_eq (f ++ String "=" v) = (f, Some v).
Proof.
  induction f as [|c f IH]; intros g H; cbn [cut_eq] in H.
  - injection H as <-. split; reflexivity.
  - cbn [append cut_eq]. destruct (Ascii.eqb c "="); [discriminate|]. destruct (cut_eq f) as (a, b). injection H as <- ->.
    destruct (IH a eq_refl) as (-> & E). rewrite E. split; reflexivity.
Qed.
Lemma not_stop f v : String.eqb (f ++ String "=" v)%string "--" = false.
Proof.
  apply String.eqb_neq. destruct f as [|a [|b [|c f]]]; cbn [append]; intros H; discriminate H.
Qed.
Lemma word_joined f p v : names_option f p -> f <> "-c"%string -> read_word (f ++ "=" ++ v) = WSet (Given p v).
Proof.
  intros H HN. destruct (option_long f p H) as [E|(HL & HC & c & r & ->)]; [contradiction|].
  change ("=" ++ v)%string with (String "=" v). destruct (cut_app _ v _ HC) as (_ & E). pose proof (not_stop (String "-" (String c r)) v) as NS.
  cbn [append] in *. unfold read_word. rewrite NS, E, HL. reflexivity.
Qed.
Lemma word_switch f p b : names_switch f p b -> read_word f = WSet (Const p b).
Proof.
  intros (l & s & H & Hf). unfold switches in H. cbn [In] in H.
  repeat (destruct H as [H|H]; [injection H as <- <- <- <-; destruct Hf as [-> | ->]; vm_compute; reflexivity|]). contradiction.
Qed.
Lemma word_file s : (s = "-"%string \/ forall r, s <> String "-" r) -> read_word s = WFile.
Proof.
  intros [-> |H]; [reflexivity|]. destruct s as [|c r]; [reflexivity|]. unfold read_word.
  destruct c as [[|] [|] [|] [|] [|] [|] [|] [|]]; try reflexivity. destruct (H r eq_refl).
Qed.
Lemma cut_parts s : forall f o, cut_eq s = (f, o) -> match o with None => s = f | Some t => s = (f ++ "=" ++ t)%string end.
Proof.
  induction s as [|c s IH]; intros f o H; cbn [cut_eq] in H.
  - injection H as <- <-. reflexivity.
  - destruct (Ascii.eqb c "=") eqn:E.
    + injection H as <- <-. apply Ascii.eqb_eq in E. subst. reflexivity.
    + destruct (cut_eq s) as (a, b). injection H as <- <-. specialize (IH a b eq_refl). destruct b; rewrite IH; reflexivity.
Qed.
Lemma find_none {A} (f : A -> bool) l : (forall x, In x l -> f x = false) -> find f l = None.
Proof. induction l as [|x l IH]; intros H; cbn [find]; [reflexivity|]. rewrite (H x (or_introl eq_refl)). apply IH. intros y Hy. apply H. right. exact Hy. Qed.
Definition long_names : list string := Eval vm_compute in map fst (filter (fun kv => negb (is_short (fst kv))) flags).
Lemma find_long_none f : ~ In f long_names -> find_long f = None.
Proof.
  intros H. unfold find_long. rewrite find_none; [reflexivity|]. intros (g, x) Hx. cbn [fst]. apply String.eqb_neq. intros ->. apply H.
  change long_names with (map fst (filter (fun kv => negb (is_short (fst kv))) flags)). exact (in_map fst _ _ Hx).
Qed.
Lemma no_long_c u : u <> "olor_dos"%string -> u <> "olor_band"%string -> find_long ("-c" ++ u) = None.
Proof.
  intros H1 H2. apply find_long_none. unfold long_names. cbn [In append]. intros H.
  repeat (destruct H as [H|H]; [first [discriminate H|injection H as H; congruence]|]). exact H.
Qed.
Lemma word_attached v : v <> EmptyString ->
  (forall u, v = u \/ (exists t, v = (u ++ "=" ++ t)%string) -> u <> "olor_dos"%string /\ u <> "olor_band"%string) ->
  read_word ("-c" ++ v) = WSet (Given "unitcell" v).
Proof.
  intros HV HU. change ("-c" ++ v)%string with (String "-" (String "c" v)). unfold read_word.
  assert (E : cut_eq (String "-" (String "c" v)) = ((("-c" ++ fst (cut_eq v))%string), snd (cut_eq v))).
  { cbn [cut_eq Ascii.eqb Bool.eqb]. destruct (cut_eq v). reflexivity. }
  rewrite E. replace (String.eqb (String "-" (String "c" v)) "--") with false by reflexivity.
  assert (U : fst (cut_eq v) <> "olor_dos"%string /\ fst (cut_eq v) <> "olor_band"%string).
  { apply HU. destruct (cut_eq v) as (f, o) eqn:EC. pose proof (cut_parts _ _ _ EC) as CP. cbn [fst]. destruct o; [right; eexists; exact CP|left; exact CP]. }
  rewrite (no_long_c _ (proj1 U) (proj2 U)). cbn [Ascii.eqb Bool.eqb].
  replace (find_short "-c") with (Some (Takes "unitcell")) by (vm_compute; reflexivity).
  destruct v; [contradiction|reflexivity].
Qed.

Definition set_of (x : effect) : list setting := match x with File _ => [] | SetTo p t => [Given p t] | Turn p b => [Const p b] end.
Lemma read_items gs effs r : Forall2 asks gs effs ->
  read_words (concat gs ++ r) = match read_words r with Some (ss, fs) => Some (flat_map set_of effs ++ ss, files effs ++ fs) | None => None end.
Proof.
  intros H. induction H as [|g x gs effs HG _ IH]; cbn [concat flat_map files app].
  - destruct (read_words r) as [(ss, fs)|]; reflexivity.
  - rewrite <- app_assoc. destruct HG as [f p v H|f p v H HN|v HV HU|f p b H|s H]; cbn [app read_words].
    + rewrite (word_option f p H), IH. destruct (read_words r) as [(ss, fs)|]; reflexivity.
    + rewrite (word_joined f p v H HN), IH. destruct (read_words r) as [(ss, fs)|]; reflexivity.
    + rewrite (word_attached v HV HU), IH. destruct (read_words r) as [(ss, fs)|]; reflexivity.
    + rewrite (word_switch f p b H), IH. destruct (read_words r) as [(ss, fs)|]; reflexivity.
    + rewrite (word_file s H), IH. destruct (read_words r) as [(ss, fs)|]; reflexivity.
Qed.

(** variables of options and of switches are different *)
Lemma disjoint_names f p g b : names_option f p -> ~ names_switch g p b.
Proof.
  intros (l & s & k & d & H & _) (l' & s' & H' & _). unfold manual in H. unfold switches in H'. cbn [In] in H, H'.
  repeat (destruct H as [H|H]; [injection H as <- <- <- <- <-; repeat (destruct H' as [H'|H']; [discriminate H'|]); exact H'|]). exact H.
Qed.
Lemma last_app ss s p : last_setting (ss ++ [s]) p = if match s with Given q _ | Const q _ => String.eqb q p | AskHelp => false end then Some s else last_setting ss p.
Proof. unfold last_setting. rewrite rev_app_distr. reflexivity. Qed.
Lemma last_given effs p : (forall b, ~ In (Turn p b) effs) ->
  last_setting (flat_map set_of effs) p = option_map (Given p) (given effs p).
Proof.
  induction effs as [|x effs IH] using rev_ind; intros H; [reflexivity|].
  rewrite flat_map_app. cbn [flat_map]. rewrite app_nil_r. unfold given. rewrite fold_left_app. cbn [fold_left]. fold (given effs p).
  assert (IH' : last_setting (flat_map set_of effs) p = option_map (Given p) (given effs p)) by (apply IH; intros b Hb; apply (H b), in_or_app; left; exact Hb).
  destruct x as [s|q t|q b]; cbn [set_of].
  - rewrite app_nil_r. exact IH'.
  - rewrite last_app. destruct (String.eqb q p) eqn:E; [apply String.eqb_eq in E; subst; reflexivity|exact IH'].
  - rewrite last_app. destruct (String.eqb q p) eqn:E; [|exact IH']. apply String.eqb_eq in E. subst. destruct (H b). apply in_or_app. right. left. reflexivity.
Qed.
Lemma last_turned effs p b0 : (forall t, ~ In (SetTo p t) effs) ->
  match last_setting (flat_map set_of effs) p with Some (Const _ b) => b | _ => b0 end = turned effs p b0.
Proof.
  induction effs as [|x effs IH] using rev_ind; intros H; [reflexivity|].
  rewrite flat_map_app. cbn [flat_map]. rewrite app_nil_r. unfold turned. rewrite fold_left_app. cbn [fold_left]. fold (turned effs p b0).
  assert (IH' : match last_setting (flat_map set_of effs) p with Some (Const _ b) => b | _ => b0 end = turned effs p b0) by (apply IH; intros b Hb; apply (H b), in_or_app; left; exact Hb).
  destruct x as [s|q t|q b]; cbn [set_of].
  - rewrite app_nil_r. exact IH'.
  - rewrite last_app. destruct (String.eqb q p) eqn:E; [|exact IH']. apply String.eqb_eq in E. subst. destruct (H t). apply in_or_app. right. left. reflexivity.
  - rewrite last_app. destruct (String.eqb q p) eqn:E; [reflexivity|exact IH'].
Qed.
Lemma asks_effects gs effs : Forall2 asks gs effs -> forall x, In x effs ->
  match x with File _ => True | SetTo p _ => exists f, names_option f p | Turn p b => exists f, names_switch f p b end.
Proof.
  intros H. induction H as [|g y gs effs HG _ IH]; intros x []; [subst y|exact (IH x H)].
  destruct HG; try exact Logic.I; try (eexists; eassumption).
  exists "-c"%string. do 4 eexists. split; [|right; reflexivity]. cbn [In manual]. do 5 right. left. reflexivity.
Qed.
Lemma reads_convert exists_ k t v : reads exists_ k t v <-> convert_text exists_ (ptype_of k) t = Some v.
Proof.
  destruct k as [| | |l|]; cbn [reads ptype_of convert_text].
  - split; [intros ->; reflexivity|intros H; injection H as <-; reflexivity].
  - destruct (parse_float t) as [q|]; cbn [option_map]; split; try discriminate.
    + intros (q' & E & ->). congruence. + intros H. injection H as <-. exists q. split; reflexivity. + intros (q' & E & _). discriminate.
  - destruct (parse_int t) as [q|]; cbn [option_map]; split; try discriminate.
    + intros (q' & E & ->). congruence. + intros H. injection H as <-. exists q. split; reflexivity. + intros (q' & E & _). discriminate.
  - destruct (mem_string t l) eqn:E.
    + apply mem_string_iff in E. split; [intros (_ & ->); reflexivity|intros H; injection H as <-; split; [exact E|reflexivity]].
    + split; [intros (H & _); apply mem_string_iff in H; congruence|discriminate].
  - destruct (exists_ t); split; [intros (_ & ->); reflexivity|intros H; injection H as <-; split; reflexivity|intros (H & _); discriminate|discriminate].
Qed.
Lemma value_convert exists_ gs effs l s p k d v : Forall2 asks gs effs -> In (l, s, p, k, d) manual ->
  (value_now exists_ effs p k d v <-> decl_value exists_ (flat_map set_of effs) (Valued [l; s] p (ptype_of k) d) = Some (p, v)).
Proof.
  intros HG HI. cbn [decl_value]. rewrite last_given.
  - unfold value_now. destruct (given effs p) as [t|]; cbn [option_map].
    + rewrite reads_convert. destruct (convert_text exists_ (ptype_of k) t) as [w|]; cbn [option_map]; split; intros H; try discriminate; congruence.
    + unfold convert_default. destruct d; try (cbn [option_map]; split; intros H; congruence).
      rewrite reads_convert. destruct (convert_text exists_ (ptype_of k) s0) as [w|]; cbn [option_map]; split; intros H; try discriminate; congruence.
  - intros b Hb. apply (asks_effects _ _ HG) in Hb. destruct Hb as (f & Hf).
    apply (disjoint_names l p f b); [|exact Hf]. exists l, s, k, d. split; [exact HI|left; reflexivity].
Qed.
Lemma all_values_spec exists_ ss : forall ds,
  (all_values exists_ ss ds = None <-> exists d, In d ds /\ decl_value exists_ ss d = None) /\
  (forall l, all_values exists_ ss ds = Some l -> Forall2 (fun d x => decl_value exists_ ss d = Some x) ds l).
Proof.
  induction ds as [|d ds (IH1 & IH2)]; cbn [all_values].
  - split; [split; [discriminate|intros (d & [] & _)]|intros l H; injection H as <-; constructor].
  - destruct (decl_value exists_ ss d) as [x|] eqn:E.
    + destruct (all_values exists_ ss ds) as [xs|] eqn:EA.
      * split.
        -- split; [discriminate|]. intros (d' & [<-|H] & HN); [congruence|].
           discriminate (proj2 IH1 (ex_intro _ d' (conj H HN))).
        -- intros l H. injection H as <-. constructor; [exact E|apply IH2; reflexivity].
      * split; [|discriminate]. split; [intros _|reflexivity]. destruct (proj1 IH1 eq_refl) as (d' & H & HN). exists d'. split; [right; exact H|exact HN].
    + split; [|discriminate]. split; [intros _|reflexivity]. exists d. split; [left; reflexivity|exact E].
Qed.
Definition decl_param (d : decl) : string := match d with Valued _ p _ _ | Switch _ _ p _ => p end.
Lemma decl_value_param exists_ ss d x : decl_value exists_ ss d = Some x -> fst x = decl_param d.
Proof.
  destruct d as [fs p t dv|on off p db]; cbn [decl_value decl_param].
  - destruct (match last_setting ss p with Some (Given _ s) => _ | _ => _ end) as [v|]; cbn [option_map]; [|discriminate]. intros H. injection H as <-. reflexivity.
  - intros H. injection H as <-. reflexivity.
Qed.
Lemma params_distinct : NoDup (map decl_param declarations).
Proof. repeat (constructor; [cbn [In map decl_param]; intuition discriminate|]). constructor. Qed.
Lemma env_of_get l p v : NoDup (map fst l) -> In (p, v) l -> env_of l p = v.
Proof.
  intros ND HI. unfold env_of. induction l as [|(q, w) l IH]; [contradiction|]. cbn [find fst]. cbn [map fst] in ND. inversion ND as [|? ? N1 N2]. subst.
  destruct HI as [H|H].
  - injection H as -> ->. rewrite String.eqb_refl. reflexivity.
  - destruct (String.eqb q p) eqn:E; [|exact (IH N2 H)]. apply String.eqb_eq in E. subst. destruct N1. apply (in_map fst _ _ H).
Qed.
Lemma Forall2_in {A B} (R : A -> B -> Prop) l r x : Forall2 R l r -> In x l -> exists y, In y r /\ R x y.
Proof. intros H. induction H as [|a b l r HR _ IH]; intros []; [subst; exists b; split; [left; reflexivity|exact HR]|]. destruct (IH H) as (y & H1 & H2). exists y. split; [right; exact H1|exact H2]. Qed.
Lemma values_env exists_ ss l d v : all_values exists_ ss declarations = Some l -> In d declarations ->
  decl_value exists_ ss d = Some (decl_param d, v) -> env_of l (decl_param d) = v.
Proof.
  intros H HI HV. apply (proj2 (all_values_spec exists_ ss declarations)) in H. apply env_of_get.
  - assert (E : map fst l = map decl_param declarations).
    { clear HI. revert H. generalize declarations. intros ds H. induction H as [|d' x ds xs HX _ IH]; [reflexivity|]. cbn [map]. rewrite IH, (decl_value_param _ _ _ _ HX). reflexivity. }
    rewrite E. exact params_distinct.
  - destruct (Forall2_in _ _ _ _ H HI) as (y & HY & E). congruence.
Qed.

(** * C94 *)
(** Whatever groups of words are on the command line, in any order and any spelling: main() gets
    the files in order, for every option the text given last or its default, and for every switch
    the last one given; and if the value of some option is not acceptable (also the default
    POSCAR, when there is no such file) the command ends with a usage error instead. *)
Theorem command_line_meaning : forall exists_ gs effs tail rest,
  Forall2 asks gs effs -> (tail = [] /\ rest = []) \/ tail = "--"%string :: rest ->
  let res := command exists_ (concat gs ++ tail) in
  ((forall l s p k d, In (l, s, p, k, d) manual -> exists v, value_now exists_ effs p k d v) ->
     exists e, res = Call e (files effs ++ rest) /\
       (forall l s p k d, In (l, s, p, k, d) manual -> value_now exists_ effs p k d (e p)) /\
       (forall p b, In (p, b) switch_default -> e p = VInt (if turned effs p b then 1 else 0))) /\
  ((exists l s p k d, In (l, s, p, k, d) manual /\ forall v, ~ value_now exists_ effs p k d v) -> res = Usage).
Proof.
  intros exists_ gs effs tail rest HG HT res.
  assert (W : read_words (concat gs ++ tail) = Some (flat_map set_of effs, files effs ++ rest)).
  { rewrite (read_items gs effs tail HG). destruct HT as [(-> & ->)| ->]; cbn [read_words read_word String.eqb Ascii.eqb Bool.eqb]; rewrite ?app_nil_r; reflexivity. }
  assert (NH : existsb (fun s => match s with AskHelp => true | _ => false end) (flat_map set_of effs) = false).
  { clear. induction effs as [|[s|p t|p b] effs IH]; cbn [flat_map set_of app existsb]; [reflexivity|exact IH..]. }
  unfold res, command. rewrite W, NH.
  destruct (all_values_spec exists_ (flat_map set_of effs) declarations) as (AN & _). split.
  - intros HV. destruct (all_values exists_ (flat_map set_of effs) declarations) as [l|] eqn:EA.
    + exists (env_of l). split; [reflexivity|]. split.
      * intros lo s p k d HI. destruct (HV _ _ _ _ _ HI) as (v & Hv). pose proof (proj1 (value_convert exists_ gs effs lo s p k d v HG HI) Hv) as E.
        pose proof (values_env exists_ _ l _ v EA (manual_declared _ _ _ _ _ HI) E) as EV. cbn [decl_param] in EV. rewrite EV. exact Hv.
      * intros p b HI.
        assert (HS : exists on off, In (Switch on off p b) declarations /\ (exists f c, names_switch f p c)).
        { unfold switch_default in HI. cbn [In] in HI.
          repeat (destruct HI as [HI|HI]; [injection HI as <- <-; do 2 eexists; split; [cbn [In declarations]; tauto|]; do 4 eexists; (split; [|left; reflexivity]); cbn [In switches]; tauto|]). contradiction. }
        destruct HS as (on & off & HD & f & c & HF).
        assert (E : decl_value exists_ (flat_map set_of effs) (Switch on off p b) = Some (p, VInt (if turned effs p b then 1 else 0))).
        { cbn [decl_value]. rewrite <- (last_turned effs p b).
          - destruct (last_setting (flat_map set_of effs) p) as [[q t|q b'|]|]; reflexivity.
          - intros t Ht. apply (asks_effects _ _ HG) in Ht. destruct Ht as (g & Hg). exact (disjoint_names _ _ _ _ Hg HF). }
        exact (values_env exists_ _ l _ _ EA HD E).
    + exfalso. destruct (proj1 AN eq_refl) as (d & HI & HN). destruct d as [fs p t dv|on off p db]; [|discriminate HN].
      destruct (declared_manual _ _ _ _ HI) as (lo & s & k & -> & -> & HM). destruct (HV _ _ _ _ _ HM) as (v & Hv).
      apply (proj1 (value_convert exists_ gs effs lo s p k dv v HG HM)) in Hv. congruence.
  - intros (lo & s & p & k & d & HI & HN).
    destruct (decl_value exists_ (flat_map set_of effs) (Valued [lo; s] p (ptype_of k) d)) as [(q, v)|] eqn:E.
    + pose proof (decl_value_param _ _ _ _ E) as EP. cbn [fst decl_param] in EP. subst q.
      destruct (HN v). apply (proj2 (value_convert exists_ gs effs lo s p k d v HG HI)). exact E.
    + rewrite (proj2 AN); [reflexivity|]. eexists. split; [exact (manual_declared _ _ _ _ _ HI)|exact E].
Qed.

Lemma accepted exists_ gs effs e fs : Forall2 asks gs effs -> command exists_ (concat gs) = Call e fs ->
  fs = files effs /\ (forall l s p k d, In (l, s, p, k, d) manual -> value_now exists_ effs p k d (e p)) /\
  (forall p b, In (p, b) switch_default -> e p = VInt (if turned effs p b then 1 else 0)).
Proof.
  intros HG HC. destruct (command_line_meaning exists_ gs effs [] [] HG (or_introl (conj eq_refl eq_refl))) as (Z1 & Z2). rewrite !app_nil_r in Z1. rewrite app_nil_r in Z2.
  assert (Y : forall lo s p k d, In (lo, s, p, k, d) manual -> exists v, value_now exists_ effs p k d v).
  { intros lo s p k d HI. destruct (decl_value exists_ (flat_map set_of effs) (Valued [lo; s] p (ptype_of k) d)) as [(q, v)|] eqn:E.
    - pose proof (decl_value_param _ _ _ _ E) as EP. cbn [fst decl_param] in EP. subst q. exists v.
      apply (proj2 (value_convert exists_ gs effs lo s p k d v HG HI)). exact E.
    - exfalso. rewrite Z2 in HC; [discriminate|]. exists lo, s, p, k, d. split; [exact HI|]. intros v HV.
      apply (proj1 (value_convert exists_ gs effs lo s p k d v HG HI)) in HV. congruence. }
  destruct (Z1 Y) as (e' & E & P & Q). rewrite HC in E. injection E as -> ->. split; [reflexivity|]. split; [exact P|exact Q].
Qed.

(** Without a unit cell option there must be a file POSCAR, whatever an option file says. *)
Theorem default_unit_cell_must_exist : forall exists_ gs effs, Forall2 asks gs effs ->
  (forall t, ~ In (SetTo "unitcell" t) effs) -> exists_ "POSCAR"%string = false -> command exists_ (concat gs) = Usage.
Proof.
  intros exists_ gs effs HG HN HE. destruct (command_line_meaning exists_ gs effs [] [] HG (or_introl (conj eq_refl eq_refl))) as (_ & H).
  rewrite app_nil_r in H. apply H. exists "--unitcell"%string, "-c"%string, "unitcell"%string, ExistingFile, (VStr "POSCAR").
  split; [cbn [In manual]; do 5 right; left; reflexivity|]. intros v HV. unfold value_now in HV.
  replace (given effs "unitcell") with (@None string) in HV; [cbn [reads] in HV; destruct HV; congruence|].
  clear -HN. symmetry. induction effs as [|x effs IH] using rev_ind; [reflexivity|]. unfold given. rewrite fold_left_app. cbn [fold_left]. fold (given effs "unitcell").
  rewrite IH by (intros t Ht; apply (HN t), in_or_app; left; exact Ht).
  destruct x as [s|q t|q b]; try reflexivity. destruct (String.eqb q "unitcell") eqn:E; [|reflexivity].
  apply String.eqb_eq in E. subst. destruct (HN t). apply in_or_app. right. left. reflexivity.
Qed.

(** * C95 *)
Definition known (f : string) : Prop := (exists p, names_option f p) \/ (exists p b, names_switch f p b) \/ f = "--help"%string.
Definition known_b (f : string) : bool :=
  (existsb (fun x => match x with (l, s, _, _, _) => String.eqb f l || String.eqb f s end) manual
   || existsb (fun x => match x with (l, s, _, _) => String.eqb f l || String.eqb f s end) switches || String.eqb f "--help")%bool.
Lemma known_b_ok f : known_b f = true -> known f.
Proof.
  unfold known_b. rewrite !orb_true_iff, !existsb_exists. intros [[(((((l & s) & p) & k) & d) & HI & HF)|((((l & s) & p) & b) & HI & HF)]|H].
  - left. exists p, l, s, k, d. split; [exact HI|]. apply orb_true_iff in HF. rewrite !String.eqb_eq in HF. exact HF.
  - right. left. exists p, b, l, s. split; [exact HI|]. apply orb_true_iff in HF. rewrite !String.eqb_eq in HF. exact HF.
  - right. right. apply String.eqb_eq. exact H.
Qed.
Lemma long_known f : In f long_names -> known f.
Proof.
  assert (H : forallb known_b long_names = true) by (vm_compute; reflexivity). rewrite forallb_forall in H.
  intros HI. apply known_b_ok, H, HI.
Qed.
Lemma short_only c : c <> "c"%char -> find_short (String "-" (String c EmptyString)) = None.
Proof.
  intros H. unfold find_short. remember (filter (fun kv => is_short (fst kv)) flags) as l eqn:E. vm_compute in E. subst l.
  cbn [find fst]. replace (String.eqb "-c" (String "-" (String c EmptyString))) with false; [reflexivity|].
  symmetry. apply String.eqb_neq. intros E. injection E as E. congruence.
Qed.
(** Usage errors, whatever stands before and after: a word with a dash that is no flag, an option
    without a value, a switch with a value.  [c]: only -c takes further letters as its value. *)
Theorem command_line_rejected : forall exists_ gs effs r, Forall2 asks gs effs ->
  (forall c t, c <> "c"%char -> String c t <> "-"%string ->
     (forall f, String "-" (String c t) = f \/ (exists v, String "-" (String c t) = (f ++ "=" ++ v)%string) -> ~ known f) ->
     command exists_ (concat gs ++ String "-" (String c t) :: r) = Usage) /\
  (forall f p, names_option f p -> command exists_ (concat gs ++ [f]) = Usage) /\
  (forall f p b v, names_switch f p b -> command exists_ (concat gs ++ (f ++ "=" ++ v)%string :: r) = Usage).
Proof.
  intros exists_ gs effs r HG. unfold command. split; [|split].
  - intros c t HC HS HK. rewrite (read_items gs effs _ HG). cbn [read_words].
    replace (read_word (String "-" (String c t))) with WBad; [reflexivity|]. symmetry. unfold read_word.
    replace (String.eqb (String "-" (String c t)) "--") with false by (symmetry; apply String.eqb_neq; intros E; injection E as -> ->; contradiction).
    destruct (cut_eq (String "-" (String c t))) as (f, o) eqn:EC. pose proof (cut_parts _ _ _ EC) as CP.
    rewrite (find_long_none f).
    + destruct (Ascii.eqb c "-"); [reflexivity|]. rewrite (short_only c HC). reflexivity.
    + intros HI. apply (HK f); [destruct o; [right; eexists; exact CP|left; exact CP]|exact (long_known f HI)].
  - intros f p H. rewrite (read_items gs effs _ HG). cbn [read_words]. rewrite (word_option f p H). reflexivity.
  - intros f p b v H. rewrite (read_items gs effs _ HG). cbn [read_words].
    replace (read_word (f ++ "=" ++ v)) with WBad; [reflexivity|]. symmetry.
    assert (FL : find_long f = Some (Puts p b) /\ cut_eq f = (f, None) /\ exists c t, f = String "-" (String c t)).
    { destruct H as (l & s & HI & Hf). unfold switches in HI. cbn [In] in HI.
      repeat (destruct HI as [HI|HI]; [injection HI as <- <- <- <-; destruct Hf as [-> | ->]; (split; [vm_compute; reflexivity|split; [vm_compute; reflexivity|do 2 eexists; reflexivity]])|]). contradiction. }
    destruct FL as (FL & FC & c & t & ->). change ("=" ++ v)%string with (String "=" v). destruct (cut_app _ v _ FC) as (_ & E).
    pose proof (not_stop (String "-" (String c t)) v) as NS. cbn [append] in *. unfold read_word. rewrite NS, E, FL. reflexivity.
Qed.
(** --help shows the help text, whatever values the other options have. *)
Theorem help_is_shown : forall exists_ gs effs gs' effs' tail rest, Forall2 asks gs effs -> Forall2 asks gs' effs' ->
  tail = [] \/ tail = "--"%string :: rest -> command exists_ (concat gs ++ "--help"%string :: concat gs' ++ tail) = HelpShown.
Proof.
  intros exists_ gs effs gs' effs' tail rest HG HG' HT. unfold command. rewrite (read_items gs effs _ HG). cbn [read_words].
  replace (read_word "--help") with (WSet AskHelp) by (vm_compute; reflexivity). rewrite (read_items gs' effs' _ HG').
  destruct HT as [-> | ->]; cbn [read_words read_word String.eqb Ascii.eqb Bool.eqb]; rewrite existsb_app; cbn [existsb]; rewrite orb_true_r; reflexivity.
Qed.

(** * C96 *)
(** The key of an option in an option file: its long or short name without the dashes; the two
    options that differ there are left out (a file cannot name another option file, and the mode
    amplitude stays a text there). *)
Definition file_key (flag key p : string) (k : kind) : Prop :=
  p <> "option_file"%string /\ p <> "disp_amp_mode"%string /\
  exists l s d, In (l, s, p, k, d) manual /\ ((flag = l /\ l = ("--" ++ key)%string) \/ (flag = s /\ s = ("-" ++ key)%string)).
Lemma file_key_option flag key p k : file_key flag key p k -> names_option flag p.
Proof. intros (_ & _ & l & s & d & H & HF). exists l, s, k, d. split; [exact H|]. destruct HF as [(-> & _)|(-> & _)]; tauto. Qed.
Lemma file_key_conv exists_ flag key p k : file_key flag key p k ->
  exists c, find_option key option_table = Some (p, c) /\
    forall t, (k = ExistingFile -> exists_ t = true) -> convert_text exists_ (ptype_of k) t = match convert c t with Ok v => Some v | Err _ => None end.
Proof.
  intros (N1 & N2 & l & s & d & H & HF).
  assert (KK : forall k', k = k' -> exists c, (match k' with AnyText | ExistingFile => c = AsStr | Number => c = AsFloat | Whole => c = AsInt | OneOf l => c = Choice l end)
    /\ forall t, (k = ExistingFile -> exists_ t = true) -> convert_text exists_ (ptype_of k) t = match convert c t with Ok v => Some v | Err _ => None end).
  { intros k' <-. destruct k as [| | |ls|]; eexists; (split; [reflexivity|]); intros t Ht; cbn [convert_text ptype_of convert].
    - reflexivity.
    - destruct (parse_float t); reflexivity.
    - destruct (parse_int t); reflexivity.
    - destruct (mem_string t ls); reflexivity.
    - rewrite (Ht eq_refl). reflexivity. }
  destruct (KK k eq_refl) as (c & HC & HT). exists c. split; [|exact HT]. clear KK HT.
  unfold manual in H. cbn [In] in H.
  repeat (destruct H as [H|H]; [injection H as <- <- <- <- <-; first [contradiction N1; reflexivity|contradiction N2; reflexivity|
    subst c; destruct HF as [(_ & E)|(_ & E)]; cbn [append] in E; injection E as <-; vm_compute; reflexivity]|]). contradiction.
Qed.

Definition asg : Type := string * string * string * kind * string.   (* flag, key, variable, kind, text *)
Definition a_flag (x : asg) : string := let '(f, _, _, _, _) := x in f.
Definition a_key (x : asg) : string := let '(_, k, _, _, _) := x in k.
Definition a_var (x : asg) : string := let '(_, _, p, _, _) := x in p.
Definition a_kind (x : asg) : kind := let '(_, _, _, k, _) := x in k.
Definition a_text (x : asg) : string := let '(_, _, _, _, t) := x in t.

Lemma apply_options_spec exists_ : forall l e,
  Forall (fun x => file_key (a_flag x) (a_key x) (a_var x) (a_kind x) /\ (a_kind x = ExistingFile -> exists_ (a_text x) = true)) l ->
  NoDup (map a_var l) ->
  match apply_options e (map (fun x => (a_key x, a_text x)) l) with
  | Ok e' => (forall x, In x l -> convert_text exists_ (ptype_of (a_kind x)) (a_text x) = Some (e' (a_var x))) /\
             (forall y, ~ In y (map a_var l) -> e' y = e y)
  | Err _ => exists x, In x l /\ convert_text exists_ (ptype_of (a_kind x)) (a_text x) = None
  end.
Proof.
  induction l as [|x l IH]; intros e HF ND; cbn [map apply_options].
  - split; [intros x []|reflexivity].
  - inversion HF as [|? ? (HK & HE) HF']; subst. cbn [map] in ND. inversion ND as [|? ? NI ND']; subst.
    destruct (file_key_conv exists_ _ _ _ _ HK) as (c & EF & EC). specialize (EC _ HE). unfold apply_option. cbn [fst snd]. rewrite EF.
    destruct (convert c (a_text x)) as [v|er]; cbn [bind].
    + specialize (IH (upd e (a_var x) v) HF' ND'). destruct (apply_options (upd e (a_var x) v) _) as [e'|er].
      * destruct IH as (I1 & I2). split.
        -- intros y [<-|Hy]; [|exact (I1 y Hy)]. rewrite EC, (I2 _ NI). unfold upd. rewrite String.eqb_refl. reflexivity.
        -- intros y Hy. cbn [map In] in Hy. rewrite I2 by tauto. unfold upd. destruct (String.eqb_spec y (a_var x)) as [->|_]; [tauto|reflexivity].
      * destruct IH as (y & Hy & E). exists y. split; [right; exact Hy|exact E].
    + exists x. split; [left; reflexivity|exact EC].
Qed.
Lemma dict_distinct (l : list (string * string)) : forall d, NoDup (map fst (d ++ l)) -> fold_left (fun d kv => dict_set d (fst kv) (snd kv)) l d = d ++ l.
Proof.
  induction l as [|(k, v) l IH]; intros d ND; cbn [fold_left]; [rewrite app_nil_r; reflexivity|]. cbn [fst snd].
  assert (E : dict_set d k v = d ++ [(k, v)]).
  { assert (NI : ~ In k (map fst d)). { rewrite map_app in ND. cbn [map fst] in ND. apply NoDup_remove_2 in ND. intros H. apply ND, in_or_app. left. exact H. }
    clear -NI. induction d as [|(k', v') d IH]; [reflexivity|]. cbn [dict_set map fst In app] in *. destruct (String.eqb_spec k' k); [tauto|]. rewrite IH by tauto. reflexivity. }
  rewrite E, IH; [rewrite <- app_assoc; reflexivity|]. rewrite <- app_assoc. exact ND.
Qed.
Lemma same_key_same_var x y : file_key (a_flag x) (a_key x) (a_var x) (a_kind x) -> file_key (a_flag y) (a_key y) (a_var y) (a_kind y) ->
  a_key x = a_key y -> a_var x = a_var y.
Proof.
  intros HX HY E. destruct (file_key_conv (fun _ => true) _ _ _ _ HX) as (c & E1 & _). destruct (file_key_conv (fun _ => true) _ _ _ _ HY) as (c' & E2 & _).
  rewrite E in E1. congruence.
Qed.
Lemma given_asg (l : list asg) p : 
  (forall x, In x l -> NoDup (map a_var l) -> given (map (fun x => SetTo (a_var x) (a_text x)) l) (a_var x) = Some (a_text x)) /\
  (~ In p (map a_var l) -> given (map (fun x => SetTo (a_var x) (a_text x)) l) p = None).
Proof.
  assert (G : forall l : list asg, ~ In p (map a_var l) -> given (map (fun x => SetTo (a_var x) (a_text x)) l) p = None).
  { clear l. induction l as [|x l IH] using rev_ind; intros H; [reflexivity|]. rewrite map_app in *. unfold given. rewrite fold_left_app. cbn [map fold_left].
    fold (given (map (fun x => SetTo (a_var x) (a_text x)) l) p). rewrite IH by (intros HI; apply H, in_or_app; left; exact HI).
    destruct (String.eqb_spec (a_var x) p) as [E|_]; [|reflexivity]. destruct H. apply in_or_app. right. left. exact E. }
  split; [|apply G]. clear G. intros x. induction l as [|y l IH] using rev_ind; intros HI ND; [destruct HI|].
  rewrite map_app in *. unfold given. rewrite fold_left_app. cbn [map fold_left]. fold (given (map (fun x => SetTo (a_var x) (a_text x)) l) (a_var x)).
  apply in_app_or in HI. destruct HI as [HI|[<-|[]]].
  - destruct (String.eqb_spec (a_var y) (a_var x)) as [E|_].
    + exfalso. cbn [map] in ND. apply NoDup_remove_2 in ND. apply ND. rewrite app_nil_r, E. apply in_map. exact HI.
    + apply IH; [exact HI|]. cbn [map] in ND. apply NoDup_remove_1 in ND. rewrite app_nil_r in ND. exact ND.
  - rewrite String.eqb_refl. reflexivity.
Qed.
Lemma reads_functional exists_ k t v w : reads exists_ k t v -> reads exists_ k t w -> v = w.
Proof. rewrite !reads_convert. congruence. Qed.
Lemma value_functional exists_ effs p k d v w : value_now exists_ effs p k d v -> value_now exists_ effs p k d w -> v = w.
Proof.
  unfold value_now. destruct (given effs p); [apply reads_functional|]. destruct d; try congruence. apply reads_functional.
Qed.

(** Options in a file mean what they mean on the command line: for any list of options (each
    variable at most once), either both are rejected or every variable of main() is the same. *)
Theorem option_file_like_command_line : forall exists_ lines (l : list asg) e0,
  Forall (fun x => file_key (a_flag x) (a_key x) (a_var x) (a_kind x) /\ (a_kind x = ExistingFile -> exists_ (a_text x) = true)) l ->
  NoDup (map a_var l) -> entries lines (map (fun x => (a_key x, a_text x)) l) ->
  command exists_ [] = Call e0 [] ->
  let by_words := command exists_ (concat (map (fun x => [a_flag x; a_text x]) l)) in
  let by_file := with_option_file e0 (Some lines) in
  (by_words = Usage /\ exists er, by_file = Err er) \/
  exists e e', by_words = Call e [] /\ by_file = Ok e' /\
    forall p, (exists lo s k d, In (lo, s, p, k, d) manual) \/ (exists b, In (p, b) switch_default) -> e' p = e p.
Proof.
  intros exists_ lines l e0 HF ND HE H0 by_words by_file.
  set (effs := map (fun x : asg => SetTo (a_var x) (a_text x)) l).
  assert (HA : Forall2 asks (map (fun x : asg => [a_flag x; a_text x]) l) effs).
  { unfold effs. clear -HF. induction HF as [|x l (HK & _) _ IH]; cbn [map]; constructor; [|exact IH]. apply asks_apart. exact (file_key_option _ _ _ _ HK). }
  assert (FE : files effs = []) by (unfold effs; clear; induction l as [|x l IH]; [reflexivity|exact IH]).
  destruct (command_line_meaning exists_ _ effs [] [] HA (or_introl (conj eq_refl eq_refl))) as (M1 & M2). rewrite app_nil_r, FE in *. cbn [app] in M1.
  fold by_words in M1, M2.
  assert (Z : (forall lo s p k d, In (lo, s, p, k, d) manual -> value_now exists_ [] p k d (e0 p)) /\ (forall p b, In (p, b) switch_default -> e0 p = VInt (if b then 1 else 0))).
  { destruct (accepted exists_ [] [] e0 [] (Forall2_nil _) H0) as (_ & P & Q). split; [exact P|]. intros p b HI. exact (Q p b HI). }
  destruct Z as (Z1 & Z2).
  assert (BF : by_file = apply_options e0 (map (fun x => (a_key x, a_text x)) l)).
  { unfold by_file, with_option_file. rewrite (entries_read lines [] _ HE). cbn [bind]. f_equal. rewrite dict_distinct; [reflexivity|]. cbn [app]. rewrite map_map. cbn [fst].
    clear -HF ND. induction l as [|x l IH]; cbn [map]; [constructor|]. inversion HF as [|? ? (HK & _) HF']; subst. cbn [map] in ND. inversion ND as [|? ? NI ND']; subst.
    constructor; [|exact (IH HF' ND')]. intros HI. apply in_map_iff in HI. destruct HI as (y & E & Hy). apply NI. apply in_map_iff. exists y. split; [|exact Hy].
    rewrite Forall_forall in HF'. exact (same_key_same_var y x (proj1 (HF' y Hy)) HK E). }
  pose proof (apply_options_spec exists_ l e0 HF ND) as AS. rewrite <- BF in AS. destruct by_file as [e'|er].
  - right. destruct AS as (A1 & A2).
    assert (V : forall lo s p k d, In (lo, s, p, k, d) manual -> value_now exists_ effs p k d (e' p)).
    { intros lo s p k d HI. unfold value_now. destruct (in_dec string_dec p (map a_var l)) as [HP|HP].
      - apply in_map_iff in HP. destruct HP as (x & <- & Hx). unfold effs. rewrite (proj1 (given_asg l (a_var x)) x Hx ND).
        assert (KE : k = a_kind x).
        { rewrite Forall_forall in HF. destruct (HF x Hx) as ((_ & _ & l' & s' & d' & HI' & _) & _).
          clear -HI HI'. pose proof params_distinct as PD.
          assert (DD : Valued [lo; s] (a_var x) (ptype_of k) d = Valued [l'; s'] (a_var x) (ptype_of (a_kind x)) d').
          { apply manual_declared in HI. apply manual_declared in HI'. apply (in_split) in HI. destruct HI as (r1 & r2 & E). rewrite E in HI', PD.
            rewrite map_app in PD. cbn [map decl_param] in PD. apply NoDup_remove_2 in PD.
            apply in_app_or in HI'. destruct HI' as [HI'|[HI'|HI']]; [|exact HI'|]; exfalso; apply PD, in_or_app; [left|right]; apply in_map_iff; eexists; (split; [|exact HI']); reflexivity. }
          injection DD as _ _ DD _. destruct k, (a_kind x); cbn in DD; try discriminate DD; congruence. }
        rewrite KE. apply reads_convert. exact (A1 x Hx).
      - unfold effs. rewrite (proj2 (given_asg l p) HP), (A2 p HP). exact (Z1 lo s p k d HI). }
    destruct (M1 (fun lo s p k d HI => ex_intro _ _ (V lo s p k d HI))) as (e & E & P & Q). exists e, e'. split; [exact E|]. split; [reflexivity|].
    intros p [(lo & s & k & d & HI)|(b & HI)].
    + exact (value_functional _ _ _ _ _ _ _ (V _ _ _ _ _ HI) (P _ _ _ _ _ HI)).
    + rewrite (Q p b HI). rewrite A2.
      * rewrite (Z2 p b HI). unfold effs. clear. f_equal. enough (E : turned (map (fun x : asg => SetTo (a_var x) (a_text x)) l) p b = b) by (rewrite E; reflexivity).
        unfold turned. induction l as [|x l IH]; [reflexivity|exact IH].
      * intros HP. apply in_map_iff in HP. destruct HP as (x & EX & Hx). rewrite Forall_forall in HF. destruct (HF x Hx) as (HK & _). apply file_key_option in HK. rewrite EX in HK.
        clear -HI HK. destruct HK as (lo & s & k & d & HM & _). unfold switch_default in HI. cbn [In] in HI.
        repeat (destruct HI as [HI|HI]; [injection HI as <- <-; unfold manual in HM; cbn [In] in HM; repeat (destruct HM as [HM|HM]; [discriminate HM|]); exact HM|]). exact HI.
  - left. split; [|exists er; reflexivity]. destruct AS as (x & Hx & EX). rewrite Forall_forall in HF. destruct (HF x Hx) as ((_ & _ & lo & s & d & HI & _) & _).
    apply M2. exists lo, s, (a_var x), (a_kind x), d. split; [exact HI|]. intros v HV. unfold value_now, effs in HV. rewrite (proj1 (given_asg l (a_var x)) x Hx ND) in HV.
    apply reads_convert in HV. congruence.
Qed.

(** * Concrete cases *)
Lemma names_option_b f p : existsb (fun x => match x with (l, s, q, _, _) => String.eqb q p && (String.eqb f l || String.eqb f s) end)%bool manual = true -> names_option f p.
Proof.
  rewrite existsb_exists. intros (((((l & s) & q) & k) & d) & HI & H). apply andb_true_iff in H as (E & H). apply String.eqb_eq in E. subst q.
  exists l, s, k, d. split; [exact HI|]. apply orb_true_iff in H. rewrite !String.eqb_eq in H. exact H.
Qed.
Lemma names_switch_b f p b : existsb (fun x => match x with (l, s, q, c) => Bool.eqb b c && String.eqb q p && (String.eqb f l || String.eqb f s) end)%bool switches = true -> names_switch f p b.
Proof.
  rewrite existsb_exists. intros ((((l & s) & q) & c) & HI & H). apply andb_true_iff in H as (E & H). apply andb_true_iff in E as (E0 & E). apply String.eqb_eq in E. apply eqb_prop in E0. subst q c.
  exists l, s. split; [exact HI|]. apply orb_true_iff in H. rewrite !String.eqb_eq in H. exact H.
Qed.
Definition ex_groups : list (list string) :=
  [["FORCE-0001"]; ["-enlarge"; "4 4 1"]; ["--sigma=0.05"]; ["-cPOSCAR_new"]; ["-sym_off"]; ["--displacement"; "-0.02"]; ["FORCE-0002"]; ["--sigma"; "0.2"]]%string.
Definition ex_effects : list effect :=
  [File "FORCE-0001"; SetTo "enlargement" "4 4 1"; SetTo "sigma" "0.05"; SetTo "unitcell" "POSCAR_new"; Turn "sym" false; SetTo "displacement" "-0.02"; File "FORCE-0002"; SetTo "sigma" "0.2"]%string.
Example ex_asks : Forall2 asks ex_groups ex_effects.
Proof.
  unfold ex_groups, ex_effects.
  constructor; [apply asks_file; right; discriminate|].
  constructor; [apply asks_apart; apply names_option_b; vm_compute; reflexivity|].
  constructor; [apply (asks_joined "--sigma" "sigma" "0.05"); [apply names_option_b; vm_compute; reflexivity|discriminate]|].
  constructor; [apply (asks_attached "POSCAR_new"); [discriminate|]; intros u [<-|(t & E)]; [split; discriminate|]; split; intros ->; discriminate E|].
  constructor; [apply asks_switch; apply names_switch_b; vm_compute; reflexivity|].
  constructor; [apply asks_apart; apply names_option_b; vm_compute; reflexivity|].
  constructor; [apply asks_file; right; discriminate|].
  constructor; [apply asks_apart; apply names_option_b; vm_compute; reflexivity|]. constructor.
Qed.
Example ex_values : match command (fun _ => true) (concat ex_groups) with
  | Call e fs => fs = ["FORCE-0001"; "FORCE-0002"]%string /\ e "sigma"%string = VFloat (Q2Qc (1 # 5)) /\ e "displacement"%string = VStr "-0.02" /\
                 e "unitcell"%string = VStr "POSCAR_new" /\ e "sym"%string = VInt 0 /\ e "enlargement"%string = VStr "4 4 1" /\ e "periodicity"%string = VStr "1 1 0"
  | _ => False end.
Proof. vm_compute. repeat split; try reflexivity. all: f_equal; apply Qc_is_canon; reflexivity. Qed.
(** a misspelt option is refused, and -color is read as the unit cell file "olor" *)
Example ex_misspelt : command (fun _ => true) ["-enlarg"; "4 4 1"]%string = Usage.
Proof. vm_compute. reflexivity. Qed.
Example ex_unknown : forall f, "-enlarg"%string = f \/ (exists v, "-enlarg"%string = (f ++ "=" ++ v)%string) -> ~ known f.
Proof.
  assert (N : ~ known "-enlarg").
  { intros [(p & l & s & k & d & HI & HF)|[(p & b & l & s & HI & HF)|H]]; [| |discriminate].
    - unfold manual in HI. cbn [In] in HI. repeat (destruct HI as [HI|HI]; [injection HI as <- <- <- <- <-; destruct HF; discriminate|]). exact HI.
    - unfold switches in HI. cbn [In] in HI. repeat (destruct HI as [HI|HI]; [injection HI as <- <- <- <-; destruct HF; discriminate|]). exact HI. }
  intros f [<-|(v & E)]; [exact N|]. exfalso.
  do 8 (destruct f as [|? f]; [discriminate E|cbn [append] in E; try discriminate E]).
Qed.
Example ex_file_like_words : exists e e', command (fun _ => true) ["-ndos"; "500"; "--periodicity"; "1 1 1"]%string = Call e [] /\
  with_option_file (match command (fun _ => true) [] with Call e0 _ => e0 | _ => fun _ => VNone end) (Some ["NDOS = 500"; "Periodicity = 1 1 1 # all"]%string) = Ok e' /\
  e' "num_dos"%string = e "num_dos"%string /\ e' "periodicity"%string = VStr "1 1 1".
Proof.
  destruct (command (fun _ => true) []) as [| |e0 fs0] eqn:E0; [vm_compute in E0; discriminate..|].
  assert (F0 : fs0 = []) by (destruct (accepted (fun _ => true) [] [] e0 fs0 (Forall2_nil _) E0) as (-> & _); reflexivity). subst fs0.
  set (l := [("-ndos", "ndos", "num_dos", Whole, "500"); ("--periodicity", "periodicity", "periodicity", AnyText, "1 1 1")]%string : list asg).
  destruct (option_file_like_command_line (fun _ => true) ["NDOS = 500"; "Periodicity = 1 1 1 # all"]%string l e0) as [(H & _)|(e & e' & H1 & H2 & H3)].
  - unfold l. repeat constructor; try discriminate.
    + do 3 eexists. split; [|right; split; reflexivity]. cbn [In manual]. do 9 right. left. reflexivity.
    + do 3 eexists. split; [|left; split; reflexivity]. cbn [In manual]. do 4 right. left. reflexivity.
  - unfold l. cbn [map a_var]. repeat constructor; cbn [In]; intuition discriminate.
  - unfold l. cbn [map a_key a_text]. apply entries_set; [vm_compute; reflexivity|]. apply entries_set; [vm_compute; reflexivity|]. constructor.
  - exact E0.
  - exfalso. vm_compute in H. discriminate.
  - exists e, e'. split; [exact H1|]. split; [exact H2|]. split.
    + apply H3. left. do 4 eexists. cbn [In manual]. do 9 right. left. reflexivity.
    + rewrite H3 by (left; do 4 eexists; cbn [In manual]; do 4 right; left; reflexivity).
      assert (HP : match command (fun _ => true) ["-ndos"; "500"; "--periodicity"; "1 1 1"]%string with Call e _ => e "periodicity"%string = VStr "1 1 1" | _ => False end) by (vm_compute; reflexivity).
      cbn [concat map a_flag a_text l app] in H1. rewrite H1 in HP. exact HP.
Qed.

Print Assumptions command_line_meaning.
Print Assumptions default_unit_cell_must_exist.
Print Assumptions command_line_rejected.
Print Assumptions help_is_shown.
Print Assumptions option_file_like_command_line.
