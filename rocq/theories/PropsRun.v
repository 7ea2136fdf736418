(** Property theorems: whole runs of the program (C86-C89).
    Model: Run.v (on top of Cli.v, Cell.v, Super.v, Displace.v, Text.v, Check.v, Force.v). *)
From Coq Require Import String Ascii ZArith Arith Bool Lia List Sorted QArith Qcanon.
From Verif Require Import Base Dec Field Args ArgsFacts Cell Super SuperFacts Displace DisplaceFacts Text TextFacts TextRound PropsText
  Check CheckFacts PropsCheck PropsCell KPoints Weight Force PropsForce Cli PropsArgs PropsCli PropsOptions Session Run RunFacts.
Import ListNotations.
Local Open Scope list_scope.
Local Open Scope nat_scope.

(** * C88: the files that names denote *)
(** a single name: no '/', not empty, not '.' and not '..' *)
Definition plain (s : string) : Prop := free "/" s = true /\ s <> ""%string /\ s <> "."%string /\ s <> ".."%string.

Lemma enter_plain p s : plain s -> enter p s = p ++ [s].
Proof.
  intros (_ & A & B & C). unfold enter.
  destruct (String.eqb_spec s ""); [contradiction|]. destruct (String.eqb_spec s "."); [contradiction|]. destruct (String.eqb_spec s ".."); [contradiction|]. reflexivity.
Qed.
Lemma absolute_free s : free "/" s = true -> absolute s = false.
Proof. destruct s as [|c r]; [reflexivity|]. rewrite free_cons. cbn. destruct (Ascii.eqb c "/"); [discriminate|reflexivity]. Qed.
Lemma split_on_slash a b : split_on "/" (a ++ String "/" b) = split_on "/" a ++ split_on "/" b.
Proof.
  induction a as [|c a IH]; [reflexivity|]. cbn [append split_on]. rewrite IH. destruct (Ascii.eqb c "/"); [reflexivity|].
  destruct (split_on "/" a) eqn:E; [destruct (split_on_ne _ _ E)|]. reflexivity.
Qed.
Lemma resolve_join cwd a b : a <> ""%string -> resolve cwd (a ++ String "/" b)%string = fold_left enter (split_on "/" b) (resolve cwd a).
Proof.
  intros H. unfold resolve. rewrite split_on_slash, fold_left_app. destruct a; [congruence|]. reflexivity.
Qed.
Fixpoint slashes (s : string) : bool := match s with EmptyString => true | String c r => (Ascii.eqb c "/" && slashes r)%bool end.
Lemma slashes_fold s p : slashes s = true -> fold_left enter (split_on "/" s) p = p.
Proof.
  revert p. induction s as [|c s IH]; intros p H; [reflexivity|]. cbn [slashes] in H. apply andb_true_iff in H as [H1 H2].
  cbn [split_on]. rewrite H1. cbn [fold_left]. rewrite <- (IH p H2) at 2. reflexivity.
Qed.
Lemma lstrip_slash_decomp s : exists l, s = (l ++ lstrip_slash s)%string /\ slashes l = true.
Proof.
  induction s as [|c s (l & E & H)]; [exists ""%string; auto|]. cbn [lstrip_slash]. destruct (Ascii.eqb c "/") eqn:C.
  - exists (String c l). cbn. rewrite <- E, C, H. auto.
  - exists ""%string. auto.
Qed.
Lemma slashes_app a b : slashes (a ++ b) = (slashes a && slashes b)%bool.
Proof. induction a as [|c a IH]; [reflexivity|]. cbn. now rewrite IH, andb_assoc. Qed.
Lemma slashes_rev s : slashes (rev_string s) = slashes s.
Proof. induction s as [|c s IH]; [reflexivity|]. rewrite rev_string_cons, slashes_app, IH. cbn. rewrite andb_true_r. apply andb_comm. Qed.
Lemma lstrip_slash_empty s : lstrip_slash s = ""%string -> slashes s = true.
Proof. induction s as [|c s IH]; [reflexivity|]. cbn. destruct (Ascii.eqb c "/"); [exact IH|discriminate]. Qed.
Lemma slashes_no_strip s : slashes s = true -> lstrip_slash s = ""%string.
Proof. induction s as [|c s IH]; [reflexivity|]. cbn. destruct (Ascii.eqb c "/"); [exact IH|discriminate]. Qed.
Lemma contains_slash c r : contains "/" (String c r) = (Ascii.eqb c "/" || contains "/" r)%bool.
Proof. cbn [contains is_prefix]. rewrite andb_true_r. rewrite (Ascii.eqb_sym "/" c). reflexivity. Qed.
Lemma contains_slash_free s : free "/" s = true -> contains "/" s = false.
Proof. induction s as [|c s IH]; [reflexivity|]. rewrite free_cons, contains_slash. intros H. apply andb_true_iff in H as [H1 H2]. rewrite (IH H2). now destruct (Ascii.eqb c "/"). Qed.
Lemma contains_slash_app a b : contains "/" (a ++ String "/" b) = true.
Proof. induction a as [|c a IH]; [reflexivity|]. cbn [append]. rewrite contains_slash, IH. apply orb_true_r. Qed.
Lemma head_part_app a b : free "/" b = true -> head_part (a ++ String "/" b) = (a ++ "/")%string.
Proof.
  intros H. induction a as [|c a IH].
  - cbn [append head_part]. rewrite contains_slash. cbn [Ascii.eqb Bool.eqb orb]. f_equal.
    destruct b as [|x b]; [reflexivity|]. cbn [head_part]. now rewrite contains_slash_free.
  - cbn [append head_part]. change (String c (a ++ String "/" b)) with (String c a ++ String "/" b)%string. rewrite contains_slash_app. now rewrite IH.
Qed.
Lemma dirname_app a b : a <> ""%string -> free "/" b = true ->
  exists l, slashes l = true /\ dirname (a ++ String "/" b) <> ""%string /\ (dirname (a ++ String "/" b) ++ l = a ++ "/")%string.
Proof.
  intros Ha Hb. unfold dirname. rewrite (head_part_app a b Hb). destruct (lstrip_slash (a ++ "/")) eqn:E.
  - exists ""%string. split; [reflexivity|]. split; [destruct a; [congruence|discriminate]|]. apply string_app_nil_r.
  - destruct (lstrip_slash_decomp (rev_string (a ++ "/"))) as (l & D & H).
    exists (rev_string l). split; [now rewrite slashes_rev|]. split.
    + intros X. apply (f_equal rev_string) in X. rewrite rev_string_involutive in X. cbn in X. apply lstrip_slash_empty in X. rewrite slashes_rev in X.
      apply slashes_no_strip in X. congruence.
    + rewrite <- rev_string_app. rewrite <- D. apply rev_string_involutive.
Qed.
Lemma resolve_slashes cwd a l : a <> ""%string -> slashes l = true -> resolve cwd (a ++ l) = resolve cwd a.
Proof.
  intros Ha. destruct l as [|c l]; [intros _; now rewrite string_app_nil_r|]. cbn [slashes]. intros H. apply andb_true_iff in H as [H1 H2].
  apply Ascii.eqb_eq in H1. subst c. rewrite resolve_join by exact Ha. now apply slashes_fold.
Qed.

(** The structure that the file order check opens for a force file DIR/NAME is the file of
    the unit cell's base name in DIR. *)
Theorem checked_structure_is_beside_the_force_file :
  forall cwd dir name base, dir <> ""%string -> free "/" name = true -> plain base ->
    beside cwd (dir ++ "/" ++ name) base = resolve cwd dir ++ [base].
Proof.
  intros cwd dir name base Hd Hn Hb. unfold beside. cbn [append]. destruct (dirname_app dir name Hd Hn) as (l & Hl & Hne & E).
  rewrite resolve_join by exact Hne. rewrite split_on_free by apply Hb. cbn [fold_left]. rewrite enter_plain by exact Hb. f_equal.
  rewrite <- (resolve_slashes cwd _ l Hne Hl), E. now apply (resolve_slashes cwd dir "/").
Qed.
Print Assumptions checked_structure_is_beside_the_force_file.

(** Surprising: for a force file named without a directory the check does not open the
    structure beside it but one in the root directory of the file system. *)
Theorem bare_force_file_checked_at_the_root :
  forall cwd name base, free "/" name = true -> plain base -> beside cwd name base = [base].
Proof.
  intros cwd name base Hn Hb. unfold beside.
  assert (E : dirname name = ""%string).
  { unfold dirname. destruct name as [|c r]; [reflexivity|]. cbn [head_part]. now rewrite contains_slash_free. }
  rewrite E. unfold resolve. cbn [append absolute Ascii.eqb Bool.eqb split_on]. rewrite split_on_free by apply Hb. cbn [fold_left]. now rewrite enter_plain.
Qed.
Print Assumptions bare_force_file_checked_at_the_root.

(** A plain name is a file of the working directory; a subdirectory is entered. *)
Theorem plain_name_is_in_the_working_directory :
  forall cwd name, plain name -> resolve cwd name = cwd ++ [name] /\ last (resolve cwd name) EmptyString = name /\
    removelast (resolve cwd name) = cwd.
Proof.
  intros cwd name H. assert (E : resolve cwd name = cwd ++ [name]).
  { unfold resolve. rewrite (absolute_free name) by apply H. rewrite split_on_free by apply H. cbn. now apply enter_plain. }
  rewrite E. split; [reflexivity|]. split; [apply last_last|apply removelast_last].
Qed.
Print Assumptions plain_name_is_in_the_working_directory.

(** * Specification vocabulary *)
(** the species list handed to the Quantum ESPRESSO writer lists types of the cell, the
    weights are written as numbers *)
Definition writer_ok (species : cell Qc -> list string) (wt : string -> string) : Prop :=
  (forall c ty a, c_type c = Some ty -> In a (species c) -> In a ty) /\ (forall a, num_text (wt a)).
(** the unit cell that was read: lattice L, (type, count) groups gs, positions pos, selected
    atoms tr; names the file format can carry *)
Definition unit_cell_ok (code : string) (u : cell Qc) (L : m3 Qc) (gs : list (string * nat)) (pos : list (v3 Qc)) (tr : list Z) : Prop :=
  (exists k, complete u L (ungroup gs) (group_sizes gs) k pos) /\ c_true u = Some tr /\
  Forall (fun b => 0 <= b < Z.of_nat (length pos))%Z tr /\
  gs <> [] /\ (forall t n, In (t, n) gs -> name_ok code t /\ 0 < n).
(** the arguments: displacement d, enlargement N1 N2 N3, periodicity p1 p2 p3 *)
Definition arguments_are (e : env) (a : args) (d : Qc) (N1 N2 N3 : nat) (p1 p2 p3 : Z) : Prop :=
  set_user_arg args_init (user_args e) = Ok a /\ a_disp a = Some d /\
  a_enl a = Some [Z.of_nat N1; Z.of_nat N2; Z.of_nat N3] /\ a_pbc a = Some [p1; p2; p3] /\ 0 < N1 /\ 0 < N2 /\ 0 < N3.
(** the types of the supercell *)
Definition each_times (E : nat) (ty : list string) : list string := flat_map (fun t => repeat t E) ty.
Definition axes : list (v3 Qc) := [V3 f1 f0 f0; V3 f0 f1 f0; V3 f0 f0 f1].
(** the exact supercell: positions cur, selection ts, in the order of Props C08-C11: the
    copies of one atom together, copy 0 first *)
Definition supercell_is (L : m3 Qc) (pos : list (v3 Qc)) (tr : list Z) (N1 N2 N3 : nat) (cur : list (v3 Qc)) (ts : list Z) : Prop :=
  let E := N1 * N2 * N3 in
  length cur = length pos * E /\
  (forall i r x y z, nth_error pos i = Some r -> x < N1 -> y < N2 -> z < N3 ->
     nth_error cur (E * i + ((x * N2 + y) * N3 + z)) =
     Some (vadd r (vadd (vadd (vscale (fofZ (Z.of_nat x)) (r1 L)) (vscale (fofZ (Z.of_nat y)) (r2 L))) (vscale (fofZ (Z.of_nat z)) (r3 L))))) /\
  length ts = length tr * E /\
  (forall i b c, nth_error tr i = Some b -> c < E -> nth_error ts (E * i + c) = Some (b * Z.of_nat E + Z.of_nat c)%Z).
(** a file holds this structure, up to half a unit of the 16th decimal *)
Definition file_holds (code : string) (w : world) (p : path) (L : m3 Qc) (ty : list string) (pos : list (v3 Qc)) (sel : bool) (tr : list Z) : Prop :=
  exists c, read_structure code w p = Ok c /\ same_geometry L ty pos c /\ same_selection sel tr (length pos) c.

Lemma args_valid e a d N1 N2 N3 p1 p2 p3 : arguments_are e a d N1 N2 N3 p1 p2 p3 ->
  valid_args a (Z.of_nat N1) (Z.of_nat N2) (Z.of_nat N3) p1 p2 p3.
Proof.
  intros (H & _ & H1 & H2 & _). destruct (accepted_arguments_well_formed _ _ _ H) as (e1 & e2 & e3 & q1 & q2 & q3 & A & B & _ & C).
  rewrite H1 in A. rewrite H2 in B. injection A as <- <- <-. injection B as <- <- <-. split; [exact H1|]. split; [exact H2|exact C].
Qed.

Lemma supercell_of_built u a L gs pos tr N1 N2 N3 p1 p2 p3 k :
  complete u L (ungroup gs) (group_sizes gs) k pos -> c_true u = Some tr ->
  valid_args a (Z.of_nat N1) (Z.of_nat N2) (Z.of_nat N3) p1 p2 p3 -> 0 < N1 -> 0 < N2 -> 0 < N3 ->
  exists s cur ts, build_super u a = Ok s /\ ready s a cur (N1 * N2 * N3) (length pos) /\ c_cart s = Some cur /\ c_true s = Some ts /\ supercell_is L pos tr N1 N2 N3 cur ts.
Proof.
  intros HC HT HV P1 P2 P3.
  destruct (built_supercell u a L gs k pos tr N1 N2 N3 p1 p2 p3 HC HT HV P1 P2 P3)
    as (s & cur & ts & B & RD & SP & _ & _ & _ & SC & SCl & _ & STr & STl & STn).
  exists s, cur, ts. split; [exact B|]. split; [exact RD|]. split; [exact SC|]. split; [exact STr|].
  split; [exact SCl|]. split; [|split; [exact STl|exact STn]].
  destruct SP as [_ _ _ _ (ps & S1 & _ & S3)]. rewrite SC in S1. injection S1 as <-. intros. rewrite S3 with (r := r) by assumption. reflexivity.
Qed.


Lemma pre_core :
  forall species wt search sym_forces glob (cwd : path) (e e1 : env) file (w : world) code up (u : cell Qc) L gs pos tr a d N1 N2 N3 p1 p2 p3 k,
    writer_ok species wt ->
    with_option_file e file = Ok e1 -> truthy (e1 "process"%string) = true ->
    e1 "dft"%string = VStr code -> e1 "unitcell"%string = VStr up ->
    arguments_are e1 a d N1 N2 N3 p1 p2 p3 ->
    read_structure code w (resolve cwd up) = Ok u ->
    complete u L (ungroup gs) (group_sizes gs) k pos -> c_true u = Some tr ->
    Forall (fun b => 0 <= b < Z.of_nat (length pos))%Z tr ->
    gs <> [] -> (forall t n, In (t, n) gs -> name_ok code t /\ 0 < n) ->
    (truthy (e1 "sym"%string) = true -> length (filter (fun p => negb (Z.eqb p 0)) [p1; p2; p3]) = 2 -> forall s, search u s a = Ok None) ->
    let p := resolve cwd up in let E := N1 * N2 * N3 in
    let SL := scaled (Z.of_nat N1) (Z.of_nat N2) (Z.of_nat N3) L in
    exists w' s cur ts sw outs sc r,
      main_run species wt search sym_forces glob cwd e file [] w = (w', Ok None) /\
      build_super u a = Ok s /\ ready s a cur E (length pos) /\ c_cart s = Some cur /\ supercell_is L pos tr N1 N2 N3 cur ts /\
      write_displace_nosym u s a (Some d) = Ok (sw, outs) /\ length outs = 6 * length tr /\
      read_structure code w' (super_path p) = Ok sc /\ same_geometry SL (ungroup (scale_groups E gs)) cur sc /\
      same_selection true ts (length pos * E) sc /\
      (forall m f pf, nth_error outs m = Some f -> c_cart (o_cell f) = Some pf ->
         exists c', read_structure code w' (displaced_path p (m + 1)) = Ok c' /\ same_geometry SL (ungroup (scale_groups E gs)) pf c' /\
           same_selection false ts (length pos * E) c') /\
      (forall q, q <> super_path p -> (forall m, m < length outs -> q <> displaced_path p (m + 1)) -> w_file w' q = w_file w q) /\
      make_record (last p EmptyString) (e1 "dft"%string) None a = Ok r /\
      r = mkRecord (last p EmptyString) "SUPERCELL"%string (VStr code) None (VFloat d)
            (join_ints [Z.of_nat N1; Z.of_nat N2; Z.of_nat N3]) (join_ints [p1; p2; p3]) /\
      w_rec w' cwd = Some r /\ (forall q, q <> cwd -> w_rec w' q = w_rec w q).
Proof.
  intros species wt search sym_forces glob cwd e e1 file w code up u L gs pos tr a d N1 N2 N3 p1 p2 p3 k (HS & HW) HE HP HDft HUnit HArgs HR
    HC HT HF Hne Hg Hsym p E SL.
  pose proof (args_valid _ _ _ _ _ _ _ _ _ HArgs) as HV. pose proof HArgs as (HA & HD & A1 & A2 & P1 & P2 & P3).
  destruct (supercell_of_built u a L gs pos tr N1 N2 N3 p1 p2 p3 k HC HT HV P1 P2 P3) as (s & cur & ts & HB & RD & SC & STr & SI).
  destruct (displaced_files_without_symmetry u s a cur E (length pos) d tr RD HT HF) as (sw & outs & HWr & LO & HO).
  assert (DC : displaced_cells search u s a (truthy (e1 "sym"%string)) = Ok (None, outs)).
  { unfold displaced_cells. rewrite A2. cbn [of_option bind].
    assert (LN : length (nonzero_indices [p1; p2; p3]) = length (filter (fun p => negb (Z.eqb p 0)) [p1; p2; p3])).
    { clear. unfold nonzero_indices. cbn. destruct (Z.eqb p1 0), (Z.eqb p2 0), (Z.eqb p3 0); reflexivity. }
    rewrite LN. rewrite HD, HWr. cbn [bind].
    destruct (truthy (e1 "sym"%string)) eqn:T; cbn [andb]; [|reflexivity].
    destruct (Nat.eqb_spec (length (filter (fun p => negb (Z.eqb p 0)) [p1; p2; p3])) 2) as [X|X]; [|reflexivity].
    rewrite (Hsym eq_refl X). reflexivity. }
  assert (HO' : forall m f, nth_error outs m = Some f -> o_suffix f = suffix (m + 1) /\ no_nl (o_comment f) = true /\
       exists pf, o_cell f = put_cart (set_selective s false) pf /\ length pf = length pos * E).
  { intros m f Hm. assert (Hlt : m < 6 * length tr) by (rewrite <- LO; apply nth_error_Some; congruence).
    pose proof (Nat.div_mod m 6 ltac:(lia)) as D6. pose proof (Nat.mod_upper_bound m 6 ltac:(lia)) as M6.
    set (i := m / 6) in *. set (r6 := m mod 6) in *. clearbody i r6.
    pose proof (Nat.div_mod r6 2 ltac:(lia)) as D2. pose proof (Nat.mod_upper_bound r6 2 ltac:(lia)) as M2.
    set (j := r6 / 2) in *. set (h := r6 mod 2) in *. clearbody j h. assert (Hj : j < 3) by lia.
    destruct (nth_error tr i) as [b|] eqn:Eb; [|apply nth_error_None in Eb; lia].
    destruct SI as (LC & _).
    assert (HbF : (0 <= b < Z.of_nat (length pos))%Z) by (rewrite Forall_forall in HF; apply HF; eapply nth_error_In; eauto).
    assert (EP : 0 < E) by (destruct RD; assumption).
    assert (Hb : E * Z.to_nat b < length cur).
    { rewrite LC. fold E. rewrite (Nat.mul_comm (length pos)). apply Nat.mul_lt_mono_pos_l; lia. }
    destruct (nth_error cur (E * Z.to_nat b)) as [row|] eqn:Er; [|apply nth_error_None in Er; lia].
    destruct (nth_error axes j) as [dir|] eqn:Ed; [|apply nth_error_None in Ed; cbn in Ed; lia].
    destruct (HO i b j Eb Hj row dir Er Ed) as (ff & fb & pf & pb & N1' & N2' & S1 & S2 & C1 & C2 & O1 & O2 & M1 & M3).
    assert (h = 0 \/ h = 1) as [-> | ->] by lia.
    - replace m with (6 * i + 2 * j) in * by lia. rewrite Hm in N1'. injection N1' as <-. split; [exact S1|]. split; [rewrite C1; reflexivity|].
      exists pf. split; [exact O1|]. destruct M1 as (-> & _). exact LC.
    - replace m with (6 * i + 2 * j + 1) in * by lia. rewrite Hm in N2'. injection N2' as <-. split; [rewrite S2; f_equal; lia|]. split; [rewrite C2; reflexivity|].
      exists pb. split; [exact O2|]. destruct M3 as (-> & _). exact LC. }
  destruct (pre_run_ok species wt HS HW search cwd (user_args e1) (VStr up) (truthy (e1 "sym"%string)) w up code u a d L gs k pos tr N1 N2 N3 p1 p2 p3 s None outs)
    as (w' & cur' & ts' & sc & r & RUN & X1 & X2 & RS & GS & SS & FD & FR & MR & RC & RO); try assumption; try reflexivity.
  { cbn. now rewrite HDft. }
  rewrite SC in X1. injection X1 as <-. rewrite STr in X2. injection X2 as <-.
  fold p in RS, FD, FR, MR. fold E in GS, SS, FD. fold SL in GS, FD.
  exists w', s, cur, ts, sw, outs, sc, r. split.
  { unfold main_run, main_plan. rewrite HE. cbn [bind]. rewrite HP, HUnit.
    change (match user_args e1 with [] => VNone | (_, v) :: _ => v end) with (e1 "dft"%string). rewrite HDft, RUN. reflexivity. }
  rewrite HDft.
  split; [exact HB|]. split; [exact RD|]. split; [exact SC|]. split; [exact SI|]. split; [exact HWr|]. split; [exact LO|]. split; [exact RS|].
  split; [exact GS|]. split; [exact SS|]. split; [exact FD|]. split; [exact FR|]. split; [exact MR|]. split; [|split; [exact RC|exact RO]].
  unfold make_record in MR. rewrite A1, A2, HD in MR. cbn [of_option bind] in MR. injection MR as <-. reflexivity.
Qed.

(** * C86: what a pre-process leaves behind *)
(** In the directory of the unit cell file: the supercell and the displaced supercells; in
    the working directory: the record; nothing else changes. *)
Theorem pre_process_leaves :
  forall species wt search sym_forces glob (cwd : path) (e e1 : env) file (w : world) code up (u : cell Qc) L gs pos tr a d N1 N2 N3 p1 p2 p3,
    writer_ok species wt ->
    with_option_file e file = Ok e1 -> truthy (e1 "process"%string) = true ->
    e1 "dft"%string = VStr code -> e1 "unitcell"%string = VStr up ->
    arguments_are e1 a d N1 N2 N3 p1 p2 p3 ->
    read_structure code w (resolve cwd up) = Ok u -> unit_cell_ok code u L gs pos tr ->
    (* no symmetry is used *)
    (truthy (e1 "sym"%string) = true -> length (filter (fun p => negb (Z.eqb p 0)) [p1; p2; p3]) = 2 -> forall s, search u s a = Ok None) ->
    let p := resolve cwd up in let E := N1 * N2 * N3 in
    let SL := scaled (Z.of_nat N1) (Z.of_nat N2) (Z.of_nat N3) L in let sty := each_times E (ungroup gs) in
    exists w' cur ts, main_run species wt search sym_forces glob cwd e file [] w = (w', Ok None) /\
      supercell_is L pos tr N1 N2 N3 cur ts /\
      file_holds code w' (removelast p ++ ["SUPERCELL"%string]) SL sty cur true ts /\
      (forall i b j row dir, nth_error tr i = Some b -> nth_error axes j = Some dir -> nth_error cur (E * Z.to_nat b) = Some row ->
         exists pf pb, moved_one cur pf (E * Z.to_nat b) (vadd row (vscale d dir)) /\ moved_one cur pb (E * Z.to_nat b) (vsub row (vscale d dir)) /\
           file_holds code w' (removelast p ++ [(last p EmptyString ++ suffix (6 * i + 2 * j + 1))%string]) SL sty pf false ts /\
           file_holds code w' (removelast p ++ [(last p EmptyString ++ suffix (6 * i + 2 * j + 2))%string]) SL sty pb false ts) /\
      (forall q, q <> removelast p ++ ["SUPERCELL"%string] ->
         (forall m, 1 <= m <= 6 * length tr -> q <> removelast p ++ [(last p EmptyString ++ suffix m)%string]) -> w_file w' q = w_file w q) /\
      w_rec w' cwd = Some (mkRecord (last p EmptyString) "SUPERCELL"%string (VStr code) None (VFloat d)
                             (join_ints [Z.of_nat N1; Z.of_nat N2; Z.of_nat N3]) (join_ints [p1; p2; p3])) /\
      (forall q, q <> cwd -> w_rec w' q = w_rec w q).
Proof.
  intros species wt search sym_forces glob cwd e e1 file w code up u L gs pos tr a d N1 N2 N3 p1 p2 p3 (HS & HW) HE HP HDft HUnit HArgs HR
    ((k & HC) & HT & HF & Hne & Hg) Hsym p E SL sty.
  destruct (pre_core species wt search sym_forces glob cwd e e1 file w code up u L gs pos tr a d N1 N2 N3 p1 p2 p3 k (conj HS HW) HE HP HDft HUnit HArgs HR HC HT HF Hne Hg Hsym)
    as (w' & s & cur & ts & sw & outs & sc & r & RUN & HB & RD & SC & SI & HWr & LO & RS & GS & SS & FD & FR & MR & RE & RC & RO).
  destruct (displaced_files_without_symmetry u s a cur E (length pos) d tr RD HT HF) as (sw2 & outs2 & HWr2 & _ & HO).
  rewrite HWr in HWr2. injection HWr2 as <- <-.
  assert (LC : length cur = length pos * E) by apply SI.
  assert (TY : ungroup (scale_groups E gs) = sty) by (unfold sty, each_times; now rewrite flat_map_ungroup).
  fold p in RS, FD, FR, RE. fold E in GS, SS, FD. fold SL in GS, FD. rewrite TY in GS, FD.
  exists w', cur, ts. split; [exact RUN|].
  split; [exact SI|]. split.
  { exists sc. split; [exact RS|]. split; [exact GS|]. rewrite LC. exact SS. }
  split.
  { intros i b j row dir Hi Hd Hrow. assert (Hj : j < 3) by (change 3 with (length axes); apply nth_error_Some; congruence).
    destruct (HO i b j Hi Hj row dir Hrow Hd) as (ff & fb & pf & pb & N1' & N2' & _ & _ & _ & _ & O1 & O2 & M1 & M3).
    exists pf, pb. split; [exact M1|]. split; [exact M3|]. split.
    - destruct (FD _ ff pf N1') as (c' & Y1 & Y2 & Y3); [rewrite O1; reflexivity|]. exists c'. split; [exact Y1|]. split; [exact Y2|].
      destruct M1 as (-> & _). rewrite LC. exact Y3.
    - destruct (FD _ fb pb N2') as (c' & Y1 & Y2 & Y3); [rewrite O2; reflexivity|]. exists c'. split; [|split; [exact Y2|]].
      + replace (6 * i + 2 * j + 2) with (6 * i + 2 * j + 1 + 1) by lia. exact Y1.
      + destruct M3 as (-> & _). rewrite LC. exact Y3. }
  split.
  { intros q Q1 Q2. apply FR; [exact Q1|]. intros m Hm. apply Q2. lia. }
  split; [|exact RO].
  rewrite RC. now rewrite RE.
Qed.
Print Assumptions pre_process_leaves.

Lemma exp_dirs_cells s cur i r (d : Qc) dirs : forall num o, In o (exp_dirs s cur i r d dirs num) ->
  no_nl (o_comment o) = true /\ exists pf, o_cell o = put_cart s pf /\ length pf = length cur.
Proof.
  induction dirs as [|dir dirs IH]; intros num o H; [destruct H|]. cbn [exp_dirs] in H. destruct H as [<-|[<-|H]]; [| |eapply IH; exact H];
    (split; [reflexivity|]; cbn [o_cell]; eexists; split; [reflexivity|]; apply set_nth_length).
Qed.
Lemma exp_atoms_cells s cur (d : Qc) l : forall num o, In o (exp_atoms s cur d l num) ->
  no_nl (o_comment o) = true /\ exists pf, o_cell o = put_cart s pf /\ length pf = length cur.
Proof.
  induction l as [|[i dirs] l IH]; intros num o H; [destruct H|]. cbn [exp_atoms] in H. apply in_app_or in H as [H|H]; [eapply exp_dirs_cells; exact H|eapply IH; exact H].
Qed.

Lemma targets_in_range (req : list (nat * (v3 Qc * list (v3 Qc)))) tr n targets :
  Forall (fun b => 0 <= b < Z.of_nat n)%Z tr -> Forall (fun '(k, _) => k < length tr) req ->
  mapM (fun '(k, (d1, more)) => let! i := py_nth tr k in Ok (i, d1 :: more)) req = Ok targets -> targets_ok n targets.
Proof.
  intros HF HQ H. unfold targets_ok. apply mapM_ok_Forall2 in H. revert HQ. induction H as [|[x [y z]] t0 l l' H0 _ IH]; intros HQ; [constructor|].
  inversion HQ as [|? ? Q1 Q2]; subst. constructor; [|now apply IH]. apply bind_ok in H0 as (b & Hb & H0). injection H0 as <-.
  unfold py_nth in Hb. destruct (nth_error tr x) eqn:Ex; [|discriminate]. injection Hb as <-. rewrite Forall_forall in HF. apply HF. eapply nth_error_In; eauto.
Qed.

(** With symmetry: one pair of files for every required direction of every required atom,
    in the order of the list found by the search; the point group is recorded. *)
Theorem pre_process_leaves_with_symmetry :
  forall species wt search sym_forces glob (cwd : path) (e e1 : env) file (w : world) code up (u : cell Qc) L gs pos tr a d N1 N2 N3 p1 p2 p3 pg req,
    writer_ok species wt ->
    with_option_file e file = Ok e1 -> truthy (e1 "process"%string) = true ->
    e1 "dft"%string = VStr code -> e1 "unitcell"%string = VStr up ->
    arguments_are e1 a d N1 N2 N3 p1 p2 p3 ->
    read_structure code w (resolve cwd up) = Ok u -> unit_cell_ok code u L gs pos tr ->
    truthy (e1 "sym"%string) = true -> length (filter (fun p => negb (Z.eqb p 0)) [p1; p2; p3]) = 2 ->
    (* the search on the unit cell and its supercell, not selective *)
    (forall s, build_super u a = Ok s -> search u (set_selective s false) a = Ok (Some (pg, req))) ->
    Forall (fun q => fst q < length tr) req ->
    let p := resolve cwd up in let E := N1 * N2 * N3 in
    let SL := scaled (Z.of_nat N1) (Z.of_nat N2) (Z.of_nat N3) L in let sty := each_times E (ungroup gs) in
    let pairs (l : list (nat * (v3 Qc * list (v3 Qc)))) := list_sum (map (fun q => S (length (snd (snd q)))) l) in
    exists w' cur ts, main_run species wt search sym_forces glob cwd e file [] w = (w', Ok None) /\
      supercell_is L pos tr N1 N2 N3 cur ts /\
      file_holds code w' (removelast p ++ ["SUPERCELL"%string]) SL sty cur true ts /\
      (forall t k d1 more b j row dir, nth_error req t = Some (k, (d1, more)) -> nth_error tr k = Some b ->
         nth_error (d1 :: more) j = Some dir -> nth_error cur (E * Z.to_nat b) = Some row ->
         let m := 2 * (pairs (firstn t req) + j) in
         exists pf pb, moved_one cur pf (E * Z.to_nat b) (vadd row (vscale d dir)) /\ moved_one cur pb (E * Z.to_nat b) (vsub row (vscale d dir)) /\
           file_holds code w' (removelast p ++ [(last p EmptyString ++ suffix (m + 1))%string]) SL sty pf false ts /\
           file_holds code w' (removelast p ++ [(last p EmptyString ++ suffix (m + 2))%string]) SL sty pb false ts) /\
      (forall q, q <> removelast p ++ ["SUPERCELL"%string] ->
         (forall m, 1 <= m <= 2 * pairs req -> q <> removelast p ++ [(last p EmptyString ++ suffix m)%string]) -> w_file w' q = w_file w q) /\
      w_rec w' cwd = Some (mkRecord (last p EmptyString) "SUPERCELL"%string (VStr code) (Some pg) (VFloat d)
                             (join_ints [Z.of_nat N1; Z.of_nat N2; Z.of_nat N3]) (join_ints [p1; p2; p3])) /\
      (forall q, q <> cwd -> w_rec w' q = w_rec w q).
Proof.
  intros species wt search sym_forces glob cwd e e1 file w code up u L gs pos tr a d N1 N2 N3 p1 p2 p3 pg req (HS & HW) HE HP HDft HUnit HArgs HR
    ((k & HC) & HT & HF & Hne & Hg) Tsym T2 Hsearch HQ p E SL sty pairs.
  pose proof (args_valid _ _ _ _ _ _ _ _ _ HArgs) as HV. pose proof HArgs as (HA & HD & A1 & A2 & P1 & P2 & P3).
  destruct (supercell_of_built u a L gs pos tr N1 N2 N3 p1 p2 p3 k HC HT HV P1 P2 P3) as (s & cur & ts & HB & RD & SC & STr & SI).
  assert (HQ' : Forall (fun '(k, _) => k < length tr) req) by (apply Forall_forall; intros [x y] Hin; rewrite Forall_forall in HQ; exact (HQ _ Hin)).
  destruct (displaced_files_with_symmetry u s a cur E (length pos) d tr req RD HT HF HQ') as (sw & outs & HWr & LO & HSuf & HO).
  assert (PE : forall l, list_sum (map (fun '(_, (_, more)) => S (length more)) l) = pairs l).
  { intros l. unfold pairs. f_equal. apply map_ext. intros [x [y z]]. reflexivity. }
  assert (LC : length cur = length pos * E) by apply SI.
  assert (DC : displaced_cells search u s a (truthy (e1 "sym"%string)) = Ok (Some pg, outs)).
  { unfold displaced_cells. rewrite A2. cbn [of_option bind].
    assert (LN : length (nonzero_indices [p1; p2; p3]) = length (filter (fun p => negb (Z.eqb p 0)) [p1; p2; p3])).
    { clear. unfold nonzero_indices. cbn. destruct (Z.eqb p1 0), (Z.eqb p2 0), (Z.eqb p3 0); reflexivity. }
    rewrite LN, T2, Tsym. cbn [andb Nat.eqb]. rewrite (Hsearch s HB). cbn [bind]. rewrite HD, HWr. reflexivity. }
  assert (HO' : forall m f, nth_error outs m = Some f -> o_suffix f = suffix (m + 1) /\ no_nl (o_comment f) = true /\
       exists pf, o_cell f = put_cart (set_selective s false) pf /\ length pf = length pos * E).
  { intros m f Hm. split; [exact (HSuf m f Hm)|].
    pose proof HWr as X. unfold write_displace_sym in X. rewrite HT in X. cbn [of_option bind] in X.
    apply bind_ok in X as (targets & Htg & X).
    assert (TO : targets_ok (length pos) targets) by exact (targets_in_range req tr (length pos) targets HF HQ' Htg).
    destruct (write_displaced_ok s a cur E (length pos) d targets RD TO) as (s' & W & _).
    rewrite W in X. injection X as _ <-. apply nth_error_In in Hm. apply exp_atoms_cells in Hm as (Y1 & pf & Y2 & Y3).
    split; [exact Y1|]. exists pf. split; [exact Y2|congruence]. }
  destruct (pre_run_ok species wt HS HW search cwd (user_args e1) (VStr up) (truthy (e1 "sym"%string)) w up code u a d L gs k pos tr N1 N2 N3 p1 p2 p3 s (Some pg) outs)
    as (w' & cur' & ts' & sc & r & RUN & X1 & X2 & RS & GS & SS & FD & FR & MR & RC & RO); try assumption; try reflexivity.
  { cbn. now rewrite HDft. }
  rewrite SC in X1. injection X1 as <-. rewrite STr in X2. injection X2 as <-.
  assert (TY : ungroup (scale_groups E gs) = sty) by (unfold sty, each_times; now rewrite flat_map_ungroup).
  fold p in RS, FD, FR, MR. fold E in GS, SS, FD. fold SL in GS, FD. rewrite TY in GS, FD.
  exists w', cur, ts. split.
  { unfold main_run, main_plan. rewrite HE. cbn [bind]. rewrite HP, HUnit.
    change (match user_args e1 with [] => VNone | (_, v) :: _ => v end) with (e1 "dft"%string). rewrite HDft, RUN. reflexivity. }
  split; [exact SI|]. split.
  { exists sc. split; [exact RS|]. split; [exact GS|]. rewrite LC. exact SS. }
  split.
  { intros t k0 d1 more b j row dir Hq Hb Hd Hrow m.
    destruct (HO t k0 d1 more b j dir row Hq Hb Hd Hrow) as (ff & fb & pf & pb & N1' & N2' & _ & _ & O1 & O2 & M1 & M3).
    rewrite PE in N1', N2'. fold m in N1', N2'.
    exists pf, pb. split; [exact M1|]. split; [exact M3|]. split.
    - destruct (FD _ ff pf N1') as (c' & Y1 & Y2 & Y3); [rewrite O1; reflexivity|]. exists c'. split; [exact Y1|]. split; [exact Y2|].
      destruct M1 as (-> & _). rewrite LC. exact Y3.
    - destruct (FD _ fb pb N2') as (c' & Y1 & Y2 & Y3); [rewrite O2; reflexivity|]. exists c'. split; [|split; [exact Y2|]].
      + replace (m + 2) with (m + 1 + 1) by lia. exact Y1.
      + destruct M3 as (-> & _). rewrite LC. exact Y3. }
  split.
  { intros q Q1 Q2. apply FR; [exact Q1|]. intros m Hm. apply Q2. rewrite LO, PE in Hm. lia. }
  split; [|exact RO].
  rewrite RC. f_equal. unfold make_record in MR. rewrite A1, A2, HD in MR. cbn [of_option bind] in MR. injection MR as <-. reflexivity.
Qed.
Print Assumptions pre_process_leaves_with_symmetry.

(** * C87: from the pre-process through the user's DFT runs to the force constants *)
Lemma app_suffix_neq a k : a <> (a ++ suffix k)%string.
Proof. induction a as [|c a IH]; [discriminate|]. cbn [append]. intros H. injection H as H. exact (IH H). Qed.
Lemma post_plan_shape glob e forces r pl : 2 <= length forces -> post_plan glob e forces r = Ok pl ->
  exists d t b m, pl = PostPlan (user_args (merge_record e r)) (truthy (merge_record e r "sym"%string))
    (merge_record e r "unitcell"%string) (merge_record e r "supercell"%string) forces d t b m.
Proof.
  intros Hl H. unfold post_plan in H.
  destruct (is_none (merge_record e r "kpoint_dos"%string) && is_none (merge_record e r "kpoint_band"%string))%bool; [discriminate|].
  apply bind_ok in H as (ff & HF & H). apply bind_ok in H as (? & _ & H). apply bind_ok in H as (? & _ & H).
  apply bind_ok in H as (? & _ & H). apply bind_ok in H as (? & _ & H).
  destruct forces as [|f0 [|f1 fr]]; [cbn in Hl; lia|cbn in Hl; lia|]. injection HF as <-. injection H as <-. do 4 eexists. reflexivity.
Qed.
Lemma repeated_pick (e1 e2 : env) (x default : string) (rec merged : pyval) :
  repeated e1 e2 x default -> rec = e1 x -> (e2 x = VStr default -> merged = rec) -> (e2 x <> VStr default -> merged = e2 x) -> merged = e1 x.
Proof.
  intros [H|H] R A B.
  - destruct (is_str (e2 x) default) eqn:I.
    + rewrite A; [exact R|]. destruct (e2 x); try discriminate. apply String.eqb_eq in I. now subst.
    + rewrite B; [exact H|]. intros X. rewrite X in I. cbn in I. now rewrite String.eqb_refl in I.
  - rewrite (A H). exact R.
Qed.

(** The post-process is run later, in the same directory, in a world [w2] where the user has
    put a copy of the m-th displaced structure beside the m-th force file; the unit cell,
    the supercell and the record are still there; options are repeated or left out. *)
Theorem end_to_end_force_constants :
  forall species wt search sym_forces glob (cwd : path) (e e1 : env) file (w w1 w2 : world) code up (u : cell Qc) L gs pos tr a d N1 N2 N3 p1 p2 p3
         (e2 e3 : env) file2 (ff : list string) out1,
    let E := N1 * N2 * N3 in let n := length pos * E in
    let SL := scaled (Z.of_nat N1) (Z.of_nat N2) (Z.of_nat N3) L in let sty := each_times E (ungroup gs) in
    (* the pre-process *)
    writer_ok species wt ->
    with_option_file e file = Ok e1 -> truthy (e1 "process"%string) = true ->
    e1 "dft"%string = VStr code -> e1 "unitcell"%string = VStr up -> plain up -> up <> "SUPERCELL"%string ->
    arguments_are e1 a d N1 N2 N3 p1 p2 p3 ->
    (Z.of_nat N1 <= 10000000)%Z -> (Z.of_nat N2 <= 10000000)%Z -> (Z.of_nat N3 <= 10000000)%Z ->
    read_structure code w (cwd ++ [up]) = Ok u -> unit_cell_ok code u L gs pos tr -> tr <> [] ->
    c_xyz u = Some (flat_map (fun i => [i; i; i]) tr) ->
    (forall t k, In (t, k) gs -> exists we, get_atomic_weight t = Ok (Some we)) ->
    (truthy (e1 "sym"%string) = true -> length (filter (fun p => negb (Z.eqb p 0)) [p1; p2; p3]) = 2 -> forall s, search u s a = Ok None) ->
    main_run species wt search sym_forces glob cwd e file [] w = (w1, out1) ->
    (* the world of the post-process *)
    w_file w2 (cwd ++ [up]) = w_file w1 (cwd ++ [up]) ->
    w_file w2 (cwd ++ ["SUPERCELL"%string]) = w_file w1 (cwd ++ ["SUPERCELL"%string]) ->
    w_rec w2 cwd = w_rec w1 cwd ->
    length ff = 6 * length tr ->
    (forall m f, nth_error ff m = Some f -> w_file w2 (beside cwd f up) = w_file w1 (cwd ++ [(up ++ suffix (m + 1))%string])) ->
    (forall f, In f ff -> exists G, read_forces code w2 cwd n f = Ok G /\ length G = n) ->
    (* its options *)
    with_option_file e2 file2 = Ok e3 ->
    repeated e1 e3 "unitcell"%string "POSCAR" -> repeated e1 e3 "dft"%string "vasp" -> e3 "supercell"%string = VNone ->
    repeated e1 e3 "displacement"%string "0.02" -> repeated e1 e3 "enlargement"%string "2 2 1" -> repeated e1 e3 "periodicity"%string "1 1 0" ->
    (exists pl, main_plan glob e2 file2 ff (of_option EIO (w_rec w2 cwd)) = Ok pl) ->
    exists x cur ts, out1 = Ok None /\ main_run species wt search sym_forces glob cwd e2 file2 ff w2 = (w2, Ok (Some x)) /\
      pp_arg x = a /\
      (* the unit cell is the one that was read, with masses *)
      (c_lat (pp_unit x) = c_lat u /\ c_type (pp_unit x) = c_type u /\ c_cart (pp_unit x) = c_cart u /\ c_true (pp_unit x) = c_true u /\ c_mass (pp_unit x) <> None) /\
      (* the supercell is the exact one, up to the 16th decimal *)
      supercell_is L pos tr N1 N2 N3 cur ts /\ same_geometry SL sty cur (pp_super x) /\
      (* column 3i+j holds the differences of files 6i+2j and 6i+2j+1 *)
      (forall c f g G H t v v' i, nth_error ff (2 * c) = Some f -> nth_error ff (2 * c + 1) = Some g ->
         read_forces code w2 cwd n f = Ok G -> read_forces code w2 cwd n g = Ok H ->
         nth_error G t = Some v -> nth_error H t = Some v' -> i < 3 ->
         pp_force x (3 * t + i) c =
         Some (fdiv (fopp (fsub (component v i) (component v' i))) (fmul (fmul (fofZ 2) d) (fdiv f1 (fofZ (10 ^ 10)))))).
Proof.
  intros species wt search sym_forces glob cwd e e1 file w w1 w2 code up u L gs pos tr a d N1 N2 N3 p1 p2 p3 e2 e3 file2 ff out1 E n SL sty
    HWO HE HP HDft HUnit Hpl HnS HArgs B1 B2 B3 HR ((k & HC) & HT & HF & Hne & Hg) Htr HX HWt Hsym RUN1 K1 K2 K3 HLf HCopy HForces
    HE2 RU RDft RSup RDi REn RPe (pl & HPl).
  destruct (plain_name_is_in_the_working_directory cwd up Hpl) as (PR & PL & PD).
  rewrite <- PR in HR.
  destruct (pre_core species wt search sym_forces glob cwd e e1 file w code up u L gs pos tr a d N1 N2 N3 p1 p2 p3 k HWO HE HP HDft HUnit HArgs HR HC HT HF Hne Hg Hsym)
    as (w' & s & cur & ts & sw & outs & sc & r & RUN & HB & RD & SC & SI & HWr & LO & RS & GS & SS & FD & FR & MR & RE & RC & RO).
  rewrite RUN1 in RUN. injection RUN as -> ->. rename w' into w1.
  pose proof (args_valid _ _ _ _ _ _ _ _ _ HArgs) as HV. pose proof HArgs as (HA & HD & A1 & A2 & P1 & P2 & P3).
  assert (SPath : super_path (resolve cwd up) = cwd ++ ["SUPERCELL"%string]) by (unfold super_path; now rewrite PD).
  assert (DPath : forall m, displaced_path (resolve cwd up) m = cwd ++ [(up ++ suffix m)%string]) by (intros; unfold displaced_path; now rewrite PD, PL).
  (* the unit cell file is not touched *)
  assert (UF : w_file w1 (cwd ++ [up]) = w_file w (cwd ++ [up])).
  { apply FR.
    - rewrite SPath. intros X. apply snoc_inj in X. contradiction.
    - intros m _ X. rewrite DPath in X. apply snoc_inj in X. exact (app_suffix_neq up (m + 1) X). }
  assert (HU2 : read_structure code w2 (resolve cwd up) = Ok u).
  { rewrite <- HR. apply read_structure_ext. rewrite PR. congruence. }
  assert (HS2 : read_structure code w2 (resolve cwd "SUPERCELL") = Ok sc).
  { rewrite <- RS. apply read_structure_ext. rewrite SPath. rewrite (proj1 (plain_name_is_in_the_working_directory cwd "SUPERCELL" ltac:(repeat split; discriminate))). exact K2. }
  (* the plan *)
  rewrite K3, RC in HPl. cbn [of_option] in HPl.
  assert (LF2 : 2 <= length ff) by (rewrite HLf; destruct tr; [congruence|cbn; lia]).
  assert (HPl2 : post_plan glob e3 ff r = Ok pl).
  { unfold main_plan in HPl. rewrite HE2 in HPl. cbn [bind] in HPl. destruct ff as [|f0 fr]; [cbn in LF2; lia|]. exact HPl. }
  destruct (post_plan_shape glob e3 ff r pl LF2 HPl2) as (dd & tt & bb & mm & ->).
  destruct (record_precedence e3 r ""%string) as (Q1 & Q2 & Q3 & _ & _ & _ & _).
  assert (MU : merge_record e3 r "unitcell"%string = VStr up).
  { rewrite <- HUnit. apply (repeated_pick e1 e3 "unitcell" "POSCAR" (VStr (r_unit r))); try apply Q1; auto. rewrite RE. cbn [r_unit]. rewrite PL. now rewrite HUnit. }
  assert (MD : merge_record e3 r "dft"%string = VStr code).
  { rewrite <- HDft. apply (repeated_pick e1 e3 "dft" "vasp" (r_dft r)); try apply Q3; auto. rewrite RE. now rewrite HDft. }
  assert (MS : merge_record e3 r "supercell"%string = VStr "SUPERCELL").
  { rewrite (proj1 Q2 RSup). now rewrite RE. }
  assert (SYM : truthy (merge_record e3 r "sym"%string) = false).
  { destruct (truthy (merge_record e3 r "sym"%string)) eqn:T; [|reflexivity].
    exfalso. assert (X := symmetry_follows_the_record glob e2 file2 ff r _ _ _ _ _ _ _ _ _ HPl). rewrite RE in X. cbn [r_pg] in X. exact (proj1 X eq_refl eq_refl). }
  assert (UA : set_user_arg args_init (user_args (merge_record e3 r)) = Ok a).
  { eapply record_restores_arguments; eauto. }
  assert (TY : ungroup (scale_groups E gs) = sty) by (unfold sty, each_times; now rewrite flat_map_ungroup).
  destruct (post_run_ok search sym_forces cwd (user_args (merge_record e3 r)) up "SUPERCELL" ff w2 code u s sc sw a d L gs k pos tr N1 N2 N3 p1 p2 p3 cur outs)
    as (u' & s' & fc & RUN2 & (ms & MO) & GS' & _ & _ & COL); try assumption.
  { cbn. now rewrite MD. }
  { congruence. }
  { intros m f o pf Hf Ho Hpf. destruct (FD m o pf Ho Hpf) as (c' & Y1 & (_ & _ & (pf' & Y2 & Y3) & _) & _).
    exists c', pf'. split; [|split; [exact Y2|exact Y3]]. rewrite <- Y1. apply read_structure_ext. rewrite PL, DPath. apply HCopy. exact Hf. }
  exists (mkPrepared u' s' a fc), cur, ts. split; [reflexivity|]. split.
  { unfold main_run. rewrite K3, RC. cbn [of_option]. rewrite HPl. rewrite SYM, MU, MS, RUN2. reflexivity. }
  split; [reflexivity|]. split.
  { cbn [pp_unit]. rewrite MO. cbn. repeat split; discriminate. }
  split; [exact SI|]. split; [cbn [pp_super]; unfold SL; rewrite <- TY; exact GS'|].
  cbn [pp_force]. exact COL.
Qed.
Print Assumptions end_to_end_force_constants.

(** ** exact force constants, through the files *)
(** a number that 16 decimals write exactly *)
Definition decimal16 (x : Qc) : Prop := exists k : Z, x = Q2Qc (k # 10000000000000000).
Definition vdecimal16 (v : v3 Qc) : Prop := decimal16 (vx v) /\ decimal16 (vy v) /\ decimal16 (vz v).

Lemma decimal16_add x y : decimal16 x -> decimal16 y -> decimal16 (x + y)%Qc.
Proof. intros (a & ->) (b & ->). exists (a + b)%Z. apply Qc_is_canon. cbn [this Q2Qc Qcplus]. rewrite !Qred_correct. unfold Qeq, Qplus. cbn [Qnum Qden]. lia. Qed.
Lemma decimal16_opp x : decimal16 x -> decimal16 (- x)%Qc.
Proof. intros (a & ->). exists (- a)%Z. apply Qc_is_canon. cbn [this Q2Qc Qcopp]. rewrite !Qred_correct. reflexivity. Qed.
Lemma decimal16_0 : decimal16 (Q2Qc 0).
Proof. exists 0%Z. apply Qc_is_canon. reflexivity. Qed.
Lemma vwithin_decimal u v : vwithin u v -> vdecimal16 u -> v = u.
Proof.
  intros ((_ & _ & X) & (_ & _ & Y) & (_ & _ & Z)) ((a & A) & (b & B) & (c & C)). destruct u, v. cbn in *.
  rewrite (X a A), (Y b B), (Z c C). reflexivity.
Qed.
Lemma Forall2_decimal p q : Forall2 vwithin p q -> Forall vdecimal16 p -> q = p.
Proof. induction 1 as [|u v p q H _ IH]; intros F; [reflexivity|]. inversion F; subst. rewrite (vwithin_decimal _ _ H) by assumption. f_equal. auto. Qed.
Lemma moved_decimal cur p k v : k < length cur -> moved_one cur p k v -> Forall vdecimal16 cur -> vdecimal16 v -> Forall vdecimal16 p.
Proof.
  intros Hk (M1 & M2 & M3) HC HV. apply Forall_forall. intros x Hx. apply In_nth_error in Hx as (m & Hm).
  destruct (Nat.eq_dec m k) as [->|N]; [congruence|]. rewrite M3 in Hm by exact N. rewrite Forall_forall in HC. apply HC. eapply nth_error_In; eauto.
Qed.
Lemma moved_coordinates (d : Qc) j dir row : nth_error axes j = Some dir -> decimal16 d -> vdecimal16 row ->
  vdecimal16 (vadd row (vscale d dir)) /\ vdecimal16 (vsub row (vscale d dir)).
Proof.
  intros Hj Hd (A & B & C).
  assert (D1 : decimal16 (d * 1)%Qc) by (rewrite Qcmult_1_r; exact Hd).
  assert (D0 : decimal16 (d * 0)%Qc) by (rewrite Qcmult_0_r; apply decimal16_0).
  destruct j as [|[|[|j]]]; cbn in Hj; try (destruct j; discriminate); injection Hj as <-; destruct row;
    (split; (split; [|split]); unfold Qcminus; apply decimal16_add; try assumption; try apply decimal16_opp; assumption).
Qed.

(** the structures and the force constants of the post-process *)
Lemma end_to_end_exact :
  forall species wt search sym_forces glob (cwd : path) (e e1 : env) file (w w1 w2 : world) code up (u : cell Qc) L gs pos tr a d N1 N2 N3 p1 p2 p3
         (e2 e3 : env) file2 (ff : list string) out1 law Phi,
    let E := N1 * N2 * N3 in let n := length pos * E in
    writer_ok species wt ->
    with_option_file e file = Ok e1 -> truthy (e1 "process"%string) = true ->
    e1 "dft"%string = VStr code -> e1 "unitcell"%string = VStr up -> plain up -> up <> "SUPERCELL"%string ->
    arguments_are e1 a d N1 N2 N3 p1 p2 p3 ->
    (Z.of_nat N1 <= 10000000)%Z -> (Z.of_nat N2 <= 10000000)%Z -> (Z.of_nat N3 <= 10000000)%Z ->
    read_structure code w (cwd ++ [up]) = Ok u -> unit_cell_ok code u L gs pos tr -> tr <> [] ->
    c_xyz u = Some (flat_map (fun i => [i; i; i]) tr) ->
    (forall t k, In (t, k) gs -> exists we, get_atomic_weight t = Ok (Some we)) ->
    (truthy (e1 "sym"%string) = true -> length (filter (fun p => negb (Z.eqb p 0)) [p1; p2; p3]) = 2 -> forall s, search u s a = Ok None) ->
    main_run species wt search sym_forces glob cwd e file [] w = (w1, out1) ->
    w_file w2 (cwd ++ [up]) = w_file w1 (cwd ++ [up]) ->
    w_file w2 (cwd ++ ["SUPERCELL"%string]) = w_file w1 (cwd ++ ["SUPERCELL"%string]) ->
    w_rec w2 cwd = w_rec w1 cwd ->
    length ff = 6 * length tr ->
    (forall m f, nth_error ff m = Some f -> w_file w2 (beside cwd f up) = w_file w1 (cwd ++ [(up ++ suffix (m + 1))%string])) ->
    (* the force law, and the force files of the DFT runs on the structures in their directories *)
    d <> Q2Qc 0 -> decimal16 d ->
    (forall cur ts, supercell_is L pos tr N1 N2 N3 cur ts -> Forall vdecimal16 cur /\ harmonic cur law Phi) ->
    (forall f c p, In f ff -> read_structure code w2 (beside cwd f up) = Ok c -> c_cart c = Some p -> read_forces code w2 cwd n f = Ok (law p)) ->
    with_option_file e2 file2 = Ok e3 ->
    repeated e1 e3 "unitcell"%string "POSCAR" -> repeated e1 e3 "dft"%string "vasp" -> e3 "supercell"%string = VNone ->
    repeated e1 e3 "displacement"%string "0.02" -> repeated e1 e3 "enlargement"%string "2 2 1" -> repeated e1 e3 "periodicity"%string "1 1 0" ->
    (exists pl, main_plan glob e2 file2 ff (of_option EIO (w_rec w2 cwd)) = Ok pl) ->
    exists x, main_run species wt search sym_forces glob cwd e2 file2 ff w2 = (w2, Ok (Some x)) /\
      pp_arg x = a /\ (c_lat (pp_unit x) = c_lat u /\ c_type (pp_unit x) = c_type u /\ c_cart (pp_unit x) = c_cart u /\ c_true (pp_unit x) = c_true u /\ c_mass (pp_unit x) <> None) /\
      (exists cur ts, supercell_is L pos tr N1 N2 N3 cur ts /\ Forall vdecimal16 cur /\
         same_geometry (scaled (Z.of_nat N1) (Z.of_nat N2) (Z.of_nat N3) L) (each_times E (ungroup gs)) cur (pp_super x)) /\
      forall i b j al t, nth_error tr i = Some b -> j < 3 -> al < 3 -> t < n ->
        pp_force x (3 * t + al) (3 * i + j) = Some (fdiv (entry (Phi t (E * Z.to_nat b)) al j) (fdiv f1 (fofZ (10 ^ 10)))).
Proof.
  intros species wt search sym_forces glob cwd e e1 file w w1 w2 code up u L gs pos tr a d N1 N2 N3 p1 p2 p3 e2 e3 file2 ff out1 law Phi E n
    HWO HE HP HDft HUnit Hpl HnS HArgs B1 B2 B3 HR HUC Htr HX HWt Hsym RUN1 K1 K2 K3 HLf HCopy Hd0 Hd HLaw HDFT
    HE2 RU RDft RSup RDi REn RPe HPl.
  destruct (plain_name_is_in_the_working_directory cwd up Hpl) as (PR & PL & PD).
  pose proof HR as HR'. rewrite <- PR in HR'.
  destruct (pre_process_leaves species wt search sym_forces glob cwd e e1 file w code up u L gs pos tr a d N1 N2 N3 p1 p2 p3 HWO HE HP HDft HUnit HArgs HR' HUC Hsym)
    as (w' & cur & ts & RUN & SI & _ & HF & _).
  rewrite RUN1 in RUN. injection RUN as -> ->. rename w' into w1. rewrite PL, PD in HF. fold E in HF.
  destruct (HLaw cur ts SI) as (HDc & HH).
  assert (LC : length cur = n) by apply SI.
  destruct HUC as ((k & HC) & HT & HRange & Hne & Hg). pose proof HArgs as (_ & _ & _ & _ & P1 & P2 & P3).
  assert (EP : 0 < E) by (unfold E; apply Nat.mul_pos_pos; [apply Nat.mul_pos_pos|]; assumption).
  (* the forces of file 6i+2j and 6i+2j+1 *)
  assert (KF : forall i b j, nth_error tr i = Some b -> j < 3 -> exists f g row dir pf pb,
     nth_error ff (2 * (3 * i + j)) = Some f /\ nth_error ff (2 * (3 * i + j) + 1) = Some g /\
     nth_error cur (E * Z.to_nat b) = Some row /\ nth_error axes j = Some dir /\
     moved_one cur pf (E * Z.to_nat b) (vadd row (vscale d dir)) /\ moved_one cur pb (E * Z.to_nat b) (vsub row (vscale d dir)) /\
     read_forces code w2 cwd n f = Ok (law pf) /\ read_forces code w2 cwd n g = Ok (law pb)).
  { intros i b j Hi Hj.
    assert (Hil : i < length tr) by (apply nth_error_Some; congruence).
    assert (Hb : E * Z.to_nat b < length cur).
    { rewrite LC. unfold n. rewrite (Nat.mul_comm (length pos)). apply Nat.mul_lt_mono_pos_l; [exact EP|]. rewrite Forall_forall in HRange. specialize (HRange b (nth_error_In _ _ Hi)). lia. }
    destruct (nth_error cur (E * Z.to_nat b)) as [row|] eqn:Er; [|apply nth_error_None in Er; lia].
    destruct (nth_error axes j) as [dir|] eqn:Ed; [|apply nth_error_None in Ed; cbn in Ed; lia].
    destruct (nth_error ff (2 * (3 * i + j))) as [f|] eqn:Ef; [|apply nth_error_None in Ef; lia].
    destruct (nth_error ff (2 * (3 * i + j) + 1)) as [g|] eqn:Eg; [|apply nth_error_None in Eg; lia].
    destruct (HF i b j row dir Hi Ed Er) as (pf & pb & M1 & M2 & (cf & F1 & (_ & _ & (qf & F2 & F3) & _) & _) & (cb & G1 & (_ & _ & (qb & G2 & G3) & _) & _)).
    assert (HRow : vdecimal16 row) by (rewrite Forall_forall in HDc; apply HDc; eapply nth_error_In; eauto).
    destruct (moved_coordinates d j dir row Ed Hd HRow) as (V1 & V2).
    apply Forall2_decimal in F3; [|eapply moved_decimal; eauto]. apply Forall2_decimal in G3; [|eapply moved_decimal; eauto]. subst qf qb.
    exists f, g, row, dir, pf, pb. do 6 (split; [first [reflexivity|assumption]|]). split.
    - apply (HDFT f cf pf); [eapply nth_error_In; eauto| |exact F2]. rewrite <- F1. apply read_structure_ext. rewrite (HCopy _ _ Ef). do 5 f_equal. lia.
    - apply (HDFT g cb pb); [eapply nth_error_In; eauto| |exact G2]. rewrite <- G1. apply read_structure_ext. rewrite (HCopy _ _ Eg). do 5 f_equal. lia. }
  destruct (end_to_end_force_constants species wt search sym_forces glob cwd e e1 file w w1 w2 code up u L gs pos tr a d N1 N2 N3 p1 p2 p3 e2 e3 file2 ff (Ok None))
    as (x & cur' & ts' & _ & RUN2 & PA & PU & SI' & GS' & COL); try assumption.
  { split; [exists k; exact HC|]. auto. }
  { intros f Hf. apply In_nth_error in Hf as (m & Hm). assert (Hlt : m < 6 * length tr) by (rewrite <- HLf; apply nth_error_Some; congruence).
    pose proof (Nat.div_mod m 6 ltac:(lia)) as D6. pose proof (Nat.mod_upper_bound m 6 ltac:(lia)) as M6.
    set (i := m / 6) in *. set (r6 := m mod 6) in *. clearbody i r6.
    pose proof (Nat.div_mod r6 2 ltac:(lia)) as D2. pose proof (Nat.mod_upper_bound r6 2 ltac:(lia)) as M2.
    set (j := r6 / 2) in *. set (h := r6 mod 2) in *. clearbody j h. assert (Hj : j < 3) by lia.
    destruct (nth_error tr i) as [b|] eqn:Eb; [|apply nth_error_None in Eb; lia].
    destruct (KF i b j Eb Hj) as (f' & g' & row & dir & pf & pb & Y1 & Y2 & Y3 & Y4 & Y5 & Y6 & Y7 & Y8).
    destruct (harmonic_difference cur law Phi _ row dir d pf pb _ _ HH Y3 Y5 Y6 eq_refl eq_refl) as (L1 & L2 & _).
    assert (h = 0 \/ h = 1) as [-> | ->] by lia.
    - replace m with (2 * (3 * i + j)) in Hm by lia. rewrite Hm in Y1. injection Y1 as <-. exists (law pf). split; [exact Y7|]. fold E. fold n. congruence.
    - replace m with (2 * (3 * i + j) + 1) in Hm by lia. rewrite Hm in Y2. injection Y2 as <-. exists (law pb). split; [exact Y8|]. fold E. fold n. congruence. }
  exists x. split; [exact RUN2|]. split; [exact PA|]. split; [exact PU|]. split; [exists cur', ts'; split; [exact SI'|]; split; [exact (proj1 (HLaw cur' ts' SI'))|exact GS']|].
  intros i b j al t Hi Hj Hal Ht.
  destruct (KF i b j Hi Hj) as (f & g & row & dir & pf & pb & Y1 & Y2 & Y3 & Y4 & Y5 & Y6 & Y7 & Y8).
  destruct (harmonic_difference cur law Phi _ row dir d pf pb _ _ HH Y3 Y5 Y6 eq_refl eq_refl) as (L1 & L2 & HV).
  destruct (nth_error (law pf) t) as [v|] eqn:Ev; [|apply nth_error_None in Ev; lia].
  destruct (nth_error (law pb) t) as [v'|] eqn:Ev'; [|apply nth_error_None in Ev'; lia].
  rewrite (COL (3 * i + j) f g (law pf) (law pb) t v v' al Y1 Y2 Y7 Y8 Ev Ev' Hal). f_equal.
  specialize (HV t v v' Ev Ev').
  assert (HVc : fsub (component v al) (component v' al) = fmul (fopp (fmul (fofZ 2) d)) (entry (Phi t (E * Z.to_nat b)) al j)).
  { assert (X : fsub (component v al) (component v' al) = component (vsub v v') al) by (destruct al as [|[|[|al]]]; try lia; reflexivity).
    rewrite X, HV. destruct (Phi t (E * Z.to_nat b)) as [[] [] []].
    destruct al as [|[|[|al]]]; try lia; (destruct j as [|[|[|j]]]; [..|lia]); cbn in Y4; injection Y4 as <-; cbn; ring. }
  rewrite HVc. generalize (entry (Phi t (E * Z.to_nat b)) al j) as z. intros z. cbn [fdiv f1 fofZ fmul fopp Fld_Qc] in *.
  assert (T2 : Q2Qc (inject_Z 2) <> 0%Qc) by (intro X; apply (f_equal this) in X; discriminate).
  assert (T10 : Q2Qc (inject_Z (10 ^ 10)) <> 0%Qc) by (intro X; apply (f_equal this) in X; discriminate).
  field. repeat split; try assumption. intro X; apply (f_equal this) in X; discriminate.
Qed.
(** If the DFT runs follow a harmonic force law (any residual forces and even anharmonic
    terms), and the coordinates and the displacement have at most 16 decimals, the force
    constants of the post-process are exactly those of the law. *)
Theorem end_to_end_exact_force_constants :
  forall species wt search sym_forces glob (cwd : path) (e e1 : env) file (w w1 w2 : world) code up (u : cell Qc) L gs pos tr a d N1 N2 N3 p1 p2 p3
         (e2 e3 : env) file2 (ff : list string) out1 law Phi,
    let E := N1 * N2 * N3 in let n := length pos * E in
    writer_ok species wt ->
    with_option_file e file = Ok e1 -> truthy (e1 "process"%string) = true ->
    e1 "dft"%string = VStr code -> e1 "unitcell"%string = VStr up -> plain up -> up <> "SUPERCELL"%string ->
    arguments_are e1 a d N1 N2 N3 p1 p2 p3 ->
    (Z.of_nat N1 <= 10000000)%Z -> (Z.of_nat N2 <= 10000000)%Z -> (Z.of_nat N3 <= 10000000)%Z ->
    read_structure code w (cwd ++ [up]) = Ok u -> unit_cell_ok code u L gs pos tr -> tr <> [] ->
    c_xyz u = Some (flat_map (fun i => [i; i; i]) tr) ->
    (forall t k, In (t, k) gs -> exists we, get_atomic_weight t = Ok (Some we)) ->
    (truthy (e1 "sym"%string) = true -> length (filter (fun p => negb (Z.eqb p 0)) [p1; p2; p3]) = 2 -> forall s, search u s a = Ok None) ->
    main_run species wt search sym_forces glob cwd e file [] w = (w1, out1) ->
    w_file w2 (cwd ++ [up]) = w_file w1 (cwd ++ [up]) ->
    w_file w2 (cwd ++ ["SUPERCELL"%string]) = w_file w1 (cwd ++ ["SUPERCELL"%string]) ->
    w_rec w2 cwd = w_rec w1 cwd ->
    length ff = 6 * length tr ->
    (forall m f, nth_error ff m = Some f -> w_file w2 (beside cwd f up) = w_file w1 (cwd ++ [(up ++ suffix (m + 1))%string])) ->
    (* the force law, and the force files of the DFT runs on the structures in their directories *)
    d <> Q2Qc 0 -> decimal16 d ->
    (forall cur ts, supercell_is L pos tr N1 N2 N3 cur ts -> Forall vdecimal16 cur /\ harmonic cur law Phi) ->
    (forall f c p, In f ff -> read_structure code w2 (beside cwd f up) = Ok c -> c_cart c = Some p -> read_forces code w2 cwd n f = Ok (law p)) ->
    with_option_file e2 file2 = Ok e3 ->
    repeated e1 e3 "unitcell"%string "POSCAR" -> repeated e1 e3 "dft"%string "vasp" -> e3 "supercell"%string = VNone ->
    repeated e1 e3 "displacement"%string "0.02" -> repeated e1 e3 "enlargement"%string "2 2 1" -> repeated e1 e3 "periodicity"%string "1 1 0" ->
    (exists pl, main_plan glob e2 file2 ff (of_option EIO (w_rec w2 cwd)) = Ok pl) ->
    exists x, main_run species wt search sym_forces glob cwd e2 file2 ff w2 = (w2, Ok (Some x)) /\
      forall i b j al t, nth_error tr i = Some b -> j < 3 -> al < 3 -> t < n ->
        pp_force x (3 * t + al) (3 * i + j) = Some (fdiv (entry (Phi t (E * Z.to_nat b)) al j) (fdiv f1 (fofZ (10 ^ 10)))).
Proof.
  intros species wt search sym_forces glob cwd e e1 file w w1 w2 code up u L gs pos tr a d N1 N2 N3 p1 p2 p3 e2 e3 file2 ff out1 law Phi E n
    H1 H2 H3 H4 H5 H6 H7 H8 H9 H10 H11 H12 H13 H14 H15 H16 H17 H18 H19 H20 H21 H22 H23 H24 H25 H26 H27 H28 H29 H30 H31 H32 H33 H34 H35.
  destruct (end_to_end_exact species wt search sym_forces glob cwd e e1 file w w1 w2 code up u L gs pos tr a d N1 N2 N3 p1 p2 p3 e2 e3 file2 ff out1 law Phi
    H1 H2 H3 H4 H5 H6 H7 H8 H9 H10 H11 H12 H13 H14 H15 H16 H17 H18 H19 H20 H21 H22 H23 H24 H25 H26 H27 H28 H29 H30 H31 H32 H33 H34 H35) as (x & RX & _ & _ & _ & FX).
  exists x. split; [exact RX|exact FX].
Qed.
Print Assumptions end_to_end_exact_force_constants.

(** * C88, continued *)
(** The record keeps the base name of the unit cell file only, and both it and SUPERCELL are
    looked for in the working directory: after a pre-process on a unit cell elsewhere, a
    post-process that relies on the record stops with a missing file. *)
Theorem unit_cell_elsewhere_is_not_found :
  forall species wt search sym_forces glob (cwd : path) (e e1 : env) file (w w1 w2 : world) code up (u : cell Qc) L gs pos tr a d N1 N2 N3 p1 p2 p3
         (e2 e3 : env) file2 (ff : list string) out1,
    writer_ok species wt ->
    with_option_file e file = Ok e1 -> truthy (e1 "process"%string) = true ->
    e1 "dft"%string = VStr code -> e1 "unitcell"%string = VStr up -> plain (last (resolve cwd up) EmptyString) ->
    arguments_are e1 a d N1 N2 N3 p1 p2 p3 ->
    read_structure code w (resolve cwd up) = Ok u -> unit_cell_ok code u L gs pos tr -> tr <> [] ->
    (truthy (e1 "sym"%string) = true -> length (filter (fun p => negb (Z.eqb p 0)) [p1; p2; p3]) = 2 -> forall s, search u s a = Ok None) ->
    main_run species wt search sym_forces glob cwd e file [] w = (w1, out1) ->
    (* later, no file of that name in the working directory *)
    w_file w2 (cwd ++ [last (resolve cwd up) EmptyString]) = None -> w_rec w2 cwd = w_rec w1 cwd ->
    2 <= length ff -> with_option_file e2 file2 = Ok e3 ->
    e3 "unitcell"%string = VStr "POSCAR" -> e3 "supercell"%string = VNone -> repeated e1 e3 "dft"%string "vasp" ->
    (exists pl, main_plan glob e2 file2 ff (of_option EIO (w_rec w2 cwd)) = Ok pl) ->
    out1 = Ok None /\ main_run species wt search sym_forces glob cwd e2 file2 ff w2 = (w2, Err EIO).
Proof.
  intros species wt search sym_forces glob cwd e e1 file w w1 w2 code up u L gs pos tr a d N1 N2 N3 p1 p2 p3 e2 e3 file2 ff out1
    HWO HE HP HDft HUnit Hpl HArgs HR ((k & HC) & HT & HF & Hne & Hg) Htr Hsym RUN1 K1 K3 LF2 HE2 RU RSup RDft (pl & HPl).
  destruct (pre_core species wt search sym_forces glob cwd e e1 file w code up u L gs pos tr a d N1 N2 N3 p1 p2 p3 k HWO HE HP HDft HUnit HArgs HR HC HT HF Hne Hg Hsym)
    as (w' & s & cur & ts & sw & outs & sc & r & RUN & HB & RD & SC & SI & HWr & LO & RS & GS & SS & FD & FR & MR & RE & RC & RO).
  rewrite RUN1 in RUN. injection RUN as -> ->. split; [reflexivity|].
  rewrite K3, RC in HPl. cbn [of_option] in HPl.
  assert (HPl2 : post_plan glob e3 ff r = Ok pl).
  { unfold main_plan in HPl. rewrite HE2 in HPl. cbn [bind] in HPl. destruct ff as [|f0 fr]; [cbn in LF2; lia|]. exact HPl. }
  destruct (post_plan_shape glob e3 ff r pl LF2 HPl2) as (dd & tt & bb & mm & ->).
  destruct (record_precedence e3 r ""%string) as (Q1 & Q2 & Q3 & _ & _ & _ & _).
  assert (MD : merge_record e3 r "dft"%string = VStr code).
  { rewrite <- HDft. apply (repeated_pick e1 e3 "dft" "vasp" (r_dft r)); try apply Q3; auto. rewrite RE. now rewrite HDft. }
  unfold main_run. rewrite K3, RC. cbn [of_option]. rewrite HPl. rewrite (proj1 Q1 RU), (proj1 Q2 RSup). f_equal.
  assert (UN : r_unit r = last (resolve cwd up) EmptyString) by (rewrite RE; reflexivity).
  unfold post_run. cbn [path_text bind]. rewrite UN. rewrite (proj1 (plain_name_is_in_the_working_directory cwd _ Hpl)).
  assert (CD : code_of (user_args (merge_record e3 r)) = code) by (cbn; now rewrite MD). rewrite CD.
  assert (RF : read_structure code w2 (cwd ++ [last (resolve cwd up) EmptyString]) = Err EIO).
  { unfold read_structure. rewrite K1. unfold reader_of.
    assert (NK : exists t, name_ok code t) by (destruct gs as [|[t m] gr]; [congruence|exists t; apply (Hg t m); now left]).
    destruct NK as (t & [(-> & _)|[(-> & _)|(-> & _)]]); reflexivity. }
  rewrite RF. reflexivity.
Qed.
Print Assumptions unit_cell_elsewhere_is_not_found.

(** * C89: what a pre-process can change, however it ends *)
Lemma displace_dirs_suffix cur at_ (d : Qc) dirs : forall s num s' o', displace_dirs s cur at_ d dirs num = Ok (s', o') ->
  forall o, In o o' -> exists k, o_suffix o = suffix k.
Proof.
  induction dirs as [|dir dirs IH]; intros s num s' o' H o Ho; cbn [displace_dirs] in H; [injection H as <- <-; destruct Ho|].
  apply bind_ok in H as ((s1 & o1) & H1 & H). apply bind_ok in H as ((s2 & o2) & H2 & H). injection H as <- <-.
  apply in_app_or in Ho as [Ho|Ho]; [|eapply IH; eauto].
  unfold displace_pair in H1. apply bind_ok in H1 as (? & _ & H1). apply bind_ok in H1 as (? & _ & H1). apply bind_ok in H1 as (? & _ & H1).
  injection H1 as _ <-. destruct Ho as [<-|[<-|[]]]; eexists; reflexivity.
Qed.
Lemma displace_atoms_suffix cur (d : Qc) l : forall s num s' o', displace_atoms s cur d l num = Ok (s', o') ->
  forall o, In o o' -> exists k, o_suffix o = suffix k.
Proof.
  induction l as [|[at_ dirs] l IH]; intros s num s' o' H o Ho; cbn [displace_atoms] in H; [injection H as <- <-; destruct Ho|].
  apply bind_ok in H as ((s1 & o1) & H1 & H). apply bind_ok in H as ((s2 & o2) & H2 & H). injection H as <- <-.
  apply in_app_or in Ho as [Ho|Ho]; [eapply displace_dirs_suffix; eauto|eapply IH; eauto].
Qed.
Lemma write_displaced_suffix (s : cell Qc) ar d targets s' o' : write_displaced s ar d targets = Ok (s', o') ->
  forall o, In o o' -> exists k, o_suffix o = suffix k.
Proof.
  intros H. unfold write_displaced in H. do 4 (apply bind_ok in H as (? & _ & H)).
  destruct targets; [injection H as <- <-; intros o []|]. destruct (negb _); [discriminate|]. apply bind_ok in H as (? & _ & H).
  eapply displace_atoms_suffix; eauto.
Qed.
Lemma displaced_cells_suffix search (u s : cell Qc) a sym pg outs : displaced_cells search u s a sym = Ok (pg, outs) ->
  forall o, In o outs -> exists k, o_suffix o = suffix k.
Proof.
  intros H. unfold displaced_cells in H. apply bind_ok in H as (? & _ & H).
  assert (NS : forall q, (let! (_, o0) := write_displace_nosym u s a (a_disp a) in Ok (None : option string, o0)) = Ok (q, outs) -> forall o, In o outs -> exists k, o_suffix o = suffix k).
  { intros q X. apply bind_ok in X as ((s1 & o1) & X1 & X). injection X as <- <-. unfold write_displace_nosym in X1. apply bind_ok in X1 as (? & _ & X1).
    eapply write_displaced_suffix; eauto. }
  destruct (_ && _)%bool; [|eapply NS; exact H].
  apply bind_ok in H as (r & _ & H). destruct r as [(pg' & req)|]; [|eapply NS; exact H].
  apply bind_ok in H as ((s1 & o1) & X1 & X). injection X as <- <-. unfold write_displace_sym in X1. apply bind_ok in X1 as (? & _ & X1). apply bind_ok in X1 as (? & _ & X1).
  eapply write_displaced_suffix; eauto.
Qed.

(** Whatever the options, the unit cell file and the outcome: a pre-process only writes, in
    the directory of the unit cell file, SUPERCELL and names made of the unit cell's name
    and a number; no record is touched unless it ends well, and then only the one of the
    working directory.  With a unit cell that is not a text nothing changes at all. *)
Theorem pre_process_frame :
  forall species wt search sym_forces glob (cwd : path) (e e1 : env) file (w w' : world) out,
    with_option_file e file = Ok e1 -> truthy (e1 "process"%string) = true ->
    main_run species wt search sym_forces glob cwd e file [] w = (w', out) ->
    (forall up, e1 "unitcell"%string = VStr up -> let p := resolve cwd up in
       forall q, q <> removelast p ++ ["SUPERCELL"%string] -> (forall k, q <> removelast p ++ [(last p EmptyString ++ suffix k)%string]) ->
         w_file w' q = w_file w q) /\
    ((forall up, e1 "unitcell"%string <> VStr up) -> w' = w /\ out = Err EType) /\
    (out <> Ok None -> w_rec w' = w_rec w) /\ (forall q, q <> cwd -> w_rec w' q = w_rec w q) /\
    (forall x, out <> Ok (Some x)).
Proof.
  intros species wt search sym_forces glob cwd e e1 file w w' out HE HP H. unfold main_run, main_plan in H. rewrite HE in H. cbn [bind] in H. rewrite HP in H.
  set (dft := match user_args e1 with [] => VNone | (_, v) :: _ => v end) in H.
  set (sy := truthy (e1 "sym"%string)) in H.
  destruct (pre_run species wt search cwd (user_args e1) dft (e1 "unitcell"%string) sy w) as [w0 r0] eqn:PR.
  assert (HO : w0 = w' /\ (match r0 with None => out = Ok None | Some er => out = Err er end)) by (destruct r0; injection H as <- <-; auto). clear H.
  destruct HO as (-> & HO).
  assert (Main : (forall up, e1 "unitcell"%string = VStr up -> let p := resolve cwd up in
       forall q, q <> removelast p ++ ["SUPERCELL"%string] -> (forall k, q <> removelast p ++ [(last p EmptyString ++ suffix k)%string]) ->
         w_file w' q = w_file w q) /\ ((forall up, e1 "unitcell"%string <> VStr up) -> w' = w /\ r0 = Some EType) /\
       (r0 <> None -> w_rec w' = w_rec w) /\ (forall q, q <> cwd -> w_rec w' q = w_rec w q)).
  { unfold pre_run in PR. destruct (e1 "unitcell"%string) as [|up| | |] eqn:EU; cbn [path_text bind] in PR;
      try (injection PR as <- <-; split; [discriminate|]; auto).
    split; [|split; [intros X; destruct (X up eq_refl)|]].
    - intros up' X p q Q1 Q2. injection X as <-. fold p in PR.
      destruct (set_user_arg args_init (user_args e1)) as [a|]; cbn [bind] in PR; [|now injection PR as <- <-].
      destruct (read_structure (code_of (user_args e1)) w p) as [u|]; cbn [bind] in PR; [|now injection PR as <- <-].
      destruct (build_super u a) as [s|]; cbn [bind] in PR; [|now injection PR as <- <-].
      destruct (write_structure species wt (code_of (user_args e1)) w (removelast p ++ ["SUPERCELL"%string]) s "Supercell") as [w1|] eqn:W1; [|now injection PR as <- <-].
      assert (F1 : w_file w1 q = w_file w q).
      { unfold write_structure in W1. apply bind_ok in W1 as (t & _ & W1). injection W1 as <-. destruct t; [now apply put_file_other|reflexivity]. }
      destruct (displaced_cells search u s a sy) as [(pg & outs)|] eqn:DC; [|injection PR as <- <-; exact F1].
      set (fs := map _ outs) in PR.
      destruct (write_all species wt (code_of (user_args e1)) w1 fs) as [w2 r2] eqn:W2.
      apply write_all_frame in W2 as (_ & W2).
      assert (F2 : w_file w2 q = w_file w q).
      { rewrite W2; [exact F1|]. intros X. unfold fs in X. rewrite map_map in X. apply in_map_iff in X as (o & X & Ho). cbn [fst] in X.
        destruct (displaced_cells_suffix _ _ _ _ _ _ _ DC o Ho) as (k & Ek). rewrite Ek in X. apply (Q2 k). now symmetry. }
      destruct r2; [injection PR as <- <-; exact F2|].
      destruct (make_record _ _ _ _); injection PR as <- <-; exact F2.
    - set (p := resolve cwd up) in PR.
      destruct (set_user_arg args_init (user_args e1)) as [a|]; cbn [bind] in PR; [|now injection PR as <- <-].
      destruct (read_structure (code_of (user_args e1)) w p) as [u|]; cbn [bind] in PR; [|now injection PR as <- <-].
      destruct (build_super u a) as [s|]; cbn [bind] in PR; [|now injection PR as <- <-].
      destruct (write_structure species wt (code_of (user_args e1)) w (removelast p ++ ["SUPERCELL"%string]) s "Supercell") as [w1|] eqn:W1; [|now injection PR as <- <-].
      assert (F1 : w_rec w1 = w_rec w).
      { unfold write_structure in W1. apply bind_ok in W1 as (t & _ & W1). injection W1 as <-. destruct t; reflexivity. }
      destruct (displaced_cells search u s a sy) as [(pg & outs)|] eqn:DC; [|injection PR as <- <-; rewrite F1; auto].
      set (fs := map _ outs) in PR.
      destruct (write_all species wt (code_of (user_args e1)) w1 fs) as [w2 r2] eqn:W2.
      apply write_all_frame in W2 as (W2 & _).
      destruct r2; [injection PR as <- <-; rewrite W2, F1; auto|].
      destruct (make_record _ _ _ _); injection PR as <- <-; [|rewrite W2, F1; auto].
      split; [congruence|]. intros q Hq. cbn. rewrite same_path_neq by exact Hq. now rewrite W2, F1. }
  destruct Main as (M1 & M2 & M3 & M4). split; [exact M1|]. split.
  { intros X. destruct (M2 X) as (-> & ->). auto. }
  split; [intros X; apply M3; intros ->; contradiction|]. split; [exact M4|].
  intros x X. destruct r0; congruence.
Qed.
Print Assumptions pre_process_frame.

(** ** a concrete pair of runs *)
Section Demo.
  Let here : path := ["home"; "me"]%string.
  Let poscar : string := to_text ["one atom"; "1.0"; "2.5 0 0"; "0 2.5 0"; "0 0 10"; "Si"; "1"; "Cartesian"; "0.25 0 5"]%string.
  Let w0 : world := mkWorld (fun p => if same_path p (here ++ ["POSCAR"%string]) then Some poscar else None) (fun _ => None).
  Let pre_env : env := upd (upd default_env "enlargement"%string (VStr "2 1 1")) "sym"%string (VInt 0).
  Let post_env : env := upd default_env "kpoint_dos"%string (VStr "KPOINTS_dos").
  Let species (c : cell Qc) : list string := match c_type c with Some (t :: _) => [t] | _ => [] end.
  Let wt (_ : string) : string := "28.085"%string.
  Let search (u s : cell Qc) (a : args) : result (option (string * list (nat * (v3 Qc * list (v3 Qc))))) := Ok None.
  Let sym_forces (u s : cell Qc) (a : args) (_ : string -> result (list (v3 Qc))) (_ : list string) : fmat Qc * option err := (empty_mat, None).
  Let glob (_ : string) : list string := [].
  Let w1 : world := fst (main_run species wt search sym_forces glob here pre_env None [] w0).
  Let dirs : list string := ["d1"; "d2"; "d3"; "d4"; "d5"; "d6"]%string.
  Let ff : list string := map (fun s => s ++ "/vasprun.xml")%string dirs.
  Let forces (k : nat) : string :=
    to_text ["<varray name=""forces"" >"; (if Nat.even k then " <v> 0.1 0 0 </v>" else " <v> -0.1 0 0 </v>"); " <v> 0 0 0 </v>"; "</varray>"]%string.
  (* the user copies displaced structure k to directory k and runs the DFT code there *)
  Let w2 : world := mkWorld (fun p =>
    match find (fun kd => same_path p (here ++ [snd kd; "POSCAR"%string])) (combine (seq 1 6) dirs) with
    | Some kd => w_file w1 (here ++ [("POSCAR" ++ suffix (fst kd))%string])
    | None => match find (fun kd => same_path p (here ++ [snd kd; "vasprun.xml"%string])) (combine (seq 0 6) dirs) with
              | Some kd => Some (forces (fst kd))
              | None => w_file w1 p
              end
    end) (w_rec w1).
  Let u : cell Qc := match read_structure "vasp" w0 (here ++ ["POSCAR"%string]) with Ok c => c | Err _ => cell_init end.
  Let L : m3 Qc := match c_lat u with Some l => l | None => M3 v3z v3z v3z end.
  Let pos : list (v3 Qc) := match c_cart u with Some l => l | None => [] end.
  Let a : args := match set_user_arg args_init (user_args pre_env) with Ok a => a | Err _ => args_init end.
  Let d : Qc := match a_disp a with Some d => d | None => Q2Qc 0 end.

  Lemma got {B} (r : result (list B)) n : match r with Ok G => Nat.eqb (length G) n | Err _ => false end = true -> exists G, r = Ok G /\ length G = n.
  Proof. destruct r as [G|]; [|discriminate]. intros H. exists G. split; [reflexivity|]. now apply Nat.eqb_eq. Qed.
  Lemma got_any {B} (r : result B) : match r with Ok _ => true | Err _ => false end = true -> exists G, r = Ok G.
  Proof. destruct r as [G|]; [|discriminate]. eauto. Qed.

  Example end_to_end_witness :
    writer_ok species wt /\ with_option_file pre_env None = Ok pre_env /\ truthy (pre_env "process"%string) = true /\
    arguments_are pre_env a d 2 1 1 1 1 0 /\
    read_structure "vasp" w0 (here ++ ["POSCAR"%string]) = Ok u /\ unit_cell_ok "vasp" u L [("Si"%string, 1)] pos [0%Z] /\
    c_xyz u = Some [0; 0; 0]%Z /\ (exists we, get_atomic_weight "Si" = Ok (Some we)) /\
    main_run species wt search sym_forces glob here pre_env None [] w0 = (w1, snd (main_run species wt search sym_forces glob here pre_env None [] w0)) /\
    snd (main_run species wt search sym_forces glob here pre_env None [] w0) = Ok None /\
    length ff = 6 * length [0%Z] /\
    (forall m f, nth_error ff m = Some f -> w_file w2 (beside here f "POSCAR") = w_file w1 (here ++ [("POSCAR" ++ suffix (m + 1))%string])) /\
    (forall f, In f ff -> exists G, read_forces "vasp" w2 here 2 f = Ok G /\ length G = 2) /\
    w_file w2 (here ++ ["SUPERCELL"%string]) = w_file w1 (here ++ ["SUPERCELL"%string]) /\ w_file w1 (here ++ ["SUPERCELL"%string]) <> None /\
    (exists pl, main_plan glob post_env None ff (of_option EIO (w_rec w2 here)) = Ok pl) /\
    match snd (main_run species wt search sym_forces glob here post_env None ff w2) with
    | Ok (Some x) => match pp_force x 0 0, pp_force x 0 1 with Some p, Some q => (* (-0.1 - 0.1) eV/A over 2 * 0.02 A, in N/m *) Qeq_bool p (-801 # 10) = true /\ Qeq_bool q (-801 # 10) = true | _, _ => False end
    | _ => False
    end.
  Proof.
    split.
    { split; [|intros; reflexivity]. intros c ty t H. unfold species. rewrite H. destruct ty; [intros []|intros [<-|[]]; now left]. }
    split; [reflexivity|]. split; [reflexivity|]. split; [repeat split; try (vm_compute; reflexivity); try lia|].
    split; [vm_compute; reflexivity|]. split.
    { split; [exists Cartesian; repeat split; vm_compute; reflexivity|]. split; [vm_compute; reflexivity|].
      split; [repeat (apply Forall_cons); [|apply Forall_nil]; vm_compute; split; [discriminate|reflexivity]|]. split; [discriminate|].
      intros t n [X|[]]. injection X as <- <-. split; [left; split; [reflexivity|]|lia]. split; [discriminate|reflexivity]. }
    split; [vm_compute; reflexivity|]. split; [exists (28085, 3)%Z; vm_compute; reflexivity|].
    split; [apply surjective_pairing|]. split; [vm_compute; reflexivity|]. split; [reflexivity|].
    split.
    { intros m f H. do 6 (destruct m as [|m]; [cbn in H; injection H as <-; vm_compute; reflexivity|]). destruct m; discriminate. }
    split.
    { intros f H. cbn in H. repeat (destruct H as [<-|H]; [apply got; vm_compute; reflexivity|]). destruct H. }
    split; [vm_compute; reflexivity|]. split; [vm_compute; discriminate|].
    split; [apply got_any; vm_compute; reflexivity|]. vm_compute. split; reflexivity.
  Qed.
End Demo.

Example paths_witness :
  resolve ["home"; "me"]%string "./a/../POSCAR" = ["home"; "me"; "POSCAR"]%string /\
  beside ["home"; "me"]%string "run-01//vasprun.xml" "POSCAR" = ["home"; "me"; "run-01"; "POSCAR"]%string /\
  beside ["home"; "me"]%string "vasprun.xml" "POSCAR" = ["POSCAR"]%string.
Proof. repeat split; reflexivity. Qed.
