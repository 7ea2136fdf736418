(** Property theorem: from two command lines to the force constants (C97).  Model: Click.v, Run.v. *)
From Coq Require Import String Ascii ZArith QArith Qcanon Bool Lia Arith List.
From Verif Require Import Base Dec Field Args ArgsFacts Cell Super SuperFacts Displace DisplaceFacts Text TextFacts TextRound PropsText
  Check CheckFacts PropsCheck PropsCell KPoints Weight Force PropsForce Cli PropsArgs PropsCli PropsOptions Session Run RunFacts Click PropsRun PropsClick.
Import ListNotations.
Local Open Scope list_scope.
Local Open Scope nat_scope.

(** * Specification *)
(** the text of an option after a command line: the one given last, or the default *)
Definition chosen (effs : list effect) (p : string) : string :=
  match given effs p with
  | Some t => t
  | None => match find (fun x => match x with (_, _, q, _, _) => String.eqb q p end) manual with Some (_, _, _, _, VStr t) => t | _ => EmptyString end
  end.

(** * Proofs *)
Lemma merge_other e r x : ~ In x ["unitcell"; "supercell"; "dft"; "sym"; "displacement"; "enlargement"; "periodicity"]%string -> merge_record e r x = e x.
Proof. apply (record_precedence e r x). Qed.
Lemma value_text exists_ effs p k d v : value_now exists_ effs p k d v -> (exists t, v = VStr t /\ given effs p = Some t) \/ given effs p = None \/ (k = Number \/ k = Whole).
Proof. unfold value_now. destruct (given effs p) as [t|]; [|tauto]. destruct k; cbn [reads]; intros H; try tauto; left; exists t; split; try reflexivity; try exact H; apply H. Qed.
(** the text options after the command line *)
Lemma chosen_value exists_ effs (e : env) p :
  In p ["dft"; "displacement"; "enlargement"; "periodicity"; "unitcell"]%string ->
  (forall l s q k d, In (l, s, q, k, d) manual -> value_now exists_ effs q k d (e q)) -> e p = VStr (chosen effs p).
Proof.
  intros HP H. cbn [In] in HP. unfold chosen.
  destruct HP as [<-|[<-|[<-|[<-|[<-|[]]]]]].
  - specialize (H "--dft_code" "-dft" "dft" (OneOf ["vasp"; "espresso"; "aims"]) (VStr "vasp"))%string. unfold value_now in H.
    destruct (given effs "dft") as [t|]; cbn [find manual String.eqb Ascii.eqb Bool.eqb]; apply H; cbn [In manual]; tauto.
  - specialize (H "--displacement" "-disp" "displacement" AnyText (VStr "0.02"))%string. unfold value_now in H.
    destruct (given effs "displacement") as [t|]; cbn [find manual String.eqb Ascii.eqb Bool.eqb]; apply H; cbn [In manual]; tauto.
  - specialize (H "--enlargement" "-enlarge" "enlargement" AnyText (VStr "2 2 1"))%string. unfold value_now in H.
    destruct (given effs "enlargement") as [t|]; cbn [find manual String.eqb Ascii.eqb Bool.eqb]; apply H; cbn [In manual]; tauto.
  - specialize (H "--periodicity" "-pbc" "periodicity" AnyText (VStr "1 1 0"))%string. unfold value_now in H.
    destruct (given effs "periodicity") as [t|]; cbn [find manual String.eqb Ascii.eqb Bool.eqb]; apply H; cbn [In manual]; tauto.
  - specialize (H "--unitcell" "-c" "unitcell" ExistingFile (VStr "POSCAR"))%string. unfold value_now in H.
    destruct (given effs "unitcell") as [t|]; cbn [find manual String.eqb Ascii.eqb Bool.eqb]; apply H; cbn [In manual]; tauto.
Qed.

Ltac by_manual P' n := let H := fresh in pose proof (P' _ _ _ _ _ (nth_In manual (""%string, ""%string, ""%string, AnyText, VNone) (n := n) ltac:(cbn; lia))) as H; cbn in H;
    first [exact H|apply H].
(** the second command line: the force files, the unit cell, the k-points *)
Lemma second_line exists_ ff up K : (forall f, In f ff -> forall r, f <> String "-" r) -> exists_ up = true -> exists_ K = true ->
  exists e, command exists_ (ff ++ ["-c"; up; "-kdos"; K]%string) = Call e ff /\ e "unitcell"%string = VStr up /\ e "kpoint_dos"%string = VStr K /\
    e "dft"%string = VStr "vasp" /\ e "displacement"%string = VStr "0.02" /\ e "enlargement"%string = VStr "2 2 1" /\ e "periodicity"%string = VStr "1 1 0" /\
    e "supercell"%string = VNone /\ e "option_file"%string = VNone /\ e "sym"%string = VInt 1 /\
    e "sigma"%string = VFloat (Q2Qc (1 # 10)) /\ e "num_dos"%string = VInt 200 /\ e "option_dos"%string = VStr "plain" /\
    e "atom_dos"%string = VNone /\ e "legend_dos"%string = VNone /\ e "elimit"%string = VNone /\ e "kpoint_band"%string = VNone /\
    e "dos"%string = VInt 0 /\ e "thermal"%string = VInt 0 /\ e "band"%string = VInt 0 /\ e "mode"%string = VInt 0.
Proof.
  intros HF HU HK. set (effs := map File ff ++ [SetTo "unitcell" up; SetTo "kpoint_dos" K]%string).
  assert (HA : Forall2 asks (map (fun f => [f]) ff ++ [["-c"; up]; ["-kdos"; K]]%string) effs).
  { apply Forall2_app.
    - clear -HF. induction ff as [|f ff IH]; cbn [map]; constructor.
      + apply asks_file. right. apply HF. left. reflexivity.
      + apply IH. intros g Hg. apply HF. right. exact Hg.
    - constructor; [apply asks_apart, names_option_b; vm_compute; reflexivity|].
      constructor; [apply asks_apart, names_option_b; vm_compute; reflexivity|]. constructor. }
  assert (EW : concat (map (fun f => [f]) ff ++ [["-c"; up]; ["-kdos"; K]]%string) = ff ++ ["-c"; up; "-kdos"; K]%string).
  { rewrite concat_app. cbn [concat app]. f_equal. clear. induction ff as [|f ff IH]; [reflexivity|]. cbn [map concat app]. rewrite IH. reflexivity. }
  assert (EF : files effs = ff).
  { unfold effs, files. rewrite flat_map_app. cbn [flat_map app]. rewrite app_nil_r. clear. induction ff as [|f ff IH]; [reflexivity|]. cbn [map flat_map app]. rewrite IH. reflexivity. }
  assert (G : forall p, given effs p = if String.eqb "kpoint_dos" p then Some K else if String.eqb "unitcell" p then Some up else None).
  { intros p. unfold effs, given. rewrite fold_left_app. cbn [fold_left].
    replace (fold_left _ (map File ff) None) with (@None string); [reflexivity|]. clear. induction ff as [|f ff IH]; [reflexivity|]. exact IH. }
  assert (T : forall p b, turned effs p b = b).
  { intros p b. unfold effs, turned. rewrite fold_left_app. cbn [fold_left]. clear. induction ff as [|f ff IH]; [reflexivity|]. exact IH. }
  destruct (command_line_meaning exists_ _ effs [] [] HA (or_introl (conj eq_refl eq_refl))) as (M & _). rewrite !app_nil_r, EW, EF in M.
  assert (V : forall l s p k d, In (l, s, p, k, d) manual -> exists v, value_now exists_ effs p k d v).
  { intros l s p k d HI. unfold value_now. rewrite G. unfold manual in HI. cbn [In] in HI.
    repeat (destruct HI as [HI|HI]; [injection HI as <- <- <- <- <-; cbn [String.eqb Ascii.eqb Bool.eqb reads];
      first [eexists; reflexivity|eexists; split; [exact HU|reflexivity]|eexists; split; [exact HK|reflexivity]|eexists; split; [cbn [In]; tauto|reflexivity]]|]). contradiction. }
  destruct (M V) as (e & E & P & Q). exists e. split; [exact E|].
  assert (P' : forall l s p k d, In (l, s, p, k, d) manual -> match (if String.eqb "kpoint_dos" p then Some K else if String.eqb "unitcell" p then Some up else None) with
    | Some t => reads exists_ k t (e p) | None => match d with VStr t => reads exists_ k t (e p) | _ => e p = d end end).
  { intros l s p k d HI. specialize (P _ _ _ _ _ HI). unfold value_now in P. rewrite G in P. exact P. }
  clear P M V HA EW EF G.
  assert (Q' : forall p b, In (p, b) switch_default -> e p = VInt (if b then 1 else 0)) by (intros p b HI; rewrite (Q p b HI), T; reflexivity).
  clear Q T.
  split; [by_manual P' 5|]. split; [by_manual P' 7|]. split; [by_manual P' 1|]. split; [by_manual P' 2|]. split; [by_manual P' 3|]. split; [by_manual P' 4|].
  split; [by_manual P' 6|]. split; [by_manual P' 0|]. split; [apply (Q' "sym"%string true); cbn [In switch_default]; tauto|].
  split; [by_manual P' 8|]. split; [by_manual P' 9|]. split; [by_manual P' 14|]. split; [by_manual P' 10|]. split; [by_manual P' 11|]. split; [by_manual P' 12|].
  split; [by_manual P' 20|]. split; [apply (Q' "dos"%string false); cbn [In switch_default]; tauto|]. split; [apply (Q' "thermal"%string false); cbn [In switch_default]; tauto|].
  split; [apply (Q' "band"%string false); cbn [In switch_default]; tauto|apply (Q' "mode"%string false); cbn [In switch_default]; tauto].
Qed.

Lemma plan_ok glob (e : env) ff r : 2 <= length ff ->
  e "kpoint_dos"%string <> VNone -> e "kpoint_band"%string = VNone -> e "sigma"%string = VFloat (Q2Qc (1 # 10)) -> e "num_dos"%string = VInt 200 ->
  e "option_dos"%string = VStr "plain" -> e "atom_dos"%string = VNone -> e "legend_dos"%string = VNone -> e "elimit"%string = VNone ->
  e "dos"%string = VInt 0 -> e "thermal"%string = VInt 0 -> e "band"%string = VInt 0 -> e "mode"%string = VInt 0 ->
  exists pl, main_plan glob e None ff (Ok r) = Ok pl.
Proof.
  intros HL K B S N O A LE EL D T Bd M. unfold main_plan. cbn [with_option_file bind]. destruct ff as [|f0 [|f1 ff]]; [cbn in HL; lia|cbn in HL; lia|].
  cbn [bind]. unfold post_plan.
  assert (MO : forall x, ~ In x ["unitcell"; "supercell"; "dft"; "sym"; "displacement"; "enlargement"; "periodicity"]%string -> merge_record e r x = e x) by (intros x Hx; apply merge_other; exact Hx).
  assert (NN : is_none (e "kpoint_dos"%string) = false) by (destruct (e "kpoint_dos"%string); [contradiction|reflexivity..]).
  rewrite !(MO "kpoint_dos"%string), !(MO "kpoint_band"%string), !(MO "dos"%string), !(MO "band"%string), !(MO "thermal"%string), !(MO "mode"%string) by (cbn [In]; intuition discriminate).
  rewrite NN, B, D, T, Bd, M. cbn [andb orb negb truthy is_none when bind].
  unfold get_dos_args. rewrite !(MO "sigma"%string), !(MO "num_dos"%string), !(MO "option_dos"%string), !(MO "atom_dos"%string), !(MO "legend_dos"%string), !(MO "elimit"%string) by (cbn [In]; intuition discriminate).
  rewrite S, N, O, A, LE, EL. cbn. eexists. reflexivity.
Qed.

(** The documented way of working.  Any command line without force files prepares the
    displaced structures; after the DFT runs (forces following a harmonic law, with any residual
    forces and any even anharmonic terms; coordinates with at most 16 decimals), in the same
    directory

        interphon FORCE_FILES -c UNITCELL -kdos KPOINTS

    reads back exactly the force constants of the law; no other option needs to be repeated. *)
Theorem documented_workflow :
  forall species wt search sym_forces glob (cwd : path) words effs (w w1 w2 : world) code up K (u : cell Qc) L gs pos tr a d N1 N2 N3 p1 p2 p3
         (ff : list string) out1 law Phi,
    let E := N1 * N2 * N3 in let n := length pos * E in
    writer_ok species wt ->
    (* the first command line *)
    Forall2 asks words effs -> files effs = [] -> given effs "option_file" = None -> turned effs "process" true = true ->
    chosen effs "dft" = code -> chosen effs "unitcell" = up -> plain up -> up <> "SUPERCELL"%string ->
    arguments_are (fun x => VStr (chosen effs x)) a d N1 N2 N3 p1 p2 p3 ->
    (Z.of_nat N1 <= 10000000)%Z -> (Z.of_nat N2 <= 10000000)%Z -> (Z.of_nat N3 <= 10000000)%Z ->
    read_structure code w (cwd ++ [up]) = Ok u -> unit_cell_ok code u L gs pos tr -> tr <> [] ->
    c_xyz u = Some (flat_map (fun i => [i; i; i]) tr) ->
    (forall t k, In (t, k) gs -> exists we, get_atomic_weight t = Ok (Some we)) ->
    (turned effs "sym" true = true -> length (filter (fun p => negb (Z.eqb p 0)) [p1; p2; p3]) = 2 -> forall s, search u s a = Ok None) ->
    program species wt search sym_forces glob cwd (concat words) w = (w1, Some out1) ->
    (* the DFT runs *)
    w_file w2 (cwd ++ [up]) = w_file w1 (cwd ++ [up]) ->
    w_file w2 (cwd ++ ["SUPERCELL"%string]) = w_file w1 (cwd ++ ["SUPERCELL"%string]) ->
    w_rec w2 cwd = w_rec w1 cwd ->
    length ff = 6 * length tr -> (forall f, In f ff -> forall r, f <> String "-" r) ->
    (forall m f, nth_error ff m = Some f -> w_file w2 (beside cwd f up) = w_file w1 (cwd ++ [(up ++ suffix (m + 1))%string])) ->
    d <> Q2Qc 0 -> decimal16 d ->
    (forall cur ts, supercell_is L pos tr N1 N2 N3 cur ts -> Forall vdecimal16 cur /\ harmonic cur law Phi) ->
    (forall f c p, In f ff -> read_structure code w2 (beside cwd f up) = Ok c -> c_cart c = Some p -> read_forces code w2 cwd n f = Ok (law p)) ->
    file_exists cwd w2 K = true ->
    exists x, program species wt search sym_forces glob cwd (ff ++ ["-c"; up; "-kdos"; K]%string) w2 = (w2, Some (Ok (Some x))) /\
      forall i b j al t, nth_error tr i = Some b -> j < 3 -> al < 3 -> t < n ->
        pp_force x (3 * t + al) (3 * i + j) = Some (fdiv (entry (Phi t (E * Z.to_nat b)) al j) (fdiv f1 (fofZ (10 ^ 10)))).
Proof.
  intros species wt search sym_forces glob cwd words effs w w1 w2 code up K u L gs pos tr a d N1 N2 N3 p1 p2 p3 ff out1 law Phi E n
    HWO HA HFi HOF HPr HCo HUp Hpl HnS HArgs B1 B2 B3 HR HUC Htr HX HWt Hsym RUN1 K1 K2 K3 HLf HDash HCopy Hd0 Hd HLaw HDFT HK.
  unfold program in RUN1. destruct (command (file_exists cwd w) (concat words)) as [| |e ff0] eqn:EC; [discriminate..|].
  destruct (accepted _ _ _ _ _ HA EC) as (-> & V & T). rewrite HFi in RUN1.
  assert (EO : e "option_file"%string = VNone).
  { specialize (V "--option_file" "-option" "option_file" ExistingFile VNone)%string. unfold value_now in V. rewrite HOF in V. apply V. cbn [In manual]. tauto. }
  unfold option_lines in RUN1. rewrite EO in RUN1.
  destruct (main_run species wt search sym_forces glob cwd e None [] w) as (w', r') eqn:ER. injection RUN1 as -> ->.
  assert (CV : forall p, In p ["dft"; "displacement"; "enlargement"; "periodicity"; "unitcell"]%string -> e p = VStr (chosen effs p)) by (intros p HP; exact (chosen_value _ _ _ p HP V)).
  assert (ES : e "sym"%string = VInt (if turned effs "sym" true then 1 else 0)) by (apply T; cbn [In switch_default]; tauto).
  assert (EP : e "process"%string = VInt 1) by (rewrite (T "process"%string true) by (cbn [In switch_default]; tauto); rewrite HPr; reflexivity).
  assert (UA : user_args e = user_args (fun x => VStr (chosen effs x))) by (unfold user_args; rewrite !CV by (cbn [In]; tauto); reflexivity).
  destruct (plain_name_is_in_the_working_directory cwd up Hpl) as (PR & _ & _).
  destruct HArgs as (A1 & A2 & A3 & A4 & A5).
  assert (HArgs' : arguments_are e a d N1 N2 N3 p1 p2 p3) by (split; [rewrite UA; exact A1|]; tauto).
  assert (HSym' : truthy (e "sym"%string) = true -> length (filter (fun p => negb (Z.eqb p 0)) [p1; p2; p3]) = 2 -> forall s, search u s a = Ok None).
  { intros HT. apply Hsym. rewrite ES in HT. destruct (turned effs "sym" true); [reflexivity|discriminate]. }

  assert (EXw : w_file w (cwd ++ [up]) <> None).
  { specialize (V "--unitcell" "-c" "unitcell" ExistingFile (VStr "POSCAR"))%string. unfold value_now in V.
    assert (HE : file_exists cwd w up = true).
    { revert HUp. unfold chosen. destruct (given effs "unitcell") as [t|]; cbn [find manual String.eqb Ascii.eqb Bool.eqb]; intros <-; apply V; cbn [In manual]; tauto. }
    unfold file_exists in HE. rewrite PR in HE. intros EN. rewrite EN in HE. discriminate. }
  assert (HC' : e "dft"%string = VStr code) by (rewrite CV by (cbn [In]; tauto); rewrite HCo; reflexivity).
  assert (HU' : e "unitcell"%string = VStr up) by (rewrite CV by (cbn [In]; tauto); rewrite HUp; reflexivity).
  assert (HP' : truthy (e "process"%string) = true) by (rewrite EP; reflexivity).
  assert (HR' : read_structure code w (resolve cwd up) = Ok u) by (rewrite PR; exact HR).
  destruct (pre_process_leaves species wt search sym_forces glob cwd e e None w code up u L gs pos tr a d N1 N2 N3 p1 p2 p3 HWO eq_refl HP' HC' HU' HArgs' HR' HUC HSym')
    as (w'' & cur & ts & RUN & _ & _ & _ & FR & RE & _).
  rewrite ER in RUN. injection RUN as -> ->.
  destruct (plain_name_is_in_the_working_directory cwd up Hpl) as (_ & PL & PD). rewrite PL, PD in FR.
  assert (EX : file_exists cwd w2 up = true).
  { unfold file_exists. rewrite PR, K1, FR.
    - destruct (w_file w (cwd ++ [up])); [reflexivity|contradiction].
    - intros EQ. apply app_inj_tail in EQ as (_ & EQ). exact (HnS EQ).
    - intros m _ EQ. apply app_inj_tail in EQ as (_ & EQ). exact (app_suffix_neq up m EQ). }
  destruct (second_line (file_exists cwd w2) ff up K HDash EX HK) as (e2 & EC2 & U2 & K2' & D2 & DI2 & EN2 & PE2 & SU2 & OF2 & SY2 & SI2 & ND2 & OD2 & AD2 & LD2 & EL2 & KB2 & DO2 & TH2 & BA2 & MO2).
  destruct (end_to_end_exact_force_constants species wt search sym_forces glob cwd e e None w w'' w2 code up u L gs pos tr a d N1 N2 N3 p1 p2 p3
     e2 e2 None ff (Ok None) law Phi HWO eq_refl HP' HC' HU' Hpl HnS HArgs' B1 B2 B3 HR HUC Htr HX HWt HSym' ER K1 K2 K3 HLf HCopy Hd0 Hd HLaw HDFT eq_refl) as (x & RX & FX).
  - left. rewrite U2, HU'. reflexivity.
  - right. exact D2.
  - exact SU2.
  - right. exact DI2.
  - right. exact EN2.
  - right. exact PE2.
  - rewrite K3, RE. cbn [of_option]. apply plan_ok; try assumption.
    + rewrite HLf. destruct tr; [contradiction|cbn [length]; lia].
    + rewrite K2'. discriminate.
  - exists x. split; [|exact FX]. unfold program. rewrite EC2. unfold option_lines. rewrite OF2, RX. reflexivity.
Qed.
Print Assumptions documented_workflow.

(** ** the theorem applied to a concrete pair of command lines *)
(** two atoms coupled by an isotropic spring *)
Definition spring (z : Qc) (c0 c1 : v3 Qc) (p : list (v3 Qc)) : list (v3 Qc) :=
  match p with [p0; p1] => let x := vscale z (vsub (vsub p1 c1) (vsub p0 c0)) in [x; vscale (Qcopp (Q2Qc 1)) x] | _ => [] end.
Definition spring_phi (z : Qc) (s k : nat) : m3 Qc :=
  let x := if Nat.eqb s k then z else Qcopp z in M3 (V3 x (Q2Qc 0) (Q2Qc 0)) (V3 (Q2Qc 0) x (Q2Qc 0)) (V3 (Q2Qc 0) (Q2Qc 0) x).
Lemma spring_harmonic z c0 c1 : harmonic [c0; c1] (spring z c0 c1) (spring_phi z).
Proof.
  exists (fun _ _ _ => v3z). split; [reflexivity|]. intros k r v p Hk (HL & HM & HO). cbn in HL.
  destruct p as [|p0 [|p1 [|p2 p]]]; try discriminate. split; [reflexivity|].
  assert (K : k = 0 \/ k = 1) by (destruct k as [|[|k]]; [auto..|destruct k; discriminate]).
  destruct c0 as [x0 y0 z0], c1 as [x1 y1 z1], v as [v1 v2 v3].
  destruct K as [-> | ->]; cbn [nth_error] in Hk, HM; injection Hk as <-; injection HM as ->.
  - specialize (HO 1 ltac:(lia)). cbn [nth_error] in HO. injection HO as ->.
    intros [|[|s]] Hs; [..|cbn in Hs; lia]; cbn; f_equal; unfold vsub, vadd, vscale, mvmul, vdot, v3z; cbn; match goal with |- V3 ?a ?b ?c = V3 ?d ?e ?f => replace a with d by ring; replace b with e by ring; replace c with f by ring end; reflexivity.
  - specialize (HO 0 ltac:(lia)). cbn [nth_error] in HO. injection HO as ->.
    intros [|[|s]] Hs; [..|cbn in Hs; lia]; cbn; f_equal; unfold vsub, vadd, vscale, mvmul, vdot, v3z; cbn; match goal with |- V3 ?a ?b ?c = V3 ?d ?e ?f => replace a with d by ring; replace b with e by ring; replace c with f by ring end; reflexivity.
Qed.
Definition veqb (x y : v3 Qc) : bool := Qc_eq_bool (vx x) (vx y) && Qc_eq_bool (vy x) (vy y) && Qc_eq_bool (vz x) (vz y).
Fixpoint vseqb (x y : list (v3 Qc)) : bool := match x, y with [], [] => true | a :: x, b :: y => veqb a b && vseqb x y | _, _ => false end.
Lemma vseqb_eq x : forall y, vseqb x y = true -> x = y.
Proof.
  induction x as [|[a1 a2 a3] x IH]; intros [|[b1 b2 b3] y]; try discriminate; [reflexivity|]. cbn [vseqb]. unfold veqb. cbn [vx vy vz]. intros H.
  apply andb_prop in H as (H & X). apply andb_prop in H as (H & H3). apply andb_prop in H as (H1 & H2).
  apply Qc_eq_bool_correct in H1, H2, H3. subst. f_equal. now apply IH.
Qed.
Lemma law_matches law code w cwd n f up : match read_structure code w (beside cwd f up), read_forces code w cwd n f with
    | Ok c, Ok g => match c_cart c with Some p => vseqb g (law p) | None => false end | _, _ => false end = true ->
  forall c p, read_structure code w (beside cwd f up) = Ok c -> c_cart c = Some p -> read_forces code w cwd n f = Ok (law p).
Proof.
  intros H c p H1 H2. rewrite H1 in H. destruct (read_forces code w cwd n f) as [g|]; [|discriminate]. rewrite H2 in H. now rewrite (vseqb_eq _ _ H).
Qed.
Lemma some_inj {A} (x y : A) : Some x = Some y -> x = y.
Proof. congruence. Qed.
Lemma dec16 n p k : Qeq_bool (n # p) (k # 10000000000000000) = true -> decimal16 (Q2Qc (n # p)).
Proof. intros H. exists k. apply Qc_is_canon. cbn [this Q2Qc]. rewrite !Qred_correct. apply Qeq_bool_iff. exact H. Qed.
Lemma same_start species wt search sym_forces glob here (argv : list string) w : match snd (program species wt search sym_forces glob here argv w) with Some _ => true | None => false end = true ->
  program species wt search sym_forces glob here argv w = (fst (program species wt search sym_forces glob here argv w),
    Some (match snd (program species wt search sym_forces glob here argv w) with Some r => r | None => Ok None end)).
Proof. destruct (program species wt search sym_forces glob here argv w) as [w' [r|]]; [reflexivity|discriminate]. Qed.

Section Demo.
  Let here : path := ["home"; "me"]%string.
  Let poscar : string := to_text ["one atom"; "1.0"; "2.5 0 0"; "0 2.5 0"; "0 0 10"; "Si"; "1"; "Cartesian"; "0.25 0 5"]%string.
  Let w0 : world := mkWorld (fun p => if same_path p (here ++ ["POSCAR"%string]) then Some poscar else if same_path p (here ++ ["KPOINTS"%string]) then Some "..."%string else None) (fun _ => None).
  Let words1 : list (list string) := [["-enlarge"; "2 1 1"]; ["-sym_off"]]%string.
  Let effs1 : list effect := [SetTo "enlargement" "2 1 1"; Turn "sym" false]%string.
  Let species (c : cell Qc) : list string := match c_type c with Some (t :: _) => [t] | _ => [] end.
  Let wt (_ : string) : string := "28.085"%string.
  Let search (u s : cell Qc) (a : args) : result (option (string * list (nat * (v3 Qc * list (v3 Qc))))) := Ok None.
  Let sym_forces (u s : cell Qc) (a : args) (_ : string -> result (list (v3 Qc))) (_ : list string) : fmat Qc * option err := (empty_mat, None).
  Let glob (_ : string) : list string := [].
  Let w1 : world := fst (program species wt search sym_forces glob here (concat words1) w0).
  Let dirs : list string := ["d1"; "d2"; "d3"; "d4"; "d5"; "d6"]%string.
  Let ff : list string := map (fun s => s ++ "/vasprun.xml")%string dirs.
  (* two atoms coupled by an isotropic spring of 5 eV/A^2 *)
  Let line (x : string) (k : nat) : string := (" <v> " ++ nth (k / 2) [x ++ " 0 0"; "0 " ++ x ++ " 0"; "0 0 " ++ x] "" ++ " </v>")%string.
  Let forces (k : nat) : string :=
    to_text ["<varray name=""forces"" >"; (if Nat.even k then line "-0.1" k else line "0.1" k); (if Nat.even k then line "0.1" k else line "-0.1" k); "</varray>"]%string.
  Let w2 : world := mkWorld (fun p =>
    match find (fun kd => same_path p (here ++ [snd kd; "POSCAR"%string])) (combine (seq 1 6) dirs) with
    | Some kd => w_file w1 (here ++ [("POSCAR" ++ suffix (fst kd))%string])
    | None => match find (fun kd => same_path p (here ++ [snd kd; "vasprun.xml"%string])) (combine (seq 0 6) dirs) with
              | Some kd => Some (forces (fst kd))
              | None => w_file w1 p
              end
    end) (w_rec w1).
  Let u : cell Qc := match read_structure "vasp" w0 (here ++ ["POSCAR"%string]) with Ok c => c | Err _ => cell_init end.
  Let q (n : Z) (p : positive) : Qc := Q2Qc (n # p).
  Let L : m3 Qc := match c_lat u with Some l => l | None => M3 v3z v3z v3z end.
  Let pos : list (v3 Qc) := match c_cart u with Some l => l | None => [] end.
  Let a : args := match set_user_arg args_init (user_args (fun x => VStr (chosen effs1 x))) with Ok a => a | Err _ => args_init end.
  Let d : Qc := match a_disp a with Some d => d | None => Q2Qc 0 end.
  Let c0 : v3 Qc := V3 (q 1 4) (q 0 1) (q 5 1).
  Let c1 : v3 Qc := V3 (q 11 4) (q 0 1) (q 5 1).
  Let law := spring (q 801 100000000000) c0 c1.
  Let Phi := spring_phi (q 801 100000000000).

  Lemma the_supercell cur ts : supercell_is L pos [0%Z] 2 1 1 cur ts -> cur = [c0; c1].
  Proof.
    intros (HL & HC & _). change (length cur = length pos * 2) in HL. replace (length pos) with 1 in HL by (vm_compute; reflexivity). destruct cur as [|x [|y [|z cur]]]; try discriminate.
    assert (HP : nth_error pos 0 = Some (nth 0 pos v3z)) by (vm_compute; reflexivity). pose proof (HC 0 _ 0 0 0 HP) as H0. pose proof (HC 0 _ 1 0 0 HP) as H1. clear HC HP. cbn [nth_error Nat.mul Nat.add] in H0, H1.
    specialize (H0 ltac:(lia) ltac:(lia) ltac:(lia)). specialize (H1 ltac:(lia) ltac:(lia) ltac:(lia)).
    apply some_inj in H0, H1. rewrite H0, H1. clear H0 H1. apply vseqb_eq. vm_compute. reflexivity.
  Qed.
  Example workflow_instance :
    exists x, program species wt search sym_forces glob here (ff ++ ["-c"; "POSCAR"; "-kdos"; "KPOINTS"]%string) w2 = (w2, Some (Ok (Some x))) /\
      (* 5 eV/A^2, that is 80.1 N/m: on the atom itself, and on its image *)
      pp_force x 0 0 = Some (fdiv (q 801 100000000000) (fdiv f1 (fofZ (10 ^ 10)))) /\ pp_force x 3 0 = Some (fdiv (Qcopp (q 801 100000000000)) (fdiv f1 (fofZ (10 ^ 10)))) /\
      pp_force x 1 0 = Some (fdiv (Q2Qc 0) (fdiv f1 (fofZ (10 ^ 10)))).
  Proof.
    destruct (documented_workflow species wt search sym_forces glob here words1 effs1 w0 w1 w2 "vasp" "POSCAR" "KPOINTS" u L [("Si"%string, 1)] pos [0%Z] a d 2 1 1 1 1 0
       ff (match snd (program species wt search sym_forces glob here (concat words1) w0) with Some r => r | None => Ok None end) law Phi) as (x & R & FX).
    - split; [|intros; reflexivity]. intros c ty t H. unfold species. rewrite H. destruct ty; [intros []|intros [<-|[]]; now left].
    - constructor; [apply asks_apart, names_option_b; vm_compute; reflexivity|]. constructor; [apply asks_switch, names_switch_b; vm_compute; reflexivity|]. constructor.
    - reflexivity.
    - reflexivity.
    - reflexivity.
    - reflexivity.
    - reflexivity.
    - repeat split; discriminate.
    - discriminate.
    - repeat split; try (vm_compute; reflexivity); try lia.
    - lia.
    - lia.
    - lia.
    - vm_compute. reflexivity.
    - split; [exists Cartesian; repeat split; vm_compute; reflexivity|]. split; [vm_compute; reflexivity|].
      split; [repeat (apply Forall_cons); [|apply Forall_nil]; vm_compute; split; [discriminate|reflexivity]|]. split; [discriminate|].
      intros t n [X|[]]. injection X as <- <-. split; [left; split; [reflexivity|]|lia]. split; [discriminate|reflexivity].
    - discriminate.
    - vm_compute. reflexivity.
    - intros t k [X|[]]. injection X as <- <-. exists (28085, 3)%Z. vm_compute. reflexivity.
    - intros X. vm_compute in X. discriminate.
    - apply same_start. vm_compute. reflexivity.
    - vm_compute. reflexivity.
    - vm_compute. reflexivity.
    - unfold w2. cbn [w_rec]. reflexivity.
    - reflexivity.
    - intros f H r. cbn in H. repeat (destruct H as [<-|H]; [discriminate|]). destruct H.
    - intros m f H. do 6 (destruct m as [|m]; [cbn in H; injection H as <-; vm_compute; reflexivity|]). destruct m; discriminate.
    - intros X. apply (f_equal this) in X. vm_compute in X. discriminate.
    - assert (D : d = q 1 50) by (apply Qc_is_canon; vm_compute; reflexivity). rewrite D. apply (dec16 1 50 200000000000000). reflexivity.
    - intros cur ts H. rewrite (the_supercell cur ts H). split; [|apply spring_harmonic].
      repeat constructor; cbn [vx vy vz c0 c1].
      + apply (dec16 1 4 2500000000000000). reflexivity.
      + apply (dec16 0 1 0). reflexivity.
      + apply (dec16 5 1 50000000000000000). reflexivity.
      + apply (dec16 11 4 27500000000000000). reflexivity.
      + apply (dec16 0 1 0). reflexivity.
      + apply (dec16 5 1 50000000000000000). reflexivity.
    - intros f c p H. revert c p. apply (law_matches law). revert f H. apply forallb_forall. vm_compute. reflexivity.
    - vm_compute. reflexivity.
    - assert (LP : length pos = 1) by (vm_compute; reflexivity). rewrite LP in FX. exists x. split; [exact R|]. split; [|split].
      + apply (FX 0 0%Z 0 0 0); [reflexivity|lia..].
      + apply (FX 0 0%Z 0 0 1); [reflexivity|lia..].
      + apply (FX 0 0%Z 0 1 0); [reflexivity|lia..].
  Qed.
End Demo.
