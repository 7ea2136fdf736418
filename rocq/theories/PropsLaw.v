(** Every analysis of forces that follow a harmonic law: the property C106.  Model: Report.v. *)
From Coq Require Import Reals Qreals.
From Coquelicot Require Import Complex.
From Coq Require Import String Ascii ZArith QArith Qcanon Bool Lia Lra Arith Sorting Permutation List.
From Verif Require Import PropsSmear Base Dec Field Args ArgsFacts Cell Super SuperFacts Displace DisplaceFacts Text TextFacts TextRound PropsText
  Check CheckFacts PropsCheck PropsCell KPoints Weight Force PropsForce Cli PropsArgs PropsCli PropsOptions Session Run RunFacts Click PropsRun PropsClick PropsWorkflow
  Phonon PhononFacts PropsPhonon PropsModes Band PropsBand Thermal PropsThermal Dos DosFacts PropsDos Mode Output OutputFacts PropsOutput Plot PropsPlot Report ReportFacts PropsReport
  PropsFinish PropsBands PropsContent.
Import ListNotations.
Local Open Scope list_scope.
Local Open Scope nat_scope.

(** * Specification *)
(** ks are the k-points of the k-point file that an option names *)
Definition points_of_option (w : world) (cwd : path) (pbc : list Z) (kv : pyval) (ks : list (v3 Qc)) : Prop :=
  exists f t kind, k_file kv = Ok f /\ w_file w (resolve cwd f) = Some t /\ set_k_points (readlines t) (Some pbc) = ((ks, kind), None).

Section Laws.
  Variable eig : nat -> cmat -> list C * cmat.
  (** one increasing list of frequencies per k-point: those of the eigenvalues of the dynamical
      matrix of the law *)
  Definition law_frequencies (Phi : nat -> nat -> m3 Qc) (L : m3 Qc) (pos : list (v3 Qc)) (tr : list Z) (M : nat -> R) (N1 N2 N3 : nat) (p1 p2 p3 : Z)
      (ks : list (v3 Qc)) (fss : list (list R)) : Prop :=
    Forall2 (fun k fs => exists D, law_dynamical Phi L pos tr M N1 N2 N3 p1 p2 p3 (kR k) D /\
      StronglySorted Rle fs /\ Permutation fs (map freq (fst (eig (3 * length tr) D)))) ks fss.

  Variable search : cell Qc -> cell Qc -> args -> result (option (string * list (nat * (v3 Qc * list (v3 Qc))))).
  Variable sym_forces : fmat Qc -> cell Qc -> cell Qc -> args -> (string -> result (list (v3 Qc))) -> list string -> fmat Qc * option err.
  Variable argsort : list R -> list nat.
  Variable junk : nat -> nat -> R.
  Variable bad : string.
  Variable set_text : list Z -> string.
  Variable row : v3 R -> string.
  Variable kname : v3 Qc -> string.
  Variable ase : path -> string -> result (list (v3 R)).
  Hypothesis argsort_sorts : argsort_ok argsort.
  Hypothesis bad_word : TextFacts.word bad.

  Section Prepared.
  (** the first run, the DFT runs, the second run; as in C87 *)
  Variables (species : cell Qc -> list string) (wt : string -> string).
  Variable glob : string -> list string.
  Variables (cwd : path) (e e1 : env) (file : option (list string)) (w w1 w2 : world) (code up : string) (u : cell Qc) (L : m3 Qc) (gs : list (string * nat)) (pos : list (v3 Qc)) (tr : list Z)
    (a : args) (d : Qc) (N1 N2 N3 : nat) (p1 p2 p3 : Z) (e2 e3 : env) (file2 : option (list string)) (ff : list string) (out1 : result (option prepared))
    (law : list (v3 Qc) -> list (v3 Qc)) (Phi : nat -> nat -> m3 Qc).
  Let E := N1 * N2 * N3.
  Let n := length pos * E.
  Definition worked_through : Prop :=
    writer_ok species wt /\
    with_option_file e file = Ok e1 /\ truthy (e1 "process"%string) = true /\
    e1 "dft"%string = VStr code /\ e1 "unitcell"%string = VStr up /\ plain up /\ up <> "SUPERCELL"%string /\
    arguments_are e1 a d N1 N2 N3 p1 p2 p3 /\
    (Z.of_nat N1 <= 10000000)%Z /\ (Z.of_nat N2 <= 10000000)%Z /\ (Z.of_nat N3 <= 10000000)%Z /\
    read_structure code w (cwd ++ [up]) = Ok u /\ unit_cell_ok code u L gs pos tr /\ tr <> [] /\
    c_xyz u = Some (flat_map (fun i => [i; i; i]) tr) /\
    (forall t k, In (t, k) gs -> exists we, get_atomic_weight t = Ok (Some we)) /\
    vdecimal16 (r1 L) /\ vdecimal16 (r2 L) /\ vdecimal16 (r3 L) /\
    (truthy (e1 "sym"%string) = true -> length (filter (fun p => negb (Z.eqb p 0)) [p1; p2; p3]) = 2 -> forall s, search u s a = Ok None) /\
    main_run species wt search (sym_forces empty_mat) glob cwd e file [] w = (w1, out1) /\
    (* the DFT runs *)
    w_file w2 (cwd ++ [up]) = w_file w1 (cwd ++ [up]) /\
    w_file w2 (cwd ++ ["SUPERCELL"%string]) = w_file w1 (cwd ++ ["SUPERCELL"%string]) /\
    w_rec w2 cwd = w_rec w1 cwd /\
    length ff = 6 * length tr /\
    (forall m f, nth_error ff m = Some f -> w_file w2 (beside cwd f up) = w_file w1 (cwd ++ [(up ++ suffix (m + 1))%string])) /\
    d <> Q2Qc 0 /\ decimal16 d /\
    (forall cur ts, supercell_is L pos tr N1 N2 N3 cur ts -> Forall vdecimal16 cur /\ harmonic cur law Phi) /\
    (forall f c p, In f ff -> read_structure code w2 (beside cwd f up) = Ok c -> c_cart c = Some p -> read_forces code w2 cwd n f = Ok (law p)) /\
    (* the options of the second run *)
    with_option_file e2 file2 = Ok e3 /\
    repeated e1 e3 "unitcell"%string "POSCAR" /\ repeated e1 e3 "dft"%string "vasp" /\ e3 "supercell"%string = VNone /\
    repeated e1 e3 "displacement"%string "0.02" /\ repeated e1 e3 "enlargement"%string "2 2 1" /\ repeated e1 e3 "periodicity"%string "1 1 0".

  (** what the second run prepares *)
  Lemma prepared_from_the_law ua sym unit super ff' dos th band mo : worked_through ->
    main_plan glob e2 file2 ff (of_option EIO (w_rec w2 cwd)) = Ok (PostPlan ua sym unit super ff' dos th band mo) ->
    exists g x M,
      report search sym_forces eig argsort junk bad set_text row kname ase glob cwd e2 file2 ff w2 =
        analyses search sym_forces eig argsort junk bad set_text row kname ase g e3 dos th band mo /\
      g_sym g = false /\ g_world g = w2 /\ g_cwd g = cwd /\ removelast (resolve (g_cwd g) (g_unit g)) = cwd /\
      prepared_as search sym_forces g x /\ fits x /\ a_pbc (pp_arg x) = Some [p1; p2; p3] /\ c_lat (pp_unit x) = Some L /\
      c_xyz (pp_unit x) = Some (flat_map (fun i => [i; i; i]) tr) /\ masses_are (ungroup gs) tr M /\
      forall k, exists D, dyn_at (cell_R (pp_unit x)) (cell_R (pp_super x)) (pp_arg x) (reciprocal PI (m3R L)) (fc_R junk (pp_force x)) k = Ok D /\
        law_dynamical Phi L pos tr M N1 N2 N3 p1 p2 p3 k D.
  Proof.
    intros (HWO & HE & HPr & HC' & HU' & Hpl & HnS & HArgs & B1 & B2 & B3 & HR & HUC & Htr & HX & HWt & DL1 & DL2 & DL3 & Hsym & RUN1 & K1 & K2 & K3 & HLf & HCopy & Hd0 & Hd & HLaw & HDFT & HE2 & RU & RDft & RSup & RDi & REn & RPe) PLAN.
    set (sf := sym_forces empty_mat) in *.
    destruct (plain_name_is_in_the_working_directory cwd up Hpl) as (PR & PL & PD).
    assert (HR' : read_structure code w (resolve cwd up) = Ok u) by (rewrite PR; exact HR).
    destruct (pre_process_leaves species wt search sf glob cwd e e1 file w code up u L gs pos tr a d N1 N2 N3 p1 p2 p3 HWO HE HPr HC' HU' HArgs HR' HUC Hsym)
      as (w'' & cur0 & ts0 & RUN & _ & _ & _ & FR & RE & _).
    rewrite RUN1 in RUN. injection RUN as -> ->. rewrite PL, PD in FR. rewrite PL in RE.
    assert (FU : w_file w2 (cwd ++ [up]) = w_file w (cwd ++ [up])).
    { rewrite K1, FR; [reflexivity| |].
      - intros EQ. apply app_inj_tail in EQ as (_ & EQ). exact (HnS EQ).
      - intros m _ EQ. apply app_inj_tail in EQ as (_ & EQ). exact (app_suffix_neq up m EQ). }
    match type of RE with _ = Some ?rr => set (r := rr) in * end.
    destruct (end_to_end_exact species wt search sf glob cwd e e1 file w w'' w2 code up u L gs pos tr a d N1 N2 N3 p1 p2 p3
       e2 e3 file2 ff (Ok None) law Phi HWO HE HPr HC' HU' Hpl HnS HArgs B1 B2 B3 HR HUC Htr HX HWt Hsym RUN1 K1 K2 K3 HLf HCopy Hd0 Hd HLaw HDFT HE2
       RU RDft RSup RDi REn RPe (ex_intro _ _ PLAN))
       as (x & RX & PA & PU & (cur & ts & SI & DC & GS) & FX).
    (* the plan *)
    pose proof RX as RX'. unfold main_run in RX'. rewrite PLAN in RX'.
    pose proof PLAN as PLAN'. rewrite K3, RE in PLAN'. cbn [of_option] in PLAN'.
    assert (SYM : sym = false).
    { destruct sym eqn:X; [|reflexivity]. exfalso. pose proof (symmetry_follows_the_record glob e2 file2 ff r _ _ _ _ _ _ _ _ _ PLAN') as Y. exact (proj1 Y eq_refl eq_refl). }
    subst sym.
    assert (LF2 : exists f0 f1 fr, ff = f0 :: f1 :: fr) by (destruct tr; [contradiction|]; destruct ff as [|f0 [|f1 fr]]; cbn in HLf; try lia; eauto).
    assert (PP : post_plan glob e3 ff r = Ok (PostPlan ua false unit super ff' dos th band mo)).
    { unfold main_plan in PLAN'. rewrite HE2 in PLAN'. cbn [bind] in PLAN'. destruct LF2 as (f0 & f1 & fr & ->). exact PLAN'. }
    destruct (post_plan_inv glob _ _ _ _ _ _ _ _ _ _ _ _ PP) as (-> & -> & -> & FF & _).
    assert (ff' = ff) by (destruct LF2 as (f0 & f1 & fr & ->); exact FF). subst ff'. clear FF PP PLAN'.
    destruct (record_precedence e3 r ""%string) as (Q1 & Q2 & Q3 & _).
    assert (MU : merge_record e3 r "unitcell"%string = VStr up).
    { destruct RU as [RU|RU]; [|rewrite (proj1 Q1 RU); reflexivity]. rewrite HU' in RU.
      destruct (String.string_dec up "POSCAR") as [->|N]; [rewrite (proj1 Q1 RU); reflexivity|]. rewrite (proj2 Q1); [exact RU|]. rewrite RU. congruence. }
    assert (MS : merge_record e3 r "supercell"%string = VStr "SUPERCELL") by (rewrite (proj1 Q2 RSup); reflexivity).
    assert (MD : merge_record e3 r "dft"%string = VStr code).
    { destruct RDft as [RD|RD]; [|rewrite (proj1 Q3 RD); reflexivity]. rewrite HC' in RD.
      destruct (String.string_dec code "vasp") as [->|N]; [rewrite (proj1 Q3 RD); reflexivity|]. rewrite (proj2 Q3); [exact RD|]. rewrite RD. congruence. }
    rewrite MU, MS in *. set (ua := user_args (merge_record e3 r)) in *.
    assert (CO : code_of ua = code) by (cbn; rewrite MD; reflexivity).
    destruct (post_run search sf cwd ua false (VStr up) (VStr "SUPERCELL") ff w2) as [x'|] eqn:PR2; cbn [bind] in RX'; [|discriminate].
    assert (x' = x) by congruence. subst x'. clear RX'.
    set (g := mkSetting cwd ua false up "SUPERCELL" ff w2).
    assert (PREP : prepared_as search sym_forces g x) by (unfold prepared_as; rewrite <- post_run_settle; exact PR2).
    destruct (post_run_parts _ _ _ _ _ _ _ _ _ PR2) as (u0 & s0 & Y1 & Y2 & Y3 & Y4). rewrite CO, PR in Y1.
    assert (u0 = u).
    { assert (Z : read_structure code w2 (cwd ++ [up]) = read_structure code w (cwd ++ [up])) by (apply read_structure_ext; exact FU). rewrite Z, HR in Y1. congruence. }
    subst u0. rewrite PA in Y4.
    destruct HUC as ((kd & HC) & HT & HRg & Hne & Hg).
    pose proof (args_valid _ _ _ _ _ _ _ _ _ HArgs) as HV. destruct HArgs as (A1 & A2 & A3 & A4 & P1 & P2 & P3).
    destruct GS as ((L' & GL & GW) & GT & (cur' & GC & GC2) & _).
    assert (cur' = cur) by (eapply Forall2_decimal; eauto). subst cur'.
    assert (HL : L' = scaled (Z.of_nat N1) (Z.of_nat N2) (Z.of_nat N3) L) by (apply exact_lattice; assumption). subst L'.
    assert (NTY : length (each_times E (ungroup gs)) = length pos * E).
    { unfold each_times. rewrite (flat_map_const_length (fun t => repeat t E) _ E) by (intros; apply repeat_length). destruct HC as (_ & _ & _ & _ & _ & HC). now rewrite HC. }
    destruct (law_matrix u (pp_unit x) s0 (pp_super x) a L (ungroup gs) (group_sizes gs) kd pos tr N1 N2 N3 p1 p2 p3 cur ts (pp_force x) Phi junk
       HC HV P1 P2 P3 HT HX HRg Y2 SI Y4 GL (ex_intro _ _ (conj GT NTY)) GC FX) as (M & HM & HD).
    assert (XU : c_xyz (pp_unit x) = Some (flat_map (fun i => [i; i; i]) tr)).
    { destruct (masses_of_cell u (pp_unit x) (ungroup gs) tr Y2) as (ms & M' & EU & _); [apply HC|exact HX| |rewrite EU; exact HX].
      destruct HC as (_ & _ & _ & _ & _ & HC). rewrite HC. exact HRg. }
    exists g, x, M. split.
    { unfold report. rewrite HE2, quiet_andthen, PLAN, quiet_andthen. cbn [path_text]. rewrite !quiet_andthen. reflexivity. }
    split; [reflexivity|]. split; [reflexivity|]. split; [reflexivity|]. split; [cbn [g g_cwd g_unit]; rewrite PR; apply removelast_last|]. split; [exact PREP|].
    split.
    { split.
      - destruct (HD (V3 0 0 0)%R) as (D & HD1 & _). rewrite <- PA in HD1. eauto.
      - rewrite XU. destruct tr as [|t0 tr']; [contradiction|]. cbn [flat_map app]. eauto. }
    split; [rewrite PA; exact A4|]. split; [destruct PU as (-> & _); apply HC|]. split; [exact XU|]. split; [exact HM|]. rewrite PA. exact HD.
  Qed.

  (** the modes at the k-points of a file *)
  Lemma modes_of_the_law g x M kv ks ms : g_world g = w2 -> g_cwd g = cwd -> a_pbc (pp_arg x) = Some [p1; p2; p3] -> c_lat (pp_unit x) = Some L ->
    c_xyz (pp_unit x) = Some (flat_map (fun i => [i; i; i]) tr) ->
    (forall k, exists D, dyn_at (cell_R (pp_unit x)) (cell_R (pp_super x)) (pp_arg x) (reciprocal PI (m3R L)) (fc_R junk (pp_force x)) k = Ok D /\
        law_dynamical Phi L pos tr M N1 N2 N3 p1 p2 p3 k D) ->
    modes_of_file eig argsort junk g x kv ks ms ->
    points_of_option w2 cwd [p1; p2; p3] kv ks /\ law_frequencies Phi L pos tr M N1 N2 N3 p1 p2 p3 ks (map fst ms).
  Proof.
    intros GW GC GP GL GX HD (f & t & kind & L' & F1 & F2 & F3 & F4 & F5). rewrite GW, GC in F2. rewrite GP in F3. rewrite GL in F4. assert (L' = L) by congruence. subst L'.
    split; [exists f, t, kind; auto|]. apply phonon_results_in_k_order in F5. unfold law_frequencies. clear F1 F2 F3.
    revert ms F5. induction ks as [|k ks IH]; intros ms F5; inversion F5 as [|k0 m l l' (D' & atoms & R1 & R2 & R3) F5' E1 E2]; subst; cbn [map]; constructor; [|apply IH; exact F5'].
    destruct (HD (kR k)) as (D & HD1 & HD2). assert (D' = D) by congruence. subst D'.
    cbn [cell_R c_xyz] in R2. rewrite GX in R2. assert (NA : length atoms = 3 * length tr).
    { assert (Z : atoms = flat_map (fun i => [i; i; i]) tr) by congruence. rewrite Z, Nat.mul_comm. apply flat_map_const_length. reflexivity. }
    exists D. split; [exact HD2|]. destruct (frequencies_sorted eig argsort (length atoms) D argsort_sorts) as (S1 & S2). rewrite NA in S2. rewrite <- NA in *. auto.
  Qed.

  Lemma prepared_same g x x' : prepared_as search sym_forces g x -> prepared_as search sym_forces g x' -> x' = x.
  Proof. unfold prepared_as. congruence. Qed.
  Lemma prepared_second_same g dos x x' : g_sym g = false -> prepared_as search sym_forces g x -> prepared_second search sym_forces g dos x' -> x' = x.
  Proof.
    intros S P. unfold prepared_second. destruct dos as [dk|]; [|apply prepared_same; exact P]. intros (x0 & P0 & P1). assert (x0 = x) by (eapply prepared_same; eauto). subst x0.
    unfold prepared_as in P. destruct (new_process g) as [y|]; cbn [bind] in P; [|discriminate].
    assert (Q : settle search sym_forces g x = Ok x) by (apply (settle_twice _ _ g y); [rewrite S; discriminate|exact P]). congruence.
  Qed.

  (** After the documented way of working, with any option (or option file) in the second run:
      whatever analysis it asks for, if it succeeds, the numbers it leaves are those of the law. *)
  Theorem any_analysis_of_the_law : forall ua sym unit super ff' dos th band mo evs,
    worked_through -> main_plan glob e2 file2 ff (of_option EIO (w_rec w2 cwd)) = Ok (PostPlan ua sym unit super ff' dos th band mo) ->
    report search sym_forces eig argsort junk bad set_text row kname ase glob cwd e2 file2 ff w2 = (evs, Ok tt) ->
    exists M, masses_are (ungroup gs) tr M /\
      let frequencies := law_frequencies Phi L pos tr M N1 N2 N3 p1 p2 p3 in let points := points_of_option w2 cwd [p1; p2; p3] in
      (* densities of states *)
      (forall da kd, dos = Some (da, kd) -> eig_unit eig -> toR (da_sigma da) <> 0%R ->
         let sigma := toR (da_sigma da) in let num := Z.to_nat (da_num da) in
         exists ks fss lo hi total, points kd ks /\ frequencies ks fss /\ lowest_highest (concat fss) lo hi /\
           In (Report.File (folder_text cwd ++ "/total_dos.dat") total) evs /\
           is_table bad total (map (fun i => let f := sample lo hi num i in
             [Some f; Some (sumR (map (fun w => bell sigma w f) (concat fss)) / INR (length ks))%R]) (seq 0 num))) /\
      (* thermal properties *)
      (forall da kd ts, dos = Some (da, kd) -> th = Some ts -> Forall (fun T => 0 <= T)%Z ts -> at_most_one_zero (map IZR ts) ->
         exists ks fss lines, points kd ks /\ frequencies ks fss /\
           In (Report.File (folder_text cwd ++ "/thermal_properties.dat") lines) evs /\
           (~ In 0%R (concat fss) ->
            is_table bad lines (map (fun T => [Some T;
              Some (if Req_EM_T T 0 then per_atom fss (3 * length tr) zero_point else per_atom fss (3 * length tr) (helmholtz T));
              Some (if Req_EM_T T 0 then 0 else 1000 * per_atom fss (3 * length tr) (mode_entropy T))%R]) (map IZR ts)))) /\
      (* bands *)
      (forall ba kb, band = Some (ba, kb) ->
         exists ks fss xs lines, points kb ks /\ frequencies ks fss /\
           nth 0 xs 0%R = 0%R /\ (forall i, S i < length ks -> nth (S i) xs 0%R = (nth i xs 0 + dist (kR (nth i ks v3z)) (kR (nth (S i) ks v3z)))%R) /\
           In (Report.File (folder_text cwd ++ "/band.dat") lines) evs /\
           is_table bad lines (map (fun i => map Some (nth i xs 0%R :: nth i fss [])) (seq 0 (length ks)))).
  Proof.
    intros ua sym unit super ff' dos th band mo evs WT PLAN HRep.
    destruct (prepared_from_the_law _ _ _ _ _ _ _ _ _ WT PLAN) as (g & x & M & RA & GS & GW & GC & GF & PREP & FIT & GP & GL & GX & HM & HD).
    rewrite RA in HRep. exists M. split; [exact HM|]. cbv zeta.
    assert (NX : flat_map (fun i => [i; i; i]) tr <> []) by (destruct WT as (_ & _ & _ & _ & _ & _ & _ & _ & _ & _ & _ & _ & _ & Htr & _); destruct tr; [contradiction|discriminate]).
    assert (LX : length (flat_map (fun i => [i; i; i]) tr) = 3 * length tr) by (rewrite Nat.mul_comm; apply flat_map_const_length; reflexivity).
    split; [|split].
    - intros da kd -> EU HS.
      destruct (dos_files_of_a_run search sym_forces eig argsort junk bad set_text row kname ase g e3 da kd th band mo evs bad_word EU argsort_sorts HS HRep)
        as (x' & ks & ms & xyz & lo & hi & total & projected & P1' & P2' & P3' & P4' & P5' & _ & _ & P8' & _).
      assert (x' = x) by (eapply prepared_same; eauto). subst x'. rewrite GF in P5'.
      destruct (modes_of_the_law g x M kd ks ms GW GC GP GL GX HD P2') as (Q1 & Q2).
      exists ks, (map fst ms), lo, hi, total. split; [exact Q1|]. split; [exact Q2|]. split; [exact P3'|]. split; [exact P5'|]. exact P8'.
    - intros da kd ts -> -> HT HZ.
      destruct (thermal_file_of_an_analysis search sym_forces eig argsort junk bad set_text row kname ase g e3 da kd ts band mo evs bad_word HT HZ HRep)
        as (x' & ks & ms & xyz & lines & P1' & P2' & P3' & P4' & P5').
      assert (x' = x) by (eapply prepared_same; eauto). subst x'. rewrite GF in P4'.
      destruct (modes_of_the_law g x M kd ks ms GW GC GP GL GX HD P2') as (Q1 & Q2).
      assert (xyz = flat_map (fun i => [i; i; i]) tr) by congruence. subst xyz. rewrite LX in P5'.
      exists ks, (map fst ms), lines. split; [exact Q1|]. split; [exact Q2|]. split; [exact P4'|]. intros HF. apply P5'; [exact NX|exact HF].
    - intros ba kb ->.
      destruct (second_stage _ _ _ _ _ _ _ _ _ _ _ _ _ _ _ _ _ _ HRep) as (x' & old & p & b & pic & l1 & l2 & l3 & l4 & EP & H1 & H2 & _ & EV). cbv zeta in EV.
      assert (x' = x) by (eapply prepared_second_same; eauto). subst x'.
      assert (K2 : 2 <= length (p_k p)) by (unfold band_set in H2; destruct (p_k p) as [|? [|? ?]]; [discriminate H2|discriminate H2|cbn; lia]).
      destruct (evaluate_parts _ _ _ _ _ _ _ _ _ _ H1 ltac:(left; intros X; rewrite X in K2; cbn in K2; lia)) as (ks & xyz & MF & PK & _ & _).
      destruct (modes_of_the_law g x M kb ks (p_modes p) GW GC GP GL GX HD MF) as (Q1 & Q2).
      assert (LM : length (p_modes p) = length ks) by (clear -Q2; unfold law_frequencies in Q2; remember (map fst (p_modes p)) as l eqn:El; apply (f_equal (@length _)) in El; rewrite map_length in El; rewrite <- El; clear El; induction Q2; cbn; congruence).
      assert (LK : length (p_k p) = length ks) by (rewrite PK; apply map_length).
      destruct (band_abscissa p K2) as (b' & EB & X1 & X2 & X3 & _). assert (b' = b) by congruence. subst b'.
      exists ks, (map fst (p_modes p)), (b_len b), (snd (band_write bad (folder_text cwd) p b)).
      split; [exact Q1|]. split; [exact Q2|]. split; [exact X2|]. split.
      { intros i Hi. rewrite X3 by (rewrite LK; exact Hi). unfold kpt. rewrite PK.
        assert (NM : forall j z, j < length ks -> nth j (map kR ks) z = kR (nth j ks v3z)) by (intros j z Hj; rewrite (nth_indep _ _ (kR v3z)) by (rewrite map_length; exact Hj); apply map_nth).
        rewrite !NM by lia. reflexivity. }
      split.
      { rewrite EV, GF. apply in_or_app; right. apply in_or_app; left. apply in_or_app; right. apply in_or_app; left. left. reflexivity. }
      unfold band_write. cbn [snd app].
      replace (map _ (seq 0 (length ks))) with (map (fun xy : R * list R => Some (fst xy) :: map Some (snd xy)) (combine (b_len b) (map fst (p_modes p)))).
      + rewrite <- (map_map (fun xy : R * list R => Some (fst xy) :: map Some (snd xy)) (table_line bad 16)). apply table_from; [exact bad_word|reflexivity|reflexivity].
      + assert (LB : length ks = length (b_len b)) by congruence. rewrite LB in *. clear -LM.
        revert LM. generalize (p_modes p) as ms. generalize (b_len b) as bl. clear. intros bl. induction bl as [|y bl IH]; intros [|m ms] LM; try discriminate LM; [reflexivity|].
        cbn [map combine length seq]. f_equal. rewrite <- seq_shift, map_map. cbn [nth]. apply IH. cbn in LM. lia.
  Qed.

  (** With plain pictures the second run finishes: no further condition on the world. *)
  Hypothesis eig_size : forall n D, length (fst (eig n D)) = n.
  Theorem plain_analysis_of_the_law_finishes : forall ua sym unit super ff' dos th band,
    worked_through -> main_plan glob e2 file2 ff (of_option EIO (w_rec w2 cwd)) = Ok (PostPlan ua sym unit super ff' dos th band None) ->
    dos <> None \/ band <> None ->
    (forall da kd, dos = Some (da, kd) -> (exists ks, points_of_option w2 cwd [p1; p2; p3] kd ks /\ 1 <= length ks) /\
       toR (da_sigma da) <> 0%R /\ da_option da = "plain"%string /\ range_ok (da_elimit da) /\ labels_fit da /\ orientation_known e3 /\ match th with Some ts => ts <> [] | None => True end) ->
    (forall ba kb, band = Some (ba, kb) -> (exists ks, points_of_option w2 cwd [p1; p2; p3] kb ks /\ 2 <= length ks) /\
       ba_option ba = "plain"%string /\ label_list (e3 "k_label_band"%string) = [] /\ range_ok (ba_elimit ba)) ->
    exists evs, report search sym_forces eig argsort junk bad set_text row kname ase glob cwd e2 file2 ff w2 = (evs, Ok tt).
  Proof.
    intros ua sym unit super ff' dos th band WT PLAN SOME HDos HBand.
    destruct (prepared_from_the_law _ _ _ _ _ _ _ _ _ WT PLAN) as (g & x & M & RA & GS & GW & GC & GF & PREP & FIT & GP & GL & GX & HM & HD). rewrite RA.
    assert (KP : forall kv ks m, points_of_option w2 cwd [p1; p2; p3] kv ks -> m <= length ks -> k_points_given g (pp_arg x) kv m).
    { intros kv ks m (f & t & kind & F1 & F2 & F3) HM'. exists f, t, ks, kind. rewrite GW, GC, GP. auto. }
    assert (SL : forall l, length (argsort l) = length l) by (intros l; destruct (argsort_sorts l) as (X & _); apply Permutation_length in X; rewrite X; apply seq_length).
    assert (RP : repeatable sym_forces g) by (intros X; rewrite GS in X; discriminate X).
    destruct dos as [[da kd]|].
    - destruct (HDos da kd eq_refl) as ((ks & K1 & K2) & D1 & D2 & D3 & D4 & D5 & D6). destruct band as [[ba kb]|].
      + destruct (HBand ba kb eq_refl) as ((ks' & K3 & K4) & B1 & B2 & B3).
        eapply (plain_run_finishes search sym_forces eig argsort junk bad set_text row kname ase eig_size SL); eauto.
      + eapply (plain_dos_finishes search sym_forces eig argsort junk bad set_text row kname ase eig_size SL); eauto.
    - destruct band as [[ba kb]|]; [|destruct SOME as [X|X]; contradiction X; reflexivity].
      destruct (HBand ba kb eq_refl) as ((ks' & K3 & K4) & B1 & B2 & B3).
      eapply (plain_bands_finish search sym_forces eig argsort junk bad set_text row kname ase eig_size SL); eauto.
  Qed.
  End Prepared.
End Laws.
Print Assumptions any_analysis_of_the_law.
Print Assumptions plain_analysis_of_the_law_finishes.

(** ** the theorems applied: two atoms in a square lattice, a spring; states, thermal properties
    and bands in one second run *)
Section Demo.
  Let here : path := ["home"; "me"]%string.
  Let poscar : string := to_text ["one atom"; "1.0"; "2.5 0 0"; "0 2.5 0"; "0 0 10"; "Si"; "1"; "Cartesian"; "0.25 0 5"]%string.
  Let kpath : string := to_text ["path"; "10"; "L"; "0 0 0"; "0.5 0 0"]%string.
  Let kgrid : string := to_text ["grid"; "0"; "G"; "2 2 1"; "0 0 0"]%string.
  Let w0 : world := mkWorld (fun p => if same_path p (here ++ ["POSCAR"%string]) then Some poscar else if same_path p (here ++ ["KPATH"%string]) then Some kpath
    else if same_path p (here ++ ["KGRID"%string]) then Some kgrid else None) (fun _ => None).
  Let words1 : list (list string) := [["-enlarge"; "2 1 1"]; ["-sym_off"]]%string.
  Let species (c : cell Qc) : list string := match c_type c with Some (t :: _) => [t] | _ => [] end.
  Let wt (_ : string) : string := "28.085"%string.
  Let search (u s : cell Qc) (a : args) : result (option (string * list (nat * (v3 Qc * list (v3 Qc))))) := Ok None.
  Let sym_forces (_ : fmat Qc) (u s : cell Qc) (a : args) (_ : string -> result (list (v3 Qc))) (_ : list string) : fmat Qc * option err := (empty_mat, None).
  Let glob (_ : string) : list string := [].
  Let called (w : world) (l : list string) : env := match command (file_exists here w) l with Call e _ => e | _ => fun _ => VNone end.
  Let e1 : env := called w0 (concat words1).
  Let w1 : world := fst (main_run species wt search (sym_forces empty_mat) glob here e1 None [] w0).
  Let dirs : list string := ["d1"; "d2"; "d3"; "d4"; "d5"; "d6"]%string.
  Let ff : list string := map (fun s => s ++ "/vasprun.xml")%string dirs.
  (* two atoms coupled by an isotropic spring of 5 eV/A^2 *)
  Let line (x : string) (k : nat) : string := (" <v> " ++ nth (k / 2) [x ++ " 0 0"; "0 " ++ x ++ " 0"; "0 0 " ++ x] "" ++ " </v>")%string.
  Let forces (k : nat) : string :=
    to_text ["<varray name=""forces"" >"; (if Nat.even k then line "-0.1" k else line "0.1" k); (if Nat.even k then line "0.1" k else line "-0.1" k); "</varray>"]%string.
  Let w2 : world := mkWorld (fun p =>
    match find (fun kd => same_path p (here ++ [snd kd; "POSCAR"%string])) (combine (seq 1 6) dirs) with
    | Some kd => w_file w1 (here ++ [("POSCAR" ++ suffix (fst kd))%string])
    | None => match find (fun kd => same_path p (here ++ [snd kd; "vasprun.xml"%string])) (combine (seq 0 6) dirs) with
              | Some kd => Some (forces (fst kd))
              | None => w_file w1 p
              end
    end) (w_rec w1).
  Let u : cell Qc := match read_structure "vasp" w0 (here ++ ["POSCAR"%string]) with Ok c => c | Err _ => cell_init end.
  Let q (n : Z) (p : positive) : Qc := Q2Qc (n # p).
  Let L : m3 Qc := match c_lat u with Some l => l | None => M3 v3z v3z v3z end.
  Let pos : list (v3 Qc) := match c_cart u with Some l => l | None => [] end.
  Let a : args := match set_user_arg args_init (user_args e1) with Ok a => a | Err _ => args_init end.
  Let d : Qc := match a_disp a with Some d => d | None => Q2Qc 0 end.
  Let c0 : v3 Qc := V3 (q 1 4) (q 0 1) (q 5 1).
  Let c1 : v3 Qc := V3 (q 11 4) (q 0 1) (q 5 1).
  Let law := spring (q 801 100000000000) c0 c1.
  Let Phi := spring_phi (q 801 100000000000).

  Lemma the_supercell cur ts : supercell_is L pos [0%Z] 2 1 1 cur ts -> cur = [c0; c1].
  Proof.
    intros (HL & HC & _). change (length cur = length pos * 2) in HL. replace (length pos) with 1 in HL by (vm_compute; reflexivity). destruct cur as [|x [|y [|z cur]]]; try discriminate.
    assert (HP : nth_error pos 0 = Some (nth 0 pos v3z)) by (vm_compute; reflexivity). pose proof (HC 0 _ 0 0 0 HP) as H0. pose proof (HC 0 _ 1 0 0 HP) as H1. clear HC HP. cbn [nth_error Nat.mul Nat.add] in H0, H1.
    specialize (H0 ltac:(lia) ltac:(lia) ltac:(lia)). specialize (H1 ltac:(lia) ltac:(lia) ltac:(lia)).
    apply some_inj in H0, H1. rewrite H0, H1. clear H0 H1. apply vseqb_eq. vm_compute. reflexivity.
  Qed.
  Let e2 : env := called w2 (ff ++ ["-c"; "POSCAR"; "-kdos"; "KGRID"; "-thermal"; "-tmax"; "300"; "-tstep"; "100"; "-kband"; "KPATH"]%string).
  Let points (f : string) : list (v3 Qc) := match w_file w0 (here ++ [f]) with Some t => fst (fst (set_k_points (readlines t) (Some [1; 1; 0]%Z))) | None => [] end.
  Lemma points_of f : match w_file w2 (resolve here f), w_file w0 (here ++ [f]) with
      | Some t, Some t0 => (String.eqb t t0 && match snd (set_k_points (readlines t0) (Some [1; 1; 0]%Z)) with None => true | _ => false end)%bool | _, _ => false end = true ->
    points_of_option w2 here [1; 1; 0]%Z (VStr f) (points f).
  Proof.
    intros H. unfold points. destruct (w_file w2 (resolve here f)) as [t|] eqn:E1; [|discriminate]. destruct (w_file w0 (here ++ [f])) as [t0|] eqn:E2; [|discriminate].
    apply andb_prop in H. destruct H as [H1 H2]. apply String.eqb_eq in H1. subst t0.
    exists f, t, (snd (fst (set_k_points (readlines t) (Some [1; 1; 0]%Z)))). split; [reflexivity|]. split; [exact E1|]. apply points_eq. exact H2.
  Qed.
  Lemma demo_worked : worked_through search sym_forces species wt glob here e1 e1 None w0 w1 w2 "vasp" "POSCAR" u L [("Si"%string, 1)] pos [0%Z] a d 2 1 1 1 1 0 e2 e2 None ff
      (snd (main_run species wt search (sym_forces empty_mat) glob here e1 None [] w0)) law Phi.
  Proof.
    assert (EL : L = M3 (V3 (q 5 2) (q 0 1) (q 0 1)) (V3 (q 0 1) (q 5 2) (q 0 1)) (V3 (q 0 1) (q 0 1) (q 10 1))) by (apply lat_eq; vm_compute; reflexivity).
    unfold worked_through.
    split. { split; [|intros; reflexivity]. intros c ty t H. unfold species. rewrite H. destruct ty; [intros []|intros [<-|[]]; now left]. }
    split; [reflexivity|]. split; [vm_compute; reflexivity|]. split; [vm_compute; reflexivity|]. split; [vm_compute; reflexivity|]. split; [repeat split; discriminate|]. split; [discriminate|].
    split; [repeat split; try (vm_compute; reflexivity); try lia|]. split; [lia|]. split; [lia|]. split; [lia|]. split; [vm_compute; reflexivity|].
    split.
    { split; [exists Cartesian; repeat split; vm_compute; reflexivity|]. split; [vm_compute; reflexivity|].
      split; [repeat (apply Forall_cons); [|apply Forall_nil]; vm_compute; split; [discriminate|reflexivity]|]. split; [discriminate|].
      intros t n [X|[]]. injection X as <- <-. split; [left; split; [reflexivity|]|lia]. split; [discriminate|reflexivity]. }
    split; [discriminate|]. split; [vm_compute; reflexivity|].
    split. { intros t k [X|[]]. injection X as <- <-. exists (28085, 3)%Z. vm_compute. reflexivity. }
    split. { rewrite EL. split; [apply (dec16 5 2 25000000000000000)|split; apply (dec16 0 1 0)]; reflexivity. }
    split. { rewrite EL. split; [apply (dec16 0 1 0)|split; [apply (dec16 5 2 25000000000000000)|apply (dec16 0 1 0)]]; reflexivity. }
    split. { rewrite EL. split; [apply (dec16 0 1 0)|split; [apply (dec16 0 1 0)|apply (dec16 10 1 100000000000000000)]]; reflexivity. }
    split. { intros X. vm_compute in X. discriminate. }
    split. { unfold w1. destruct (main_run species wt search (sym_forces empty_mat) glob here e1 None [] w0) as [x y]. reflexivity. }
    split; [vm_compute; reflexivity|]. split; [vm_compute; reflexivity|]. split; [unfold w2; cbn [w_rec]; reflexivity|]. split; [reflexivity|].
    split. { intros m f H. do 6 (destruct m as [|m]; [cbn in H; injection H as <-; vm_compute; reflexivity|]). destruct m; discriminate. }
    split. { intros X. apply (f_equal this) in X. vm_compute in X. discriminate. }
    split. { assert (D : d = q 1 50) by (apply Qc_is_canon; vm_compute; reflexivity). rewrite D. apply (dec16 1 50 200000000000000). reflexivity. }
    split.
    { intros cur ts H. rewrite (the_supercell cur ts H). split; [|apply spring_harmonic].
      repeat constructor; cbn [vx vy vz c0 c1].
      + apply (dec16 1 4 2500000000000000). reflexivity.
      + apply (dec16 0 1 0). reflexivity.
      + apply (dec16 5 1 50000000000000000). reflexivity.
      + apply (dec16 11 4 27500000000000000). reflexivity.
      + apply (dec16 0 1 0). reflexivity.
      + apply (dec16 5 1 50000000000000000). reflexivity. }
    split. { intros f c p H. revert c p. apply (law_matches law). revert f H. apply forallb_forall. vm_compute. reflexivity. }
    split; [reflexivity|]. split; [left; vm_compute; reflexivity|]. split; [left; vm_compute; reflexivity|]. split; [vm_compute; reflexivity|].
    split; [left; vm_compute; reflexivity|]. split; [right; vm_compute; reflexivity|left; vm_compute; reflexivity].
  Qed.
  Let the_plan : result plan := main_plan glob e2 None ff (of_option EIO (w_rec w2 here)).
  Lemma plan_ok : match the_plan with
    | Ok (PostPlan _ _ _ _ _ (Some (da, VStr kd)) (Some ts) (Some (ba, VStr kb)) None) =>
        (String.eqb kd "KGRID" && String.eqb kb "KPATH" && Qeq_bool (da_sigma da) (1 # 10) && Z.eqb (da_num da) 200 && String.eqb (da_option da) "plain" &&
         match da_elimit da, da_legend da, ba_elimit ba with None, None, None => true | _, _, _ => false end && String.eqb (ba_option ba) "plain" && (if list_eq_dec Z.eq_dec ts [0; 100; 200]%Z then true else false))%bool
    | _ => false end = true.
  Proof. vm_compute. reflexivity. Qed.
  (** The conditions of C106 hold, and the run finishes; its states, thermal properties and
      bands are those of the chain of the two atoms and the spring. *)
  Example law_instance : forall eig argsort junk bad set_text row kname ase,
    (forall n D, length (fst (eig n D)) = n) -> eig_unit eig -> argsort_ok argsort -> TextFacts.word bad ->
    exists evs M ks fss lo hi total ks' fss' lines,
      command (file_exists here w2) (ff ++ ["-c"; "POSCAR"; "-kdos"; "KGRID"; "-thermal"; "-tmax"; "300"; "-tstep"; "100"; "-kband"; "KPATH"]%string) = Call e2 ff /\
      report search sym_forces eig argsort junk bad set_text row kname ase glob here e2 None ff w2 = (evs, Ok tt) /\ M 0 = kg 28085 3 /\
      points_of_option w2 here [1; 1; 0]%Z (VStr "KGRID") ks /\ law_frequencies eig Phi L pos [0%Z] M 2 1 1 1 1 0 ks fss /\ lowest_highest (concat fss) lo hi /\
      In (Report.File "/home/me/total_dos.dat" total) evs /\
      is_table bad total (map (fun i => let f := sample lo hi 200 i in [Some f; Some (sumR (map (fun w => bell (1 / 10) w f) (concat fss)) / INR (length ks))%R]) (seq 0 200)) /\
      In (Report.File "/home/me/thermal_properties.dat" lines) evs /\
      points_of_option w2 here [1; 1; 0]%Z (VStr "KPATH") ks' /\ law_frequencies eig Phi L pos [0%Z] M 2 1 1 1 1 0 ks' fss' /\ length ks' = 10.
  Proof.
    intros eig argsort junk bad set_text row kname ase SE EU SA SB. pose proof plan_ok as P. destruct the_plan as [pl|] eqn:EP; [|discriminate P].
    destruct pl as [|ua sym unit super ff' dos th band mo]; [discriminate P|]. destruct dos as [[da [| kd | | |]]|]; try discriminate P. destruct th as [ts|]; [|discriminate P].
    destruct band as [[ba [| kb | | |]]|]; try discriminate P. destruct mo; [discriminate P|].
    repeat (apply andb_prop in P; destruct P as [P ?]).
    repeat match goal with H : String.eqb _ _ = true |- _ => apply String.eqb_eq in H end.
    match goal with H : Z.eqb _ _ = true |- _ => apply Z.eqb_eq in H; rename H into HN end. match goal with H : Qeq_bool _ _ = true |- _ => apply Qeq_bool_eq in H; rename H into HQ end.
    destruct (list_eq_dec Z.eq_dec ts [0; 100; 200]%Z) as [->|]; [|discriminate]. subst kd kb.
    destruct (da_elimit da) eqn:Ee; [discriminate|]. destruct (da_legend da) eqn:El; [discriminate|]. destruct (ba_elimit ba) eqn:Eb; [discriminate|].
    assert (SG : toR (da_sigma da) = (1 / 10)%R).
    { unfold toR. rewrite (Qeq_eqR _ _ HQ). unfold Q2R. cbn. lra. }
    assert (KD : points_of_option w2 here [1; 1; 0]%Z (VStr "KGRID") (points "KGRID")) by (apply points_of; vm_compute; reflexivity).
    assert (KB : points_of_option w2 here [1; 1; 0]%Z (VStr "KPATH") (points "KPATH")) by (apply points_of; vm_compute; reflexivity).
    destruct (plain_analysis_of_the_law_finishes eig search sym_forces argsort junk bad set_text row kname ase SA species wt glob here e1 e1 None w0 w1 w2 "vasp" "POSCAR" u L [("Si"%string, 1)] pos [0%Z] a d 2 1 1 1 1 0%Z e2 e2 None ff _ law Phi SE
      ua sym unit super ff' (Some (da, VStr "KGRID"%string)) (Some [0; 100; 200]%Z) (Some (ba, VStr "KPATH"%string)) demo_worked EP) as (evs & HRep).
    - left. discriminate.
    - intros da0 kd0 X. injection X as <- <-. split; [exists (points "KGRID"); split; [exact KD|vm_compute; lia]|]. split; [rewrite SG; lra|]. split; [assumption|].
      split; [rewrite Ee; exact I|]. split; [unfold labels_fit; rewrite El; exact I|]. split; [|discriminate].
      intros s Hs. left. assert (Z : e2 "orientation_dos"%string = VStr "horizontal") by (vm_compute; reflexivity). congruence.
    - intros ba0 kb0 X. injection X as <- <-. split; [exists (points "KPATH"); split; [exact KB|vm_compute; lia]|]. split; [assumption|]. split; [vm_compute; reflexivity|]. rewrite Eb. exact I.
    - destruct (any_analysis_of_the_law eig search sym_forces argsort junk bad set_text row kname ase SA SB species wt glob here e1 e1 None w0 w1 w2 "vasp" "POSCAR" u L [("Si"%string, 1)] pos [0%Z] a d 2 1 1 1 1 0%Z e2 e2 None ff _ law Phi
        ua sym unit super ff' (Some (da, VStr "KGRID"%string)) (Some [0; 100; 200]%Z) (Some (ba, VStr "KPATH"%string)) None evs demo_worked EP HRep) as (M & HM & T1 & T2 & T3).
      destruct (T1 _ _ eq_refl EU) as (ks & fss & lo & hi & total & A1 & A2 & A3 & A4 & A5); [rewrite SG; lra|].
      destruct (T2 _ _ _ eq_refl eq_refl) as (ks2 & fss2 & lines & B1 & B2 & B3 & _).
      { repeat constructor; lia. }
      { unfold at_most_one_zero. cbn [map count_occ]. destruct (Req_EM_T (IZR 0) 0); destruct (Req_EM_T (IZR 100) 0); destruct (Req_EM_T (IZR 200) 0); lra || lia. }
      destruct (T3 _ _ eq_refl) as (ks3 & fss3 & xs & lines3 & C1 & C2 & _).
      exists evs, M, ks, fss, lo, hi, total, ks3, fss3, lines.
      split. { unfold e2, called. match goal with |- _ = Call (match ?t with _ => _ end) _ => assert (X : match t with Call _ l => if list_eq_dec string_dec l ff then true else false | _ => false end = true) by (vm_compute; reflexivity); destruct t as [| |e0 l]; try discriminate X end.
        destruct (list_eq_dec string_dec l ff) as [->|]; [reflexivity|discriminate X]. }
      split; [exact HRep|]. split. { destruct (HM 0 0%Z "Si"%string eq_refl eq_refl) as (m & ex & G1 & ->). vm_compute in G1. injection G1 as <- <-. reflexivity. }
      split; [exact A1|]. split; [exact A2|]. split; [exact A3|]. split; [exact A4|]. rewrite SG, HN in A5. split; [exact A5|]. split; [exact B3|].
      split; [exact C1|]. split; [exact C2|].
      destruct C1 as (f & t & kind & F1 & F2 & F3), KB as (f' & t' & kind' & F1' & F2' & F3'). cbn in F1, F1'. injection F1 as <-. injection F1' as <-.
      assert (t' = t) by congruence. subst t'. rewrite F3 in F3'. assert (X : ks3 = points "KPATH") by congruence. rewrite X. vm_compute. reflexivity.
  Qed.
End Demo.
Print Assumptions law_instance.
