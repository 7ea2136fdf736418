(** From the command line to band.dat: the property C104. *)
From Coq Require Import Reals Qreals.
From Coquelicot Require Import Complex.
From Coq Require Import String Ascii ZArith QArith Qcanon Bool Lia Lra Arith Sorting Permutation List.
From Verif Require Import Base Dec Field Args ArgsFacts Cell Super SuperFacts Displace DisplaceFacts Text TextFacts TextRound PropsText
  Check CheckFacts PropsCheck PropsCell KPoints Weight Force PropsForce Cli PropsArgs PropsCli PropsOptions Session Run RunFacts Click PropsRun PropsClick PropsWorkflow
  Phonon PhononFacts PropsPhonon PropsModes Band PropsBand Thermal Dos Mode Output OutputFacts PropsOutput Plot Report ReportFacts PropsReport PropsFinish.
Import ListNotations.
Local Open Scope list_scope.
Local Open Scope nat_scope.

(** * Specification *)
(** mass in kilograms of an atom of weight m / 10^e *)
Definition kg (m e : Z) : R := (IZR m / IZR (10 ^ e) / (IZR 6022 * IZR (10 ^ 20)) / 1000)%R.
(** M gives the masses of the selected atoms *)
Definition masses_are (types : list string) (tr : list Z) (M : nat -> R) : Prop :=
  forall i b t, nth_error tr i = Some b -> nth_error types (Z.to_nat b) = Some t ->
    exists m e, get_atomic_weight t = Ok (Some (m, e)) /\ M i = kg m e.
(** The dynamical matrix of a harmonic law at a k-point: the force of the law between selected
    atom b of the unit cell and the copies of selected atom a, with the phase of the vector
    between them (the shortest of the neighbouring supercell images, C34), summed over the
    copies and divided by the masses.  Copies of one atom are numbered together, as in the
    supercell of C08. *)
Definition law_dynamical (Phi : nat -> nat -> m3 Qc) (L : m3 Qc) (pos : list (v3 Qc)) (tr : list Z) (M : nat -> R)
    (N1 N2 N3 : nat) (p1 p2 p3 : Z) (k : v3 R) (D : cmat) : Prop :=
  let E := N1 * N2 * N3 in
  forall a b al be, a < length tr -> b < length tr -> al < 3 -> be < 3 ->
    D (3 * a + al) (3 * b + be) =
    Cdiv (csum3 N1 N2 N3 (fun x y z =>
            let t := Z.to_nat (nth a tr 0%Z) * E + ((x * N2 + y) * N3 + z) in
            Cmult (RtoC (10 ^ 10 * toR (PropsForce.entry (Phi t (E * Z.to_nat (nth b tr 0%Z))%nat) al be))%R)
                  (cis (vdot (vmul k (reciprocal PI (m3R L)))
                     (min_image (pbc_axes [p1; p2; p3] (scaled (Z.of_nat N1) (Z.of_nat N2) (Z.of_nat N3) (m3R L)))
                       (vsub (copy_pos (m3R L) (atom_pos (map v3R pos) tr a) (Z.of_nat x) (Z.of_nat y) (Z.of_nat z)) (atom_pos (map v3R pos) tr b)))))))
         (RtoC (sqrt (M a * M b))).

(** * Proofs *)
(** ** from rational to real numbers *)
Lemma toR_add x y : toR (x + y)%Qc = (toR x + toR y)%R.
Proof. unfold toR. cbn [Qcplus this Q2Qc]. rewrite (Qeq_eqR _ _ (Qred_correct _)). apply Q2R_plus. Qed.
Lemma toR_mul x y : toR (x * y)%Qc = (toR x * toR y)%R.
Proof. unfold toR. cbn [Qcmult this Q2Qc]. rewrite (Qeq_eqR _ _ (Qred_correct _)). apply Q2R_mult. Qed.
Lemma toR_ofZ z : toR (Q2Qc (inject_Z z)) = IZR z.
Proof. unfold toR. cbn [this Q2Qc]. rewrite (Qeq_eqR _ _ (Qred_correct _)). unfold Q2R, inject_Z. cbn. lra. Qed.
Lemma toR_inv x : x <> 0%Qc -> toR (/ x)%Qc = (/ toR x)%R.
Proof.
  intros H. unfold toR. cbn [Qcinv this Q2Qc]. rewrite (Qeq_eqR _ _ (Qred_correct _)). apply Q2R_inv.
  intro Z. apply H. apply Qc_is_canon. exact Z.
Qed.
Lemma toR_div x y : y <> 0%Qc -> toR (x / y)%Qc = (toR x / toR y)%R.
Proof. intros H. unfold Qcdiv. rewrite toR_mul, toR_inv by exact H. reflexivity. Qed.
Lemma ofZ_nonzero z : z <> 0%Z -> Q2Qc (inject_Z z) <> 0%Qc.
Proof. intros H X. apply H. apply eq_IZR. rewrite <- toR_ofZ, X. unfold toR. cbn. unfold Q2R. cbn. lra. Qed.
Lemma toR_fofZ z : toR (fofZ z) = IZR z.
Proof. exact (toR_ofZ z). Qed.
Lemma toR_fdiv x z : z <> 0%Z -> toR (fdiv x (fofZ z)) = (toR x / IZR z)%R.
Proof. intros H. cbn [fdiv fofZ Fld_Qc]. rewrite toR_div by (apply ofZ_nonzero; exact H). now rewrite toR_ofZ. Qed.
Lemma v3R_add u v : v3R (vadd u v) = vadd (v3R u) (v3R v).
Proof. destruct u, v. unfold v3R, vadd. cbn. now rewrite !toR_add. Qed.
Lemma v3R_scale z v : v3R (vscale (fofZ z) v) = vscale (fofZ z) (v3R v).
Proof. destruct v. unfold v3R, vscale. cbn. rewrite !toR_mul, !toR_ofZ. reflexivity. Qed.
Lemma m3R_scaled n1 n2 n3 L : m3R (scaled n1 n2 n3 L) = scaled n1 n2 n3 (m3R L).
Proof. destruct L as [a b c]. unfold scaled, m3R. cbn [r1 r2 r3]. now rewrite !v3R_scale. Qed.

(** ** what the dynamical matrix reads *)
Lemma dyn_at_ext u s s' ar B fc k : c_xyz s = c_xyz s' -> c_lat s = c_lat s' -> c_cart s = c_cart s' ->
  option_map (@length string) (c_type s) = option_map (@length string) (c_type s') -> dyn_at u s ar B fc k = dyn_at u s' ar B fc k.
Proof.
  intros H1 H2 H3 H4. unfold dyn_at. rewrite H1, H2, H3. destruct (c_type s), (c_type s'); cbn in H4; try discriminate; [|reflexivity]. injection H4 as H4.
  cbn [of_option bind]. rewrite H4. reflexivity.
Qed.

(** ** the prepared structures are the exact supercell *)
Lemma rational_copies L r x y z : v3R (vadd r (vadd (vadd (vscale (fofZ (Z.of_nat x)) (r1 L)) (vscale (fofZ (Z.of_nat y)) (r2 L))) (vscale (fofZ (Z.of_nat z)) (r3 L))))
  = copy_pos (m3R L) (v3R r) (Z.of_nat x) (Z.of_nat y) (Z.of_nat z).
Proof. rewrite v3R_add, !v3R_add, !v3R_scale. reflexivity. Qed.

Lemma copy_index N1 N2 N3 c : c < N1 * N2 * N3 -> exists x y z, x < N1 /\ y < N2 /\ z < N3 /\ c = (x * N2 + y) * N3 + z.
Proof.
  intros H. assert (P3 : 0 < N3) by (destruct N3; [rewrite Nat.mul_0_r in H; lia|lia]). assert (P2 : 0 < N2) by (destruct N2; [rewrite Nat.mul_0_r in H; cbn in H; lia|lia]).
  exists (c / N3 / N2), ((c / N3) mod N2), (c mod N3).
  pose proof (Nat.div_mod c N3 ltac:(lia)) as D1. pose proof (Nat.div_mod (c / N3) N2 ltac:(lia)) as D2.
  split; [|split; [apply Nat.mod_upper_bound; lia|split; [apply Nat.mod_upper_bound; lia|]]].
  - apply Nat.div_lt_upper_bound; [lia|]. apply Nat.div_lt_upper_bound; [lia|]. replace (N3 * (N2 * N1)) with (N1 * N2 * N3) by ring. exact H.
  - rewrite D1 at 1. rewrite D2 at 1. ring.
Qed.

(** the mass array *)
Lemma weight_exponent t m e : get_atomic_weight t = Ok (Some (m, e)) -> (0 <= e)%Z.
Proof.
  unfold get_atomic_weight. destruct (first_row _ 0 periodic_table) as [k|]; [|discriminate]. intros H.
  assert (K : forallb (fun w => match w with Some (_, e) => (0 <=? e)%Z | None => true end) weight_table = true) by (vm_compute; reflexivity).
  rewrite forallb_forall in K. unfold py_nth in H. destruct (nth_error weight_table k) as [w|] eqn:EN; [|discriminate]. injection H as ->.
  specialize (K _ (nth_error_In _ _ EN)). cbn in K. apply Z.leb_le in K. exact K.
Qed.
Lemma atom_mass_real t q : atom_mass (A := Qc) t = Ok q -> exists m e, get_atomic_weight t = Ok (Some (m, e)) /\ toR q = kg m e.
Proof.
  unfold atom_mass. intros H. destruct (get_atomic_weight t) as [[[m e]|]|] eqn:EG; cbn [bind of_option] in H; try discriminate. exists m, e. split; [reflexivity|].
  assert (HS : forall x y : Qc, Ok x = Ok y -> x = y) by congruence. apply HS in H. subst q. pose proof (weight_exponent _ _ _ EG) as He. unfold weight_num, fst, snd.
  assert (N1 : (10 ^ e <> 0)%Z) by (pose proof (Z.pow_pos_nonneg 10 e ltac:(lia) He); lia).
  assert (N2 : (6022 * 10 ^ 20 <> 0)%Z) by discriminate. assert (N3 : (1000 <> 0)%Z) by discriminate.
  rewrite (toR_fdiv _ _ N3), (toR_fdiv _ _ N2), (toR_fdiv _ _ N1), toR_fofZ. unfold kg. rewrite mult_IZR. reflexivity.
Qed.
Lemma mapM_at {A B} (f : A -> result B) l l' i x : mapM f l = Ok l' -> nth_error l i = Some x -> exists y, nth_error l' i = Some y /\ f x = Ok y.
Proof.
  revert l' i. induction l as [|a l IH]; intros l' i H Hi; [destruct i; discriminate|]. cbn [mapM] in H. destruct (f a) as [y|] eqn:E; cbn [bind] in H; [|discriminate].
  destruct (mapM f l) as [r|]; cbn [bind] in H; [|discriminate]. injection H as <-. destruct i as [|i]; cbn in *; [injection Hi as <-; eauto|]. exact (IH _ _ eq_refl Hi).
Qed.
Lemma mapM_size {A B} (f : A -> result B) l l' : mapM f l = Ok l' -> length l' = length l.
Proof.
  revert l'. induction l as [|a l IH]; intros l' H; cbn [mapM] in H; [injection H as <-; reflexivity|]. destruct (f a); cbn [bind] in H; [|discriminate].
  destruct (mapM f l) as [r|]; cbn [bind] in H; [|discriminate]. injection H as <-. cbn. now rewrite (IH _ eq_refl).
Qed.
Lemma masses_of_cell (u u' : cell Qc) ty tr : set_mass_true u = Ok u' -> c_type u = Some ty -> c_xyz u = Some (flat_map (fun i => [i; i; i]) tr) ->
  Forall (fun b => 0 <= b < Z.of_nat (length ty))%Z tr ->
  exists ms M, u' = mkCell (c_lat u) (c_type u) (c_num u) (c_sel u) (c_coord u) (c_cart u) (c_true u) (c_xyz u) (Some ms) /\ length ms = 3 * length tr /\
    masses_are ty tr M /\ forall i al, i < length tr -> al < 3 -> nth (3 * i + al) (map toR ms) 0%R = M i.
Proof.
  intros H HT HX HR. unfold set_mass_true in H. rewrite HT, HX in H. cbn [of_option bind] in H.
  destruct (mapM (atom_mass (A := Qc)) ty) as [wt|] eqn:E1; cbn [bind] in H; [|discriminate].
  set (fs := fun z : Z => let! i := np_index (length wt) z in py_nth wt i) in *.
  destruct (mapM fs (flat_map (fun i => [i; i; i]) tr)) as [ms|] eqn:E2; cbn [bind] in H; [|discriminate].
  exists ms, (fun i => nth (3 * i) (map toR ms) 0%R).
  assert (LX : length (flat_map (fun i : Z => [i; i; i]) tr) = 3 * length tr) by (rewrite Nat.mul_comm; apply flat_map_const_length; reflexivity).
  pose proof (mapM_size _ _ _ E2) as LM. rewrite LX in LM. pose proof (mapM_size _ _ _ E1) as LW.
  assert (V : forall i al b t, nth_error tr i = Some b -> al < 3 -> nth_error ty (Z.to_nat b) = Some t ->
            exists q m e, nth_error ms (3 * i + al) = Some q /\ nth_error wt (Z.to_nat b) = Some q /\ get_atomic_weight t = Ok (Some (m, e)) /\ toR q = kg m e).
  { intros i al b t Hi Hal Ht.
    assert (N : nth_error (flat_map (fun i : Z => [i; i; i]) tr) (3 * i + al) = Some b).
    { rewrite (flat_map_const_nth (fun a : Z => [a; a; a]) tr 3 i al b); [destruct al as [|[|[|al]]]; [reflexivity..|lia]|reflexivity|exact Hi|exact Hal]. }
    destruct (mapM_at _ _ _ _ _ E2 N) as (q & Q1 & Q2). unfold fs, np_index in Q2. rewrite Forall_forall in HR. specialize (HR b (nth_error_In _ _ Hi)).
    rewrite (proj2 (Z.leb_le 0 b)) in Q2 by lia. rewrite (proj2 (Z.ltb_lt _ _)) in Q2 by (rewrite LW; lia). cbn [andb bind] in Q2. unfold py_nth in Q2.
    destruct (nth_error wt (Z.to_nat b)) as [q'|] eqn:EW; [|discriminate]. injection Q2 as ->.
    destruct (mapM_at _ _ _ _ _ E1 Ht) as (q' & Y1 & Y2). rewrite EW in Y1. injection Y1 as <-.
    destruct (atom_mass_real _ _ Y2) as (m & e & G1 & G2). exists q, m, e. auto. }
  assert (NT : forall (l : list Qc) i q, nth_error l i = Some q -> nth i (map toR l) 0%R = toR q).
  { intros l i q Hq. apply nth_error_nth. rewrite nth_error_map, Hq. reflexivity. }
  split; [|split; [exact LM|split]].
  - unfold set_mass_true_field in H. destruct (match c_true u with None => true | Some _ => _ end); [|discriminate]. injection H as <-. rewrite HT, HX. reflexivity.
  - intros i b t Hi Ht. destruct (V i 0 b t Hi ltac:(lia) Ht) as (q & m & e & V1 & _ & V2 & V3). rewrite Nat.add_0_r in V1. exists m, e. split; [exact V2|]. rewrite (NT _ _ _ V1). exact V3.
  - intros i al Hi Hal. destruct (nth_error tr i) as [b|] eqn:Ei; [|apply nth_error_None in Ei; lia].
    pose proof HR as HR'. rewrite Forall_forall in HR'. specialize (HR' b (nth_error_In _ _ Ei)).
    destruct (nth_error ty (Z.to_nat b)) as [t|] eqn:Et; [|apply nth_error_None in Et; lia].
    destruct (V i 0 b t Ei ltac:(lia) Et) as (q & _ & _ & V1 & V1' & _). destruct (V i al b t Ei Hal Et) as (q2 & _ & _ & V2 & V2' & _). rewrite Nat.add_0_r in V1.
    rewrite (NT _ _ _ V1), (NT _ _ _ V2). congruence.
Qed.

(** ** exact structures *)
Lemma decimal16_times z x : decimal16 x -> decimal16 (fofZ z * x)%Qc.
Proof. intros (a & ->). exists (z * a)%Z. apply Qc_is_canon. cbn [fofZ Fld_Qc this Q2Qc Qcmult]. rewrite !Qred_correct. unfold Qeq, Qmult, inject_Z. cbn [Qnum Qden]. lia. Qed.
Lemma vdecimal16_scale z v : vdecimal16 v -> vdecimal16 (vscale (fofZ z) v).
Proof. intros (A & B & C). destruct v as [v1 v2 v3]. split; [|split]; apply decimal16_times; assumption. Qed.
Lemma exact_lattice L L' n1 n2 n3 : mwithin (scaled n1 n2 n3 L) L' -> vdecimal16 (r1 L) -> vdecimal16 (r2 L) -> vdecimal16 (r3 L) -> L' = scaled n1 n2 n3 L.
Proof.
  intros (W1 & W2 & W3) D1 D2 D3. destruct L' as [a b c]. unfold scaled in *. cbn [r1 r2 r3] in *.
  rewrite (vwithin_decimal _ _ W1), (vwithin_decimal _ _ W2), (vwithin_decimal _ _ W3) by (apply vdecimal16_scale; assumption). reflexivity.
Qed.
Lemma list_eq {A} (l l' : list A) : length l = length l' -> (forall i, i < length l -> nth_error l i = nth_error l' i) -> l = l'.
Proof.
  revert l'. induction l as [|a l IH]; intros [|b l'] H K; cbn in H; try discriminate; [reflexivity|]. pose proof (K 0 ltac:(cbn; lia)) as K0. cbn in K0. injection K0 as ->.
  f_equal. apply IH; [lia|]. intros i Hi. exact (K (S i) ltac:(cbn; lia)).
Qed.

Section Law.
  Variables (u u' s0 s : cell Qc) (a : args) (L : m3 Qc) (ty : list string) (num : list Z) (kd : coord) (pos : list (v3 Qc)) (tr : list Z).
  Variables (N1 N2 N3 : nat) (p1 p2 p3 : Z) (cur : list (v3 Qc)) (ts : list Z) (fc : fmat Qc) (Phi : nat -> nat -> m3 Qc) (junk : nat -> nat -> R).
  Let E := N1 * N2 * N3.
  Hypothesis HC : complete u L ty num kd pos.
  Hypothesis HV : valid_args a (Z.of_nat N1) (Z.of_nat N2) (Z.of_nat N3) p1 p2 p3.
  Hypothesis P1 : 0 < N1. Hypothesis P2 : 0 < N2. Hypothesis P3 : 0 < N3.
  Hypothesis HT : c_true u = Some tr.
  Hypothesis HX : c_xyz u = Some (flat_map (fun i => [i; i; i]) tr).
  Hypothesis HR : Forall (fun b => 0 <= b < Z.of_nat (length pos))%Z tr.
  Hypothesis HM : set_mass_true u = Ok u'.
  Hypothesis HI : supercell_is L pos tr N1 N2 N3 cur ts.
  Hypothesis HS : set_super_ind_true s0 u' a = Ok s.
  Hypothesis GL : c_lat s = Some (scaled (Z.of_nat N1) (Z.of_nat N2) (Z.of_nat N3) L).
  Hypothesis GT : exists sty, c_type s = Some sty /\ length sty = length pos * E.
  Hypothesis GC : c_cart s = Some cur.
  Hypothesis HF : forall i b j al t, nth_error tr i = Some b -> j < 3 -> al < 3 -> t < length pos * E ->
    fc (3 * t + al) (3 * i + j) = Some (fdiv (PropsForce.entry (Phi t (E * Z.to_nat b)) al j) (fdiv f1 (fofZ (10 ^ 10)))).

  Lemma law_matrix : exists M, masses_are ty tr M /\
    forall k, exists D, dyn_at (cell_R u') (cell_R s) a (reciprocal PI (m3R L)) (fc_R junk fc) k = Ok D /\
      law_dynamical Phi L pos tr M N1 N2 N3 p1 p2 p3 k D.
  Proof.
    destruct HC as (C1 & C2 & C3 & C4 & C5 & C6).
    destruct (masses_of_cell u u' ty tr HM C2 HX) as (ms & M & EU & LM & HMM & HMV); [rewrite C6; exact HR|]. exists M. split; [exact HMM|].
    (* the exact supercell over the real numbers *)
    assert (HCR : complete (cell_R u') (m3R L) ty num kd (map v3R pos)).
    { rewrite EU. repeat split; cbn [cell_R c_lat c_type c_num c_coord c_cart]; rewrite ?C1, ?C2, ?C3, ?C4, ?C5; try reflexivity. now rewrite map_length. }
    destruct (super_cell_correct (cell_R u') a (m3R L) ty num kd (map v3R pos) N1 N2 N3 p1 p2 p3 HCR HV P1 P2 P3) as (sR0 & ES & [S1 (tsR & S2 & S2l & _) S3 S4 (ps & S5 & S5l & S5n)]).
    assert (HTR : c_true (cell_R u') = Some tr) by (rewrite EU; exact HT).
    destruct (super_selection (cell_R u') sR0 a tr N1 N2 N3 p1 p2 p3 HV HTR) as (sR & tq & E2 & _ & Q1 & Q2 & Q3 & Q4 & _).
    assert (HB : build_super (cell_R u') a = Ok sR) by (unfold build_super; rewrite ES; cbn [bind]; exact E2).
    rewrite map_length in S5l. fold E in S2l, S5l, S5n.
    (* the one that was read is the same *)
    assert (EX : c_xyz (cell_R s) = c_xyz sR).
    { cbn [cell_R c_xyz]. unfold set_super_ind_true in HS, E2. destruct (a_enl a) as [en|]; cbn [of_option bind] in *; [|discriminate]. destruct (a_pbc a) as [pb|]; cbn [of_option bind] in *; [|discriminate].
      destruct (enlarge en pb) as [En|]; cbn [bind] in *; [|discriminate]. rewrite HTR in E2. rewrite EU in HS. cbn [c_true] in HS. rewrite HT in HS. cbn [of_option bind] in *.
      injection HS as <-. injection E2 as <-. reflexivity. }
    assert (EL : c_lat (cell_R s) = c_lat sR) by (cbn [cell_R c_lat]; rewrite GL, Q4, S1; cbn [option_map]; now rewrite m3R_scaled).
    assert (ET : option_map (@length string) (c_type (cell_R s)) = option_map (@length string) (c_type sR)).
    { cbn [cell_R c_type]. destruct GT as (sty & -> & LT). rewrite Q3, S2. cbn [option_map]. f_equal. rewrite LT, S2l, C6. reflexivity. }
    assert (EC : c_cart (cell_R s) = c_cart sR).
    { cbn [cell_R c_cart]. rewrite GC, Q2, S5. cbn [option_map]. f_equal. destruct HI as (I1 & I2 & _). fold E in I1, I2.
      apply list_eq; [rewrite map_length, I1, S5l; reflexivity|]. rewrite map_length, I1. intros i Hi.
      assert (HE : 0 < E) by (unfold E; apply Nat.mul_pos_pos; [apply Nat.mul_pos_pos|]; assumption).
      pose proof (Nat.div_mod i E ltac:(lia)) as DM. pose proof (Nat.mod_upper_bound i E ltac:(lia)) as MB.
      assert (DB : i / E < length pos) by (apply Nat.div_lt_upper_bound; lia).
      destruct (nth_error pos (i / E)) as [r|] eqn:Er; [|apply nth_error_None in Er; lia].
      destruct (copy_index N1 N2 N3 (i mod E) MB) as (x & y & z & X1 & X2 & X3 & X4).
      rewrite nth_error_map. rewrite DM, X4.
      rewrite (I2 _ r x y z Er X1 X2 X3). cbn [option_map]. rewrite rational_copies. symmetry. apply S5n; try assumption. rewrite nth_error_map, Er. reflexivity. }
    intros k.
    assert (PS : phonon_setup (cell_R u') sR a (m3R L) (map v3R pos) tr (map toR ms) N1 N2 N3 p1 p2 p3).
    { constructor; try assumption.
      - exists ty, num, kd. exact HCR.
      - auto.
      - rewrite EU. exact HX.
      - rewrite map_length. exact HR.
      - rewrite EU. reflexivity.
      - rewrite map_length. exact LM. }
    destruct (dynamical_matrix_phase_sum (cell_R u') sR a (m3R L) (map v3R pos) tr (map toR ms) N1 N2 N3 p1 p2 p3 (reciprocal PI (m3R L)) (fc_R junk fc) k PS) as (D & ED & FD).
    exists D. split; [rewrite (dyn_at_ext _ _ sR _ _ _ _ EX EL EC ET); exact ED|].
    intros i j al be Hi Hj Hal Hbe. cbv zeta. rewrite FD by assumption. rewrite !HMV by assumption. f_equal.
    unfold csum3. apply csum_ext. intros x Hx. apply csum_ext. intros y Hy. apply csum_ext. intros z Hz. f_equal. f_equal.
    unfold fc_entry. fold E. set (t := Z.to_nat (nth i tr 0%Z) * E + ((x * N2 + y) * N3 + z)).
    assert (Ht : t < length pos * E).
    { assert (RG : (0 <= nth i tr 0 < Z.of_nat (length pos))%Z) by (rewrite Forall_forall in HR; apply HR, nth_In; exact Hi).
      pose proof (copy_lt N1 N2 N3 x y z Hx Hy Hz) as Hc. fold E in Hc. unfold t.
      assert (Z.to_nat (nth i tr 0%Z) + 1 <= length pos) by lia. nia. }
    unfold fc_R. rewrite (HF j (nth j tr 0%Z) be al t) by (try assumption; apply nth_error_nth'; exact Hj).
    cbn [fdiv f1 fofZ Fld_Qc]. rewrite toR_div, toR_div, toR_ofZ.
    - unfold toR at 2. cbn [this Q2Qc]. replace (Q2R (Qred 1)) with 1%R by (unfold Q2R; cbn; lra). change (IZR (10 ^ 10)) with 10000000000%R. generalize (toR (PropsForce.entry (Phi t (E * Z.to_nat (nth j tr 0%Z))) al be)) as r. intros r.
      replace (10 ^ 10)%R with 10000000000%R by (cbn; lra). field.
    - apply ofZ_nonzero. discriminate.
    - intro Z. apply (f_equal this) in Z. discriminate.
  Qed.
End Law.

(** ** the file of a band calculation *)
Section Written.
  Variable search : cell Qc -> cell Qc -> args -> result (option (string * list (nat * (v3 Qc * list (v3 Qc))))).
  Variable sym_forces : fmat Qc -> cell Qc -> cell Qc -> args -> (string -> result (list (v3 Qc))) -> list string -> fmat Qc * option err.
  Variable eig : nat -> cmat -> list C * cmat.
  Variable argsort : list R -> list nat.
  Variable junk : nat -> nat -> R.
  Variable bad : string.
  Variable set_text : list Z -> string.
  Variable row : v3 R -> string.
  Variable kname : v3 Qc -> string.
  Variable ase : path -> string -> result (list (v3 R)).
  Hypothesis eig_size : forall n D, length (fst (eig n D)) = n.
  Hypothesis sort_size : forall l, length (argsort l) = length l.

  Lemma bands_written : forall g e x th ba kb f t ks kind, prepared_as search sym_forces g x -> fits x ->
    k_file kb = Ok f -> w_file (g_world g) (resolve (g_cwd g) f) = Some t -> set_k_points (readlines t) (a_pbc (pp_arg x)) = ((ks, kind), None) -> 2 <= length ks ->
    ba_option ba = "plain"%string -> label_list (e "k_label_band"%string) = [] -> range_ok (ba_elimit ba) ->
    exists evs p b L, analyses search sym_forces eig argsort junk bad set_text row kname ase g e None th (Some (ba, kb)) None = (evs, Ok tt) /\
      c_lat (pp_unit x) = Some L /\ p_k p = map kR ks /\
      eval_phonon eig argsort (cell_R (pp_unit x)) (cell_R (pp_super x)) (pp_arg x) (reciprocal PI (m3R L)) (fc_R junk (pp_force x)) (map kR ks) = Ok (p_modes p) /\
      band_set p (band_init p) = Ok b /\
      In (let nl := band_write bad (folder_text (removelast (resolve (g_cwd g) (g_unit g)))) p b in File (fst nl) (snd nl)) evs.
  Proof.
    intros g e x th ba kb f t ks kind HP HF K1 K2 K3 K4 HO HL HR.
    destruct (plain_bands_finish search sym_forces eig argsort junk bad set_text row kname ase eig_size sort_size g e x th ba kb HP HF) as (evs & H); try assumption.
    { exists f, t, ks, kind. auto. }
    exists evs. pose proof H as H'. rewrite analyses_band in H'. cbv zeta in H'. cbn [fst snd] in H'.
    set (folder := folder_text _) in *. unfold band_stage in H'. pose proof HP as HP'. unfold prepared_as in HP'. rewrite HP' in H'. rewrite quiet_andthen in H'.
    apply andthen_ok in H'. destruct H' as (l1 & a1 & l2 & H1 & _ & EE). apply andthen_ok in H1. destruct H1 as (l3 & p & l4 & H1 & H2 & ->).
    apply andthen_ok in H2. destruct H2 as (l5 & [] & l6 & H2 & _ & ->). 
    exists p.
    (* the modes *)
    unfold evaluate in H1. rewrite K1 in H1. cbn [bind] in H1. rewrite K2 in H1. cbn [of_option] in H1. rewrite quiet_andthen, K3, quiet_andthen in H1. cbn [fst snd cell_R c_lat c_xyz] in H1.
    destruct (c_lat (pp_unit x)) as [L|]; cbn [option_map of_option bind] in H1; [|discriminate H1].
    destruct (a_pbc (pp_arg x)) as [pbc|] eqn:EP; cbn [of_option bind] in H1; [|discriminate H1].
    destruct (c_xyz (pp_unit x)) as [xyz|] eqn:EX; cbn [of_option bind] in H1; [|discriminate H1].
    destruct (map kR ks) as [|k0 kr] eqn:EK; [apply (f_equal (@length _)) in EK; rewrite map_length in EK; cbn in EK; lia|].
    match type of H1 with andthen (quiet (let! m := ?T in _)) _ = _ => destruct T as [ms|] eqn:EM end; cbn [bind] in H1; [|discriminate H1].
    rewrite quiet_andthen in H1. apply andthen_ok in H1. destruct H1 as (l7 & [] & l8 & _ & H1 & _). injection H1 as _ <-. cbn [p_modes p_k p_auto p_pbc p_n] in *.
    (* the band *)
    unfold band_part in H2. match type of H2 with andthen (quiet (band_set ?p0 _)) _ = _ => set (p := p0) in * end. destruct (band_set p (band_init p)) as [b|] eqn:EB; [|discriminate H2]. rewrite quiet_andthen in H2.
    apply andthen_ok in H2. destruct H2 as (r1 & [] & r2 & R1 & _ & ->). exists b, L. split; [exact H|].
    split; [reflexivity|]. split; [reflexivity|]. split; [exact EM|]. split; [reflexivity|]. subst evs.
    unfold writes in R1. cbn [fst snd as_files map] in R1. assert (R1' : r1 = [File (fst (band_write bad folder p b)) (snd (band_write bad folder p b))]) by congruence. subst r1.
    cbv zeta. apply in_or_app. left. apply in_or_app. right. apply in_or_app. left. left. reflexivity.
  Qed.
End Written.

Lemma band_line exists_ ff up K : (forall f, In f ff -> forall r, f <> String "-" r) -> exists_ up = true -> exists_ K = true ->
  exists e, command exists_ (ff ++ ["-c"; up; "-kband"; K]%string) = Call e ff /\ e "unitcell"%string = VStr up /\ e "kpoint_band"%string = VStr K /\
    e "dft"%string = VStr "vasp" /\ e "displacement"%string = VStr "0.02" /\ e "enlargement"%string = VStr "2 2 1" /\ e "periodicity"%string = VStr "1 1 0" /\
    e "supercell"%string = VNone /\ e "option_file"%string = VNone /\ e "sym"%string = VInt 1 /\
    e "option_band"%string = VStr "plain" /\ e "atom_band"%string = VNone /\ e "k_label_band"%string = VNone /\ e "elimit"%string = VNone /\ e "kpoint_dos"%string = VNone /\
    e "dos"%string = VInt 0 /\ e "thermal"%string = VInt 0 /\ e "band"%string = VInt 0 /\ e "mode"%string = VInt 0.
Proof.
  intros HF HU HK. set (effs := map PropsClick.File ff ++ [SetTo "unitcell" up; SetTo "kpoint_band" K]%string).
  assert (HA : Forall2 asks (map (fun f => [f]) ff ++ [["-c"; up]; ["-kband"; K]]%string) effs).
  { apply Forall2_app.
    - clear -HF. induction ff as [|f ff IH]; cbn [map]; constructor.
      + apply asks_file. right. apply HF. left. reflexivity.
      + apply IH. intros g Hg. apply HF. right. exact Hg.
    - constructor; [apply asks_apart, names_option_b; vm_compute; reflexivity|].
      constructor; [apply asks_apart, names_option_b; vm_compute; reflexivity|]. constructor. }
  assert (EW : concat (map (fun f => [f]) ff ++ [["-c"; up]; ["-kband"; K]]%string) = ff ++ ["-c"; up; "-kband"; K]%string).
  { rewrite concat_app. cbn [concat app]. f_equal. clear. induction ff as [|f ff IH]; [reflexivity|]. cbn [map concat app]. rewrite IH. reflexivity. }
  assert (EF : files effs = ff).
  { unfold effs, files. rewrite flat_map_app. cbn [flat_map app]. rewrite app_nil_r. clear. induction ff as [|f ff IH]; [reflexivity|]. cbn [map flat_map app]. rewrite IH. reflexivity. }
  assert (G : forall p, given effs p = if String.eqb "kpoint_band" p then Some K else if String.eqb "unitcell" p then Some up else None).
  { intros p. unfold effs, given. rewrite fold_left_app. cbn [fold_left].
    replace (fold_left _ (map PropsClick.File ff) None) with (@None string); [reflexivity|]. clear. induction ff as [|f ff IH]; [reflexivity|]. exact IH. }
  assert (T : forall p b, turned effs p b = b).
  { intros p b. unfold effs, turned. rewrite fold_left_app. cbn [fold_left]. clear. induction ff as [|f ff IH]; [reflexivity|]. exact IH. }
  destruct (command_line_meaning exists_ _ effs [] [] HA (or_introl (conj eq_refl eq_refl))) as (M & _). rewrite !app_nil_r, EW, EF in M.
  assert (V : forall l s p k d, In (l, s, p, k, d) manual -> exists v, value_now exists_ effs p k d v).
  { intros l s p k d HI. unfold value_now. rewrite G. unfold manual in HI. cbn [In] in HI.
    repeat (destruct HI as [HI|HI]; [injection HI as <- <- <- <- <-; cbn [String.eqb Ascii.eqb Bool.eqb reads];
      first [eexists; reflexivity|eexists; split; [exact HU|reflexivity]|eexists; split; [exact HK|reflexivity]|eexists; split; [cbn [In]; tauto|reflexivity]]|]). contradiction. }
  destruct (M V) as (e & E & P & Q). exists e. split; [exact E|].
  assert (P' : forall l s p k d, In (l, s, p, k, d) manual -> match (if String.eqb "kpoint_band" p then Some K else if String.eqb "unitcell" p then Some up else None) with
    | Some t => reads exists_ k t (e p) | None => match d with VStr t => reads exists_ k t (e p) | _ => e p = d end end).
  { intros l s p k d HI. specialize (P _ _ _ _ _ HI). unfold value_now in P. rewrite G in P. exact P. }
  clear P M V HA EW EF G.
  assert (Q' : forall p b, In (p, b) switch_default -> e p = VInt (if b then 1 else 0)) by (intros p b HI; rewrite (Q p b HI), T; reflexivity).
  clear Q T.
  split; [by_manual P' 5|]. split; [by_manual P' 20|]. split; [by_manual P' 1|]. split; [by_manual P' 2|]. split; [by_manual P' 3|]. split; [by_manual P' 4|].
  split; [by_manual P' 6|]. split; [by_manual P' 0|]. split; [apply (Q' "sym"%string true); cbn [In switch_default]; tauto|].
  split; [by_manual P' 24|]. split; [by_manual P' 22|]. split; [by_manual P' 21|]. split; [by_manual P' 12|].
  split; [by_manual P' 7|]. split; [apply (Q' "dos"%string false); cbn [In switch_default]; tauto|]. split; [apply (Q' "thermal"%string false); cbn [In switch_default]; tauto|].
  split; [apply (Q' "band"%string false); cbn [In switch_default]; tauto|apply (Q' "mode"%string false); cbn [In switch_default]; tauto].
Qed.


Lemma band_plan glob (e : env) ff r K : 2 <= length ff ->
  e "kpoint_dos"%string = VNone -> e "kpoint_band"%string = VStr K -> e "option_band"%string = VStr "plain" -> e "atom_band"%string = VNone -> e "elimit"%string = VNone ->
  e "dos"%string = VInt 0 -> e "thermal"%string = VInt 0 -> e "band"%string = VInt 0 -> e "mode"%string = VInt 0 ->
  main_plan glob e None ff (Ok r) = Ok (PostPlan (user_args (merge_record e r)) (truthy (merge_record e r "sym"%string)) (merge_record e r "unitcell"%string)
    (merge_record e r "supercell"%string) ff None None (Some (mkBandArgs "plain" None None, VStr K)) None).
Proof.
  intros HL K1 K2 O A EL D T Bd M. unfold main_plan. cbn [with_option_file bind]. destruct ff as [|f0 [|f1 ff]]; [cbn in HL; lia|cbn in HL; lia|].
  cbn [bind]. unfold post_plan.
  assert (MO : forall x, ~ In x ["unitcell"; "supercell"; "dft"; "sym"; "displacement"; "enlargement"; "periodicity"]%string -> merge_record e r x = e x) by (intros x Hx; apply merge_other; exact Hx).
  rewrite !(MO "kpoint_dos"%string), !(MO "kpoint_band"%string), !(MO "dos"%string), !(MO "band"%string), !(MO "thermal"%string), !(MO "mode"%string) by (cbn [In]; intuition discriminate).
  rewrite K1, K2, D, T, Bd, M. cbn [andb orb negb truthy is_none when bind].
  unfold get_band_args. rewrite !(MO "option_band"%string), !(MO "atom_band"%string), !(MO "elimit"%string) by (cbn [In]; intuition discriminate).
  rewrite O, A, EL. cbn. reflexivity.
Qed.

(** the parts of a post-process without symmetry *)
Lemma post_run_parts search sym_forces cwd ua up sp ff w x : post_run search sym_forces cwd ua false (VStr up) (VStr sp) ff w = Ok x ->
  exists u0 s0, read_structure (code_of ua) w (resolve cwd up) = Ok u0 /\ set_mass_true u0 = Ok (pp_unit x) /\
    read_structure (code_of ua) w (resolve cwd sp) = Ok s0 /\ set_super_ind_true s0 (pp_unit x) (pp_arg x) = Ok (pp_super x).
Proof.
  unfold post_run. cbn [path_text bind]. intros H.
  destruct (read_structure (code_of ua) w (resolve cwd up)) as [u0|] eqn:E1; cbn [bind] in H; [|discriminate].
  destruct (set_mass_true u0) as [u|] eqn:E2; cbn [bind] in H; [|discriminate].
  destruct (read_structure (code_of ua) w (resolve cwd sp)) as [s0|] eqn:E3; cbn [bind] in H; [|discriminate].
  destruct (set_user_arg args_init ua) as [a|]; cbn [bind] in H; [|discriminate].
  destruct (check_match_argument u s0 a); cbn [bind] in H; [|discriminate].
  destruct (set_super_ind_true s0 u a) as [s|] eqn:E4; cbn [bind] in H; [|discriminate].
  repeat match type of H with (let! x := ?t in _) = _ => destruct t; cbn [bind] in H; [|discriminate] end.
  destruct (set_force_constant_nosym _ _ _ _ _ _) as [fc [er|]]; [discriminate|].
  assert (HS : forall x y : prepared, Ok x = Ok y -> x = y) by congruence. apply HS in H. subst x. cbn [pp_unit pp_super pp_arg]. exists u0, s0. auto.
Qed.

Section Final.
  Variable search : cell Qc -> cell Qc -> args -> result (option (string * list (nat * (v3 Qc * list (v3 Qc))))).
  Variable sym_forces : fmat Qc -> cell Qc -> cell Qc -> args -> (string -> result (list (v3 Qc))) -> list string -> fmat Qc * option err.
  Variable eig : nat -> cmat -> list C * cmat.
  Variable argsort : list R -> list nat.
  Variable junk : nat -> nat -> R.
  Variable bad : string.
  Variable set_text : list Z -> string.
  Variable row : v3 R -> string.
  Variable kname : v3 Qc -> string.
  Variable ase : path -> string -> result (list (v3 R)).
  Hypothesis eig_size : forall n D, length (fst (eig n D)) = n.
  Hypothesis argsort_sorts : argsort_ok argsort.
  Hypothesis bad_word : TextFacts.word bad.

(** The documented way of working, up to the phonon bands.  As in C97, any command line without
    force files prepares the displaced structures; after the DFT runs on them (forces of a
    harmonic law with force constants Phi), in the same directory

        interphon FORCE_FILES -c UNITCELL -kband KPOINTS

    finishes, and writes in the directory of the unit cell the file band.dat: one line per
    k-point, with the length of the path so far and, in increasing order, the frequencies
    belonging to the eigenvalues of the dynamical matrix of the law at this k-point. *)
Theorem bands_of_the_law :
  forall species wt glob (cwd : path) words effs (w w1 w2 : world) code up K text (u : cell Qc) L gs pos tr a d N1 N2 N3 p1 p2 p3
         (ff : list string) out1 law Phi ks kind,
    let E := N1 * N2 * N3 in let n := length pos * E in
    writer_ok species wt ->
    (* the first command line *)
    Forall2 asks words effs -> files effs = [] -> given effs "option_file" = None -> turned effs "process" true = true ->
    chosen effs "dft" = code -> chosen effs "unitcell" = up -> plain up -> up <> "SUPERCELL"%string ->
    arguments_are (fun x => VStr (chosen effs x)) a d N1 N2 N3 p1 p2 p3 ->
    (Z.of_nat N1 <= 10000000)%Z -> (Z.of_nat N2 <= 10000000)%Z -> (Z.of_nat N3 <= 10000000)%Z ->
    read_structure code w (cwd ++ [up]) = Ok u -> unit_cell_ok code u L gs pos tr -> tr <> [] ->
    c_xyz u = Some (flat_map (fun i => [i; i; i]) tr) ->
    (forall t k, In (t, k) gs -> exists we, get_atomic_weight t = Ok (Some we)) ->
    vdecimal16 (r1 L) -> vdecimal16 (r2 L) -> vdecimal16 (r3 L) ->
    (turned effs "sym" true = true -> length (filter (fun p => negb (Z.eqb p 0)) [p1; p2; p3]) = 2 -> forall s, search u s a = Ok None) ->
    program species wt search (sym_forces empty_mat) glob cwd (concat words) w = (w1, Some out1) ->
    (* the DFT runs *)
    w_file w2 (cwd ++ [up]) = w_file w1 (cwd ++ [up]) ->
    w_file w2 (cwd ++ ["SUPERCELL"%string]) = w_file w1 (cwd ++ ["SUPERCELL"%string]) ->
    w_rec w2 cwd = w_rec w1 cwd ->
    length ff = 6 * length tr -> (forall f, In f ff -> forall r, f <> String "-" r) ->
    (forall m f, nth_error ff m = Some f -> w_file w2 (beside cwd f up) = w_file w1 (cwd ++ [(up ++ suffix (m + 1))%string])) ->
    d <> Q2Qc 0 -> decimal16 d ->
    (forall cur ts, supercell_is L pos tr N1 N2 N3 cur ts -> Forall vdecimal16 cur /\ harmonic cur law Phi) ->
    (forall f c p, In f ff -> read_structure code w2 (beside cwd f up) = Ok c -> c_cart c = Some p -> read_forces code w2 cwd n f = Ok (law p)) ->
    (* the k-points *)
    w_file w2 (resolve cwd K) = Some text -> set_k_points (readlines text) (Some [p1; p2; p3]) = ((ks, kind), None) -> 2 <= length ks ->
    exists e evs M content rows xs,
      command (file_exists cwd w2) (ff ++ ["-c"; up; "-kband"; K]%string) = Call e ff /\
      report search sym_forces eig argsort junk bad set_text row kname ase glob cwd e None ff w2 = (evs, Ok tt) /\
      In (Report.File (folder_text cwd ++ "/band.dat") content) evs /\
      is_table bad content rows /\ length rows = length ks /\
      nth 0 xs 0%R = 0%R /\ (forall i, S i < length ks -> nth (S i) xs 0%R = (nth i xs 0 + dist (kR (nth i ks v3z)) (kR (nth (S i) ks v3z)))%R) /\
      masses_are (ungroup gs) tr M /\
      forall i k, nth_error ks i = Some k -> exists fs D,
        nth_error rows i = Some (map Some (nth i xs 0%R :: fs)) /\
        law_dynamical Phi L pos tr M N1 N2 N3 p1 p2 p3 (kR k) D /\
        StronglySorted Rle fs /\ Permutation fs (map freq (fst (eig (3 * length tr) D))).
Proof.
  intros species wt glob cwd words effs w w1 w2 code up K text u L gs pos tr a d N1 N2 N3 p1 p2 p3 ff out1 law Phi ks kind E n
    HWO HA HFi HOF HPr HCo HUp Hpl HnS HArgs B1 B2 B3 HR HUC Htr HX HWt DL1 DL2 DL3 Hsym RUN1 K1 K2 K3 HLf HDash HCopy Hd0 Hd HLaw HDFT HKt HKs HK2.
  set (sf := sym_forces empty_mat) in *.
  unfold program in RUN1. destruct (command (file_exists cwd w) (concat words)) as [| |e ff0] eqn:EC; [discriminate..|].
  destruct (accepted _ _ _ _ _ HA EC) as (-> & V & T). rewrite HFi in RUN1.
  assert (EO : e "option_file"%string = VNone).
  { specialize (V "--option_file" "-option" "option_file" ExistingFile VNone)%string. unfold value_now in V. rewrite HOF in V. apply V. cbn [In manual]. tauto. }
  unfold option_lines in RUN1. rewrite EO in RUN1.
  destruct (main_run species wt search sf glob cwd e None [] w) as (w', r') eqn:ER. injection RUN1 as -> ->.
  assert (CV : forall p, In p ["dft"; "displacement"; "enlargement"; "periodicity"; "unitcell"]%string -> e p = VStr (chosen effs p)) by (intros p HP; exact (chosen_value _ _ _ p HP V)).
  assert (ES : e "sym"%string = VInt (if turned effs "sym" true then 1 else 0)) by (apply T; cbn [In switch_default]; tauto).
  assert (EP : e "process"%string = VInt 1) by (rewrite (T "process"%string true) by (cbn [In switch_default]; tauto); rewrite HPr; reflexivity).
  assert (UA : user_args e = user_args (fun x => VStr (chosen effs x))) by (unfold user_args; rewrite !CV by (cbn [In]; tauto); reflexivity).
  destruct (plain_name_is_in_the_working_directory cwd up Hpl) as (PR & PL & PD).
  destruct HArgs as (A1 & A2 & A3 & A4 & A5).
  assert (HArgs' : arguments_are e a d N1 N2 N3 p1 p2 p3) by (split; [rewrite UA; exact A1|]; tauto).
  assert (HSym' : truthy (e "sym"%string) = true -> length (filter (fun p => negb (Z.eqb p 0)) [p1; p2; p3]) = 2 -> forall s, search u s a = Ok None).
  { intros HT. apply Hsym. rewrite ES in HT. destruct (turned effs "sym" true); [reflexivity|discriminate]. }
  assert (EXw : w_file w (cwd ++ [up]) <> None).
  { specialize (V "--unitcell" "-c" "unitcell" ExistingFile (VStr "POSCAR"))%string. unfold value_now in V.
    assert (HE : file_exists cwd w up = true).
    { revert HUp. unfold chosen. destruct (given effs "unitcell") as [t|]; cbn [find manual String.eqb Ascii.eqb Bool.eqb]; intros <-; apply V; cbn [In manual]; tauto. }
    unfold file_exists in HE. rewrite PR in HE. intros EN. rewrite EN in HE. discriminate. }
  assert (HC' : e "dft"%string = VStr code) by (rewrite CV by (cbn [In]; tauto); rewrite HCo; reflexivity).
  assert (HU' : e "unitcell"%string = VStr up) by (rewrite CV by (cbn [In]; tauto); rewrite HUp; reflexivity).
  assert (HP' : truthy (e "process"%string) = true) by (rewrite EP; reflexivity).
  assert (HR' : read_structure code w (resolve cwd up) = Ok u) by (rewrite PR; exact HR).
  destruct (pre_process_leaves species wt search sf glob cwd e e None w code up u L gs pos tr a d N1 N2 N3 p1 p2 p3 HWO eq_refl HP' HC' HU' HArgs' HR' HUC HSym')
    as (w'' & cur0 & ts0 & RUN & _ & _ & _ & FR & RE & _).
  rewrite ER in RUN. injection RUN as -> ->. rewrite PL, PD in FR. rewrite PL in RE.
  assert (FU : w_file w2 (cwd ++ [up]) = w_file w (cwd ++ [up])).
  { rewrite K1, FR; [reflexivity| |].
    - intros EQ. apply app_inj_tail in EQ as (_ & EQ). exact (HnS EQ).
    - intros m _ EQ. apply app_inj_tail in EQ as (_ & EQ). exact (app_suffix_neq up m EQ). }
  assert (EX : file_exists cwd w2 up = true) by (unfold file_exists; rewrite PR, FU; destruct (w_file w (cwd ++ [up])); [reflexivity|contradiction]).
  assert (HK : file_exists cwd w2 K = true) by (unfold file_exists; rewrite HKt; reflexivity).
  destruct (band_line (file_exists cwd w2) ff up K HDash EX HK) as (e2 & EC2 & U2 & K2' & D2 & DI2 & EN2 & PE2 & SU2 & OF2 & SY2 & OB2 & AB2 & LB2 & EL2 & KD2 & DO2 & TH2 & BA2 & MO2).
  match type of RE with _ = Some ?rr => set (r := rr) in * end.
  assert (LF2 : 2 <= length ff) by (rewrite HLf; destruct tr; [contradiction|cbn [length]; lia]).
  pose proof (band_plan glob e2 ff r K LF2 KD2 K2' OB2 AB2 EL2 DO2 TH2 BA2 MO2) as PLAN.
  destruct (end_to_end_exact species wt search sf glob cwd e e None w w'' w2 code up u L gs pos tr a d N1 N2 N3 p1 p2 p3
     e2 e2 None ff (Ok None) law Phi HWO eq_refl HP' HC' HU' Hpl HnS HArgs' B1 B2 B3 HR HUC Htr HX HWt HSym' ER K1 K2 K3 HLf HCopy Hd0 Hd HLaw HDFT eq_refl)
     as (x & RX & PA & PU & (cur & ts & SI & DC & GS) & FX).
  - left. rewrite U2, HU'. reflexivity.
  - right. exact D2.
  - exact SU2.
  - right. exact DI2.
  - right. exact EN2.
  - right. exact PE2.
  - rewrite K3, RE. cbn [of_option]. eexists. exact PLAN.
  - (* the plan *)
    pose proof RX as RX'. unfold main_run in RX'. rewrite K3, RE in RX'. cbn [of_option] in RX'. rewrite PLAN in RX'.
    destruct (record_precedence e2 r ""%string) as (Q1 & Q2 & Q3 & _).
    assert (MU : merge_record e2 r "unitcell"%string = VStr up).
    { destruct (String.string_dec up "POSCAR") as [->|N]; [rewrite (proj1 Q1 U2); reflexivity|]. rewrite (proj2 Q1); [exact U2|]. rewrite U2. congruence. }
    assert (MS : merge_record e2 r "supercell"%string = VStr "SUPERCELL") by (rewrite (proj1 Q2 SU2); reflexivity).
    assert (MD : merge_record e2 r "dft"%string = VStr code) by (rewrite (proj1 Q3 D2); reflexivity).
    assert (SYM : truthy (merge_record e2 r "sym"%string) = false).
    { destruct (truthy (merge_record e2 r "sym"%string)) eqn:X; [|reflexivity]. exfalso.
      pose proof (symmetry_follows_the_record glob e2 None ff r _ _ _ _ _ _ _ _ _ PLAN) as Y. exact (proj1 Y eq_refl eq_refl). }
    rewrite SYM, MU, MS in RX'. set (ua := user_args (merge_record e2 r)) in *.
    assert (CO : code_of ua = code) by (cbn; rewrite MD; reflexivity).
    destruct (post_run search sf cwd ua false (VStr up) (VStr "SUPERCELL") ff w2) as [x'|] eqn:PR2; cbn [bind] in RX'; [|discriminate].
    assert (x' = x) by congruence. subst x'. clear RX'.
    set (g := mkSetting cwd ua false up "SUPERCELL" ff w2).
    assert (PREP : prepared_as search sym_forces g x).
    { unfold prepared_as. rewrite <- post_run_settle. exact PR2. }
    destruct (post_run_parts _ _ _ _ _ _ _ _ _ PR2) as (u0 & s0 & Y1 & Y2 & Y3 & Y4). rewrite CO, PR in Y1.
    assert (u0 = u).
    { assert (Z : read_structure code w2 (cwd ++ [up]) = read_structure code w (cwd ++ [up])) by (apply read_structure_ext; exact FU). rewrite Z, HR in Y1. congruence. }
    subst u0. rewrite PA in Y4.
    destruct HUC as ((kd & HC) & HT & HRg & Hne & Hg).
    pose proof (args_valid _ _ _ _ _ _ _ _ _ HArgs') as HV. destruct A5 as (P1 & P2 & P3).
    destruct GS as ((L' & GL & GW) & GT & (cur' & GC & GC2) & _).
    assert (cur' = cur) by (eapply Forall2_decimal; eauto). subst cur'.
    assert (HL : L' = scaled (Z.of_nat N1) (Z.of_nat N2) (Z.of_nat N3) L) by (apply exact_lattice; assumption). subst L'.
    assert (NTY : length (each_times E (ungroup gs)) = length pos * E).
    { unfold each_times. rewrite (flat_map_const_length (fun t => repeat t E) _ E) by (intros; apply repeat_length). destruct HC as (_ & _ & _ & _ & _ & HC). now rewrite HC. }
    destruct (law_matrix u (pp_unit x) s0 (pp_super x) a L (ungroup gs) (group_sizes gs) kd pos tr N1 N2 N3 p1 p2 p3 cur ts (pp_force x) Phi junk
       HC HV P1 P2 P3 HT HX HRg Y2 SI Y4 GL (ex_intro _ _ (conj GT NTY)) GC FX) as (M & HM & HD).
    assert (XU : c_xyz (pp_unit x) = Some (flat_map (fun i => [i; i; i]) tr)).
    { destruct (masses_of_cell u (pp_unit x) (ungroup gs) tr Y2) as (ms & M' & EU & _); [apply HC|exact HX| |rewrite EU; exact HX].
      destruct HC as (_ & _ & _ & _ & _ & HC). rewrite HC. exact HRg. }
    assert (FIT : fits x).
    { split.
      - destruct (HD (V3 0 0 0)%R) as (D & HD1 & _). rewrite <- PA in HD1. eauto.
      - rewrite XU. destruct tr as [|t0 tr']; [contradiction|]. cbn [flat_map app]. eauto. }
    destruct (bands_written search sym_forces eig argsort junk bad set_text row kname ase eig_size) with (g := g) (e := e2) (x := x) (th := @None (list Z)) (ba := mkBandArgs "plain" None None) (kb := VStr K)
      (f := K) (t := text) (ks := ks) (kind := kind) as (evs & p & b & L0 & AN & GL0 & PK & PM & BS & BI); try assumption; try reflexivity.
    { intros l. destruct (argsort_sorts l) as (X & _). apply Permutation_length in X. rewrite X. apply seq_length. }
    { rewrite PA, A4. exact HKs. }
    { rewrite LB2. reflexivity. }
    assert (L0 = L).
    { destruct PU as (PU1 & _). rewrite PU1 in GL0. destruct HC as (HC1 & _). congruence. }
    subst L0. cbn [g g_cwd g_unit] in BI. rewrite PR in BI. rewrite removelast_last in BI.
    assert (LM : length (p_modes p) = length ks).
    { apply phonon_results_in_k_order in PM. clear -PM. rewrite <- (map_length kR ks). induction PM; cbn; congruence. }
    assert (LK : length (p_k p) = length ks) by (rewrite PK; apply map_length).
    destruct (band_file bad (folder_text cwd) p b bad_word) as (BN & rows & BT & BL & BR). cbv zeta in BI. rewrite BN in BI.
    destruct (band_abscissa p) as (b' & EB & X1 & X2 & X3 & _); [rewrite LK; exact HK2|]. assert (b' = b) by congruence. subst b'.
    exists e2, evs, M, (snd (band_write bad (folder_text cwd) p b)), rows, (b_len b).
    split; [exact EC2|]. split.
    { unfold report. cbn [with_option_file]. rewrite quiet_andthen, K3, RE. cbn [of_option]. rewrite PLAN, quiet_andthen, MU, MS, SYM. cbn [path_text]. rewrite !quiet_andthen. exact AN. }
    split; [exact BI|]. split; [exact BT|]. split; [rewrite BL, X1, LM, LK; apply Nat.min_id|]. split; [exact X2|]. split.
    { intros i Hi. rewrite X3 by (rewrite LK; exact Hi). unfold kpt. rewrite PK.
      assert (NM : forall j z, j < length ks -> nth j (map kR ks) z = kR (nth j ks v3z)) by (intros j z Hj; rewrite (nth_indep _ _ (kR v3z)) by (rewrite map_length; exact Hj); apply map_nth).
      rewrite !NM by lia. reflexivity. }
    split; [exact HM|].
    intros i k Hi. assert (Hil : i < length ks) by (apply nth_error_Some; congruence).
    apply phonon_results_in_k_order in PM.
    destruct (nth_error (p_modes p) i) as [[fs vs]|] eqn:EM; [|apply nth_error_None in EM; lia].
    destruct (HD (kR k)) as (D & HD1 & HD2).
    assert (ROW : exists D' atoms, dyn_at (cell_R (pp_unit x)) (cell_R (pp_super x)) (pp_arg x) (reciprocal PI (m3R L)) (fc_R junk (pp_force x)) (kR k) = Ok D' /\
               c_xyz (cell_R (pp_unit x)) = Some atoms /\ (fs, vs) = modes_at eig argsort (length atoms) D').
    { assert (NK : nth_error (map kR ks) i = Some (kR k)) by (rewrite nth_error_map, Hi; reflexivity).
      clear -PM NK EM. revert i NK EM. induction PM as [|k0 m0 l l' H _ IH]; intros [|i] NK EM; try discriminate; cbn in NK, EM; [injection NK as <-; injection EM as ->; exact H|eauto]. }
    destruct ROW as (D' & atoms & R1 & R2 & R3). rewrite PA in R1. rewrite HD1 in R1. assert (D' = D) by congruence. subst D'.
    cbn [cell_R c_xyz] in R2. rewrite XU in R2. assert (NA : length atoms = 3 * length tr).
    { assert (Z : atoms = flat_map (fun i => [i; i; i]) tr) by congruence. rewrite Z, Nat.mul_comm. apply flat_map_const_length. reflexivity. }
    exists fs, D. split; [apply (BR i _ _ vs); [apply nth_error_nth'; rewrite X1, LK; exact Hil|exact EM]|]. split; [exact HD2|].
    destruct (frequencies_sorted eig argsort (length atoms) D argsort_sorts) as (S1 & S2). rewrite <- R3 in S1, S2. cbn [fst] in S1, S2. rewrite NA in S2. auto.
Qed.
End Final.
Print Assumptions bands_of_the_law.

(** ** the theorem applied: two atoms in a square lattice, a spring, a path of ten k-points *)
Lemma lat_eq (x y : m3 Qc) : vseqb [r1 x; r2 x; r3 x] [r1 y; r2 y; r3 y] = true -> x = y.
Proof. intros H. apply vseqb_eq in H. destruct x as [a b c], y as [a' b' c']. cbn in H. congruence. Qed.
Lemma points_eq {A B} (x : A * B * option err) : match snd x with None => true | _ => false end = true -> x = ((fst (fst x), snd (fst x)), None).
Proof. destruct x as [[p q] [er|]]; [discriminate|reflexivity]. Qed.
Section Demo.
  Let here : path := ["home"; "me"]%string.
  Let poscar : string := to_text ["one atom"; "1.0"; "2.5 0 0"; "0 2.5 0"; "0 0 10"; "Si"; "1"; "Cartesian"; "0.25 0 5"]%string.
  Let kpath : string := to_text ["path"; "10"; "L"; "0 0 0"; "0.5 0 0"]%string.
  Let w0 : world := mkWorld (fun p => if same_path p (here ++ ["POSCAR"%string]) then Some poscar else if same_path p (here ++ ["KPATH"%string]) then Some kpath else None) (fun _ => None).
  Let words1 : list (list string) := [["-enlarge"; "2 1 1"]; ["-sym_off"]]%string.
  Let effs1 : list effect := [SetTo "enlargement" "2 1 1"; Turn "sym" false]%string.
  Let species (c : cell Qc) : list string := match c_type c with Some (t :: _) => [t] | _ => [] end.
  Let wt (_ : string) : string := "28.085"%string.
  Let search (u s : cell Qc) (a : args) : result (option (string * list (nat * (v3 Qc * list (v3 Qc))))) := Ok None.
  Let sym_forces (_ : fmat Qc) (u s : cell Qc) (a : args) (_ : string -> result (list (v3 Qc))) (_ : list string) : fmat Qc * option err := (empty_mat, None).
  Let glob (_ : string) : list string := [].
  Let w1 : world := fst (program species wt search (sym_forces empty_mat) glob here (concat words1) w0).
  Let dirs : list string := ["d1"; "d2"; "d3"; "d4"; "d5"; "d6"]%string.
  Let ff : list string := map (fun s => s ++ "/vasprun.xml")%string dirs.
  (* two atoms coupled by an isotropic spring of 5 eV/A^2 *)
  Let line (x : string) (k : nat) : string := (" <v> " ++ nth (k / 2) [x ++ " 0 0"; "0 " ++ x ++ " 0"; "0 0 " ++ x] "" ++ " </v>")%string.
  Let forces (k : nat) : string :=
    to_text ["<varray name=""forces"" >"; (if Nat.even k then line "-0.1" k else line "0.1" k); (if Nat.even k then line "0.1" k else line "-0.1" k); "</varray>"]%string.
  Let w2 : world := mkWorld (fun p =>
    match find (fun kd => same_path p (here ++ [snd kd; "POSCAR"%string])) (combine (seq 1 6) dirs) with
    | Some kd => w_file w1 (here ++ [("POSCAR" ++ suffix (fst kd))%string])
    | None => match find (fun kd => same_path p (here ++ [snd kd; "vasprun.xml"%string])) (combine (seq 0 6) dirs) with
              | Some kd => Some (forces (fst kd))
              | None => w_file w1 p
              end
    end) (w_rec w1).
  Let u : cell Qc := match read_structure "vasp" w0 (here ++ ["POSCAR"%string]) with Ok c => c | Err _ => cell_init end.
  Let q (n : Z) (p : positive) : Qc := Q2Qc (n # p).
  Let L : m3 Qc := match c_lat u with Some l => l | None => M3 v3z v3z v3z end.
  Let pos : list (v3 Qc) := match c_cart u with Some l => l | None => [] end.
  Let a : args := match set_user_arg args_init (user_args (fun x => VStr (chosen effs1 x))) with Ok a => a | Err _ => args_init end.
  Let d : Qc := match a_disp a with Some d => d | None => Q2Qc 0 end.
  Let c0 : v3 Qc := V3 (q 1 4) (q 0 1) (q 5 1).
  Let c1 : v3 Qc := V3 (q 11 4) (q 0 1) (q 5 1).
  Let law := spring (q 801 100000000000) c0 c1.
  Let Phi := spring_phi (q 801 100000000000).

  Lemma the_supercell cur ts : supercell_is L pos [0%Z] 2 1 1 cur ts -> cur = [c0; c1].
  Proof.
    intros (HL & HC & _). change (length cur = length pos * 2) in HL. replace (length pos) with 1 in HL by (vm_compute; reflexivity). destruct cur as [|x [|y [|z cur]]]; try discriminate.
    assert (HP : nth_error pos 0 = Some (nth 0 pos v3z)) by (vm_compute; reflexivity). pose proof (HC 0 _ 0 0 0 HP) as H0. pose proof (HC 0 _ 1 0 0 HP) as H1. clear HC HP. cbn [nth_error Nat.mul Nat.add] in H0, H1.
    specialize (H0 ltac:(lia) ltac:(lia) ltac:(lia)). specialize (H1 ltac:(lia) ltac:(lia) ltac:(lia)).
    apply some_inj in H0, H1. rewrite H0, H1. clear H0 H1. apply vseqb_eq. vm_compute. reflexivity.
  Qed.
  Let ks : list (v3 Qc) := fst (fst (set_k_points (readlines kpath) (Some [1; 1; 0]%Z))).
  Let kind := snd (fst (set_k_points (readlines kpath) (Some [1; 1; 0]%Z))).
  Example bands_instance : forall eig argsort junk bad set_text row kname ase,
    (forall n D, length (fst (eig n D)) = n) -> argsort_ok argsort -> TextFacts.word bad ->
    exists e evs content rows,
      command (file_exists here w2) (ff ++ ["-c"; "POSCAR"; "-kband"; "KPATH"]%string) = Call e ff /\
      report search sym_forces eig argsort junk bad set_text row kname ase glob here e None ff w2 = (evs, Ok tt) /\
      In (Report.File "/home/me/band.dat" content) evs /\ is_table bad content rows /\ length rows = 10 /\
      (* the frequencies at the fifth point are those of the square chain with the spring above and the mass 28.085 u *)
      exists fs D M, option_map (@tl _) (nth_error rows 4) = Some (map Some fs) /\ M 0 = kg 28085 3 /\
        law_dynamical Phi L pos [0%Z] M 2 1 1 1 1 0 (kR (nth 4 ks v3z)) D /\ Permutation fs (map freq (fst (eig 3 D))).
  Proof.
    intros eig argsort junk bad set_text row kname ase SE SA SB.
    destruct (bands_of_the_law search sym_forces eig argsort junk bad set_text row kname ase SE SA SB species wt glob here words1 effs1 w0 w1 w2 "vasp" "POSCAR" "KPATH" kpath u L [("Si"%string, 1)] pos [0%Z] a d 2 1 1 1 1 0
       ff (match snd (program species wt search (sym_forces empty_mat) glob here (concat words1) w0) with Some r => r | None => Ok None end) law Phi ks kind)
      as (e & evs & M & content & rows & xs & C1 & C2 & C3 & C4 & C5 & _ & _ & C6 & C7).
    - split; [|intros; reflexivity]. intros c ty t H. unfold species. rewrite H. destruct ty; [intros []|intros [<-|[]]; now left].
    - constructor; [apply asks_apart, names_option_b; vm_compute; reflexivity|]. constructor; [apply asks_switch, names_switch_b; vm_compute; reflexivity|]. constructor.
    - reflexivity.
    - reflexivity.
    - reflexivity.
    - reflexivity.
    - reflexivity.
    - repeat split; discriminate.
    - discriminate.
    - repeat split; try (vm_compute; reflexivity); try lia.
    - lia.
    - lia.
    - lia.
    - vm_compute. reflexivity.
    - split; [exists Cartesian; repeat split; vm_compute; reflexivity|]. split; [vm_compute; reflexivity|].
      split; [repeat (apply Forall_cons); [|apply Forall_nil]; vm_compute; split; [discriminate|reflexivity]|]. split; [discriminate|].
      intros t n [X|[]]. injection X as <- <-. split; [left; split; [reflexivity|]|lia]. split; [discriminate|reflexivity].
    - discriminate.
    - vm_compute. reflexivity.
    - intros t k [X|[]]. injection X as <- <-. exists (28085, 3)%Z. vm_compute. reflexivity.
    - replace L with (M3 (V3 (q 5 2) (q 0 1) (q 0 1)) (V3 (q 0 1) (q 5 2) (q 0 1)) (V3 (q 0 1) (q 0 1) (q 10 1))) by (apply lat_eq; vm_compute; reflexivity).
      split; [apply (dec16 5 2 25000000000000000)|split; apply (dec16 0 1 0)]; reflexivity.
    - replace L with (M3 (V3 (q 5 2) (q 0 1) (q 0 1)) (V3 (q 0 1) (q 5 2) (q 0 1)) (V3 (q 0 1) (q 0 1) (q 10 1))) by (apply lat_eq; vm_compute; reflexivity).
      split; [apply (dec16 0 1 0)|split; [apply (dec16 5 2 25000000000000000)|apply (dec16 0 1 0)]]; reflexivity.
    - replace L with (M3 (V3 (q 5 2) (q 0 1) (q 0 1)) (V3 (q 0 1) (q 5 2) (q 0 1)) (V3 (q 0 1) (q 0 1) (q 10 1))) by (apply lat_eq; vm_compute; reflexivity).
      split; [apply (dec16 0 1 0)|split; [apply (dec16 0 1 0)|apply (dec16 10 1 100000000000000000)]]; reflexivity.
    - intros X. vm_compute in X. discriminate.
    - apply same_start. vm_compute. reflexivity.
    - vm_compute. reflexivity.
    - vm_compute. reflexivity.
    - unfold w2. cbn [w_rec]. reflexivity.
    - reflexivity.
    - intros f H r. cbn in H. repeat (destruct H as [<-|H]; [discriminate|]). destruct H.
    - intros m f H. do 6 (destruct m as [|m]; [cbn in H; injection H as <-; vm_compute; reflexivity|]). destruct m; discriminate.
    - intros X. apply (f_equal this) in X. vm_compute in X. discriminate.
    - assert (D : d = q 1 50) by (apply Qc_is_canon; vm_compute; reflexivity). rewrite D. apply (dec16 1 50 200000000000000). reflexivity.
    - intros cur ts H. rewrite (the_supercell cur ts H). split; [|apply spring_harmonic].
      repeat constructor; cbn [vx vy vz c0 c1].
      + apply (dec16 1 4 2500000000000000). reflexivity.
      + apply (dec16 0 1 0). reflexivity.
      + apply (dec16 5 1 50000000000000000). reflexivity.
      + apply (dec16 11 4 27500000000000000). reflexivity.
      + apply (dec16 0 1 0). reflexivity.
      + apply (dec16 5 1 50000000000000000). reflexivity.
    - intros f c p H. revert c p. apply (law_matches law). revert f H. apply forallb_forall. vm_compute. reflexivity.
    - vm_compute. reflexivity.
    - unfold ks, kind. apply points_eq. vm_compute. reflexivity.
    - vm_compute. lia.
    - assert (LK : length ks = 10) by (vm_compute; reflexivity). rewrite LK in C5.
      exists e, evs, content, rows. split; [exact C1|]. split; [exact C2|]. split; [exact C3|]. split; [exact C4|]. split; [exact C5|].
      destruct (C7 4 (nth 4 ks v3z)) as (fs & D & R1 & R2 & _ & R3); [apply nth_error_nth'; rewrite LK; lia|].
      exists fs, D, M. split; [rewrite R1; reflexivity|]. split; [|split; [exact R2|exact R3]].
      destruct (C6 0 0%Z "Si"%string eq_refl eq_refl) as (m & ex & G1 & ->). vm_compute in G1. injection G1 as <- <-. reflexivity.
  Qed.
End Demo.
Print Assumptions bands_instance.
