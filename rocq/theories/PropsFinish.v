(** A run with plain pictures finishes: the property C103. *)
From Coq Require Import Reals Qreals.
From Coquelicot Require Import Complex.
From Coq Require Import String Ascii ZArith QArith Qcanon Bool Lia Lra Arith List.
From Verif Require Import Base Dec Field Args Cell Super Displace Text Check KPoints Weight Force Cli Session Run Phonon Band Thermal Dos Mode Output Plot Report ReportFacts PropsReport.
Import ListNotations.
Local Open Scope list_scope.
Local Open Scope nat_scope.

(** ---- building the dynamical matrix does not depend on the wave vector ---- *)
Lemma unit_loop_any n ncol axes ucart sp row fr fr' : (forall f, fr = Ok f -> exists f', fr' = Ok f') ->
  forall uxyz s2 q D D1, unit_loop n ncol axes q ucart sp row fr s2 uxyz D = Ok D1 ->
  forall q' D', exists D1', unit_loop n ncol axes q' ucart sp row fr' s2 uxyz D' = Ok D1'.
Proof.
  intro HF. induction uxyz as [|a r IH]; intros s2 q D D1 H q' D'; cbn [unit_loop] in *; [eexists; reflexivity|].
  destruct sp as [x|]; cbn [bind] in *; [|discriminate].
  destruct (np_index (length ucart) a) as [ia|]; cbn [bind] in *; [|discriminate]. destruct (py_nth ucart ia) as [y|]; cbn [bind] in *; [|discriminate].
  destruct (n <=? row); [discriminate|]. destruct fr as [f|]; cbn [bind] in *; [|discriminate]. destruct (HF f eq_refl) as [f' ->]. cbn [bind] in *. destruct (ncol <=? s2); [discriminate|]. exact (IH _ _ _ _ H _ _).
Qed.
Lemma super_loop_any n nrow ncol E axes scart ucart fc fc' uxyz : forall sxyz s1 q D D1, super_loop n nrow ncol E axes q scart ucart fc uxyz s1 sxyz D = Ok D1 ->
  forall q' D', exists D1', super_loop n nrow ncol E axes q' scart ucart fc' uxyz s1 sxyz D' = Ok D1'.
Proof.
  induction sxyz as [|a r IH]; intros s1 q D D1 H q' D'; cbn [super_loop] in *; [eexists; reflexivity|].
  destruct (unit_loop _ _ _ q _ _ _ _ _ _ D) as [D2|] eqn:EU; cbn [bind] in *; [|discriminate].
  assert (HF : forall f, (let! i := np_index nrow (a * 3 + Z.of_nat (s1 mod 3)) in Ok (fc i)) = Ok f -> exists f', (let! i := np_index nrow (a * 3 + Z.of_nat (s1 mod 3)) in Ok (fc' i)) = Ok f').
  { destruct (np_index nrow (a * 3 + Z.of_nat (s1 mod 3))) as [i|]; cbn [bind]; intros f Hf; [eexists; reflexivity|discriminate]. }
  destruct (unit_loop_any _ _ _ _ _ _ _ _ HF _ _ _ _ _ EU q' D') as [D2' X].
  rewrite X. cbn [bind]. exact (IH _ _ _ _ H _ _).
Qed.
Lemma dyn_any u s ar B fc k D : dyn_at u s ar B fc k = Ok D -> forall B' fc' k', exists D', dyn_at u s ar B' fc' k' = Ok D'.
Proof.
  unfold dyn_at. intros H B' fc' k'.
  repeat match type of H with (let! x := of_option ?e ?t in _) = _ => destruct t; cbn [of_option bind] in *; [|discriminate H] end.
  destruct (enlarge _ _) as [E|]; cbn [bind] in *; [|discriminate].
  repeat match type of H with (let! x := of_option ?e ?t in _) = _ => destruct t; cbn [of_option bind] in *; [|discriminate H] end.
  destruct (super_loop _ _ _ _ _ (vmul k B) _ _ _ _ _ _ _) as [D1|] eqn:ES; cbn [bind] in *; [|discriminate].
  destruct (super_loop_any _ _ _ _ _ _ _ _ fc' _ _ _ _ _ _ ES (vmul k' B') (fun _ _ => RtoC 0)) as [D1' ->]. cbn [bind].
  match type of H with (let! x := of_option ?e ?t in _) = _ => destruct t; cbn [of_option bind] in *; [|discriminate H] end.
  destruct (negb _); [discriminate|]. eexists. reflexivity.
Qed.

Section Finish.
  Variable search : cell Qc -> cell Qc -> args -> result (option (string * list (nat * (v3 Qc * list (v3 Qc))))).
  Variable sym_forces : fmat Qc -> cell Qc -> cell Qc -> args -> (string -> result (list (v3 Qc))) -> list string -> fmat Qc * option err.
  Variable eig : nat -> cmat -> list C * cmat.
  Variable argsort : list R -> list nat.
  Variable junk : nat -> nat -> R.
  Variable bad : string.
  Variable set_text : list Z -> string.
  Variable row : v3 R -> string.
  Variable kname : v3 Qc -> string.
  Variable ase : path -> string -> result (list (v3 R)).
  (** numpy returns one eigenvalue per dimension and one position per number *)
  Hypothesis eig_size : forall n D, length (fst (eig n D)) = n.
  Hypothesis sort_size : forall l, length (argsort l) = length l.

  (** a k-point file of at least [n] points *)
  Definition k_points_given (g : setting) (a : args) (kv : pyval) (n : nat) : Prop :=
    exists f t ks kind, k_file kv = Ok f /\ w_file (g_world g) (resolve (g_cwd g) f) = Some t /\
      set_k_points (readlines t) (a_pbc a) = ((ks, kind), None) /\ n <= length ks.

  (** what the preparation of both stages yields *)
  Definition prepared_as (g : setting) (x : prepared) : Prop := (let! x0 := new_process g in settle search sym_forces g x0) = Ok x.
  (** the structures fit together: the dynamical matrix at the zone centre can be built, and an atom is selected *)
  Definition fits (x : prepared) : Prop :=
    (exists B fc D, dyn_at (cell_R (pp_unit x)) (cell_R (pp_super x)) (pp_arg x) B fc (V3 0 0 0)%R = Ok D) /\
    exists c l, c_xyz (pp_unit x) = Some (c :: l).

  Lemma eval_ok x B fc : fits x -> forall ks, exists ms, eval_phonon eig argsort (cell_R (pp_unit x)) (cell_R (pp_super x)) (pp_arg x) B fc ks = Ok ms /\
    length ms = length ks /\ Forall (fun m => fst m <> []) ms.
  Proof.
    intros [(B0 & fc0 & D0 & H0) (c & l & HX)]. induction ks as [|k ks IH]; cbn [eval_phonon]; [exists []; auto|].
    destruct (dyn_any _ _ _ _ _ _ _ H0 B fc k) as [D ->]. cbn [bind]. cbn [cell_R c_xyz]. rewrite HX. cbn [of_option bind].
    destruct IH as (ms & -> & L & F). cbn [bind]. eexists. split; [reflexivity|]. split; [cbn; rewrite L; reflexivity|]. constructor; [|exact F].
    unfold modes_at. destruct (eig (length (c :: l)) D) as [ew ev] eqn:EE. cbn [fst]. pose proof (eig_size (length (c :: l)) D) as LE. rewrite EE in LE. cbn [fst] in LE.
    intro Z. apply (f_equal (@length R)) in Z. rewrite map_length, sort_size, map_length, LE in Z. discriminate Z.
  Qed.

  Lemma settle_lat g x0 x : settle search sym_forces g x0 = Ok x -> exists L, c_lat (pp_unit x) = Some L /\ exists pbc, a_pbc (pp_arg x) = Some pbc.
  Proof.
    intro H. destruct (settle_parts _ _ _ _ _ H) as [HA HU]. unfold settle in H. rewrite HA in H. cbn [bind] in H. rewrite <- HU in H.
    destruct (check_match_argument _ _ _) as [[]|] eqn:EC; cbn [bind] in H; [|discriminate].
    unfold check_match_argument in EC. destruct (c_lat (pp_unit x)) as [L|]; cbn [of_option bind] in EC; [|discriminate]. exists L. split; [reflexivity|].
    destruct (a_pbc (pp_arg x)) as [p|]; [exists p; reflexivity|]. exfalso.
    repeat match type of H with (let! x := ?t in _) = _ => destruct t; cbn [of_option bind] in H; [|discriminate] end. discriminate.
  Qed.

  Lemma evaluate_ok g x old kv n : prepared_as g x -> fits x -> k_points_given g (pp_arg x) kv (S n) ->
    exists l p, evaluate eig argsort junk bad g x old kv = (l, Ok p) /\ S n <= length (p_k p) /\ length (p_modes p) = length (p_k p) /\ Forall (fun m => fst m <> []) (p_modes p).
  Proof.
    intros HP HF (f & t & ks & kind & K1 & K2 & K3 & K4). unfold prepared_as in HP.
    destruct (new_process g) as [x0|]; cbn [bind] in HP; [|discriminate]. destruct (settle_lat _ _ _ HP) as (L & HL & pbc & HB).
    unfold evaluate. rewrite K1. cbn [bind]. rewrite K2. cbn [of_option]. rewrite quiet_andthen, K3, quiet_andthen. cbn [fst snd cell_R c_lat c_xyz]. rewrite HL, HB. cbn [option_map of_option bind].
    destruct (eval_ok x (reciprocal PI (m3R L)) (fc_R junk (pp_force x)) HF (map kR ks)) as (ms & EM & LM & FM).
    destruct HF as [_ (c & l & HX)]. rewrite HX. cbn [of_option bind].
    destruct (map kR ks) as [|k0 kr] eqn:EK; [apply (f_equal (@length _)) in EK; rewrite map_length in EK; cbn in EK; lia|].
    rewrite EM. cbn [bind]. rewrite quiet_andthen.
    match goal with |- context [gamma_write bad ?p0] => set (p := p0) end.
    assert (G : exists l0, writes (match gamma_write bad p with None => ([], None) | Some ((name, lines), e) => ([File name lines], e) end) = (l0, Ok tt)).
    { unfold gamma_write, p. cbn [p_modes p_pbc]. destruct (ind_pbc pbc); [|exists []; reflexivity]. destruct ms as [|m ms]; [discriminate LM|]. eexists. reflexivity. }
    destruct G as [l0 ->]. cbn [andthen quiet]. exists (l0 ++ []), p. split; [reflexivity|]. unfold p. cbn [p_k p_modes].
    split; [rewrite <- EK, map_length; exact K4|]. auto.
  Qed.

  Lemma minmax_ok pick l : l <> [] -> exists m, fold_minmax pick l = Ok m.
  Proof. destruct l as [|x l]; intro H; [congruence|]. unfold fold_minmax. eexists. reflexivity. Qed.
  Lemma flat_ok (ms : list (list R * cmat)) : ms <> [] -> Forall (fun m => fst m <> []) ms -> concat (map fst ms) <> [].
  Proof. destruct ms as [|m ms]; intros H F; [congruence|]. inversion F; subst. cbn [map concat]. destruct (fst m); [congruence|discriminate]. Qed.
  (** a frequency range given as two numbers, or none *)
  Definition range_ok (l : option (list Z)) : Prop := match l with None => True | Some l => length l = 2 end.
  Lemma window_ok p l : p_modes p <> [] -> Forall (fun m => fst m <> []) (p_modes p) -> range_ok l -> exists w, window p (option_map (map IZR) l) = Ok w.
  Proof.
    intros H F HR. unfold window. destruct l as [l|]; cbn [option_map].
    - cbn in HR. destruct l as [|a [|b [|? ?]]]; try discriminate. eexists. reflexivity.
    - destruct (minmax_ok Rmin _ (flat_ok _ H F)) as [m1 ->]. destruct (minmax_ok Rmax _ (flat_ok _ H F)) as [m2 ->]. eexists. reflexivity.
  Qed.
  Lemma projected_ok n : forall freq cols, length cols = length freq -> snd (projected_lines bad n freq cols) = None.
  Proof.
    induction freq as [|f fr IH]; intros [|c cols] H; cbn [projected_lines]; try reflexivity; try discriminate.
    specialize (IH cols ltac:(cbn in H; lia)). cbn [tl]. destruct (projected_lines bad n fr cols) as [ls e]. cbn [snd] in *. destruct n; exact IH.
  Qed.
  Lemma map2_length {X Y Z} (f : X -> Y -> Z) a : forall b, length b = length a -> length (map2 f a b) = length a.
  Proof. induction a as [|x a IH]; intros [|y b] H; cbn in *; try reflexivity; try discriminate. rewrite IH by lia. reflexivity. Qed.

  (** ---- thermal properties ---- *)
  Lemma arr_add_length a : forall b, length b = length a -> length (arr_add a b) = length a.
  Proof. induction a as [|x a IH]; intros [|y b] H; cbn in *; try reflexivity; try discriminate. rewrite IH by lia. reflexivity. Qed.
  Lemma all_modes_length nk nb temp wq : forall F En z im, length F = length temp -> length En = length temp ->
    let '(F', En', _, _) := all_modes nk nb temp wq (F, En, z, im) in length F' = length temp /\ length En' = length temp.
  Proof.
    unfold all_modes.
    assert (X : forall l F En z im, length F = length temp -> length En = length temp ->
      let '(F', En', _, _) := fold_left (mode_step nk nb temp) l (F, En, z, im) in length F' = length temp /\ length En' = length temp).
    { induction l as [|w l IH]; intros F En z im H1 H2; cbn [fold_left]; [auto|]. unfold mode_step at 2. destruct (Rlt_dec w 0); [apply IH; assumption|].
      cbv zeta. apply IH; rewrite arr_add_length; rewrite ?map_length; congruence. }
    induction wq as [|ws wq IH]; intros F En z im H1 H2; cbn [fold_left]; [auto|].
    pose proof (X ws F En z im H1 H2) as Y. destruct (fold_left (mode_step nk nb temp) ws (F, En, z, im)) as [[[F1 En1] z1] im1]. destruct Y. apply IH; assumption.
  Qed.
  Lemma insert_length {X} i (x : X) l : length (insert_at i x l) = S (length l).
  Proof. unfold insert_at. rewrite app_length. cbn [length]. pose proof (firstn_skipn i l) as E. apply (f_equal (@length X)) in E. rewrite app_length in E. lia. Qed.
  Lemma delete_length {X} i (l : list X) : i < length l -> S (length (delete_at i l)) = length l.
  Proof. intro H. unfold delete_at. rewrite app_length, firstn_length, skipn_length. lia. Qed.
  Lemma zeros_lt temp : forall i j, In j (zero_positions i temp) -> i <= j < i + length temp.
  Proof.
    induction temp as [|T r IH]; intros i j H; cbn [zero_positions length] in *; [destruct H|].
    destruct (Req_EM_T T 0); [destruct H as [<-|H]; [lia|]|]; apply IH in H; lia.
  Qed.
  Lemma thermal_size wq nb temp : let t := fst (thermal_set wq nb (thermal_init temp)) in
    t_temp t = temp /\ length (t_free t) = length temp /\ length (t_entropy t) = length temp.
  Proof.
    cbv zeta. unfold thermal_set. cbn [thermal_init t_temp t_free t_entropy].
    destruct (zero_positions 0 temp) as [|i [|? ?]] eqn:EZ.
    - pose proof (all_modes_length (length wq) nb temp wq (map (fun _ => Some 0%R) temp) (map (fun _ => Some 0%R) temp) (Some 0%R) false (map_length _ _) (map_length _ _)) as H.
      destruct (all_modes _ _ _ _ _) as [[[F En] z] im]. cbn [fst t_temp t_free t_entropy]. tauto.
    - set (tp := delete_at i temp).
      assert (LI : i < length temp) by (destruct (zeros_lt temp 0 i); [rewrite EZ; left; reflexivity|lia]).
      pose proof (delete_length i temp LI) as LD. fold tp in LD.
      pose proof (all_modes_length (length wq) nb tp wq (map (fun _ => Some 0%R) tp) (map (fun _ => Some 0%R) tp) (Some 0%R) false (map_length _ _) (map_length _ _)) as H.
      destruct (all_modes _ _ _ _ _) as [[[F En] z] im]. cbn [fst t_temp t_free t_entropy]. rewrite !insert_length. destruct H. split; [reflexivity|]. lia.
    - cbn [fst thermal_init t_temp t_free t_entropy]. rewrite !map_length. auto.
  Qed.
  Lemma points_ok v fs ds : length ds = length fs -> exists l, points v fs ds = Ok l.
  Proof. intro H. unfold points. rewrite H, Nat.eqb_refl. eexists. reflexivity. Qed.
  Lemma thermal_finish folder p ts : ts <> [] -> exists l, thermal_part bad folder p ts = (l, Ok tt).
  Proof.
    intro H. unfold thermal_part. cbv zeta. set (t := fst (thermal_set _ _ _)).
    destruct (thermal_size (map fst (p_modes p)) (p_n p) (map IZR ts)) as (T1 & T2 & T3). fold t in T1, T2, T3.
    unfold writes. cbn [fst snd andthen]. unfold thermal_plot. rewrite T1.
    assert (N : map IZR ts <> []) by (destruct ts; [congruence|discriminate]).
    destruct (minmax_ok Rmin _ N) as [m1 ->]. destruct (minmax_ok Rmax _ N) as [m2 ->]. cbn [bind].
    destruct (points_ok false (map IZR ts) (t_free t) T2) as [c1 ->]. cbn [bind].
    destruct (points_ok false (map IZR ts) (map (fun s => omul s (num 1000)) (t_entropy t))) as [c2 ->]; [rewrite map_length; exact T3|]. cbn [bind draws]. eexists. reflexivity.
  Qed.

  (** ---- density of states ---- *)
  Lemma dos_finish folder e x p da th : p_modes p <> [] -> Forall (fun m => fst m <> []) (p_modes p) ->
    toR (da_sigma da) <> 0%R -> da_option da = "plain"%string -> range_ok (da_elimit da) -> orientation_known e -> match th with Some ts => ts <> [] | None => True end ->
    exists l d, dos_part bad set_text folder e x p da th = (l, Ok d).
  Proof.
    intros H F HS HO HR HE HT. unfold dos_part, dos_init.
    destruct (minmax_ok Rmin _ (flat_ok _ H F)) as [m1 ->]. destruct (minmax_ok Rmax _ (flat_ok _ H F)) as [m2 ->]. cbn [bind]. rewrite quiet_andthen.
    unfold dos_set. cbn [d_sigma d_freq d_pdos]. destruct (Req_EM_T (toR (da_sigma da)) 0) as [Z|_]; [congruence|]. rewrite quiet_andthen.
    set (freq := map _ (seq 0 _)). set (cols := map2 _ freq _).
    assert (LC : length cols = length freq) by (unfold cols; rewrite map2_length; [reflexivity|apply map_length]).
    match goal with |- context [dos_write _ _ _ ?d0] => set (d := d0) end.
    assert (W : exists fs, dos_write bad folder (xyz_of x) d = (fs, None)).
    { unfold dos_write, projected_write. pose proof (projected_ok (length (xyz_of x)) (d_freq d) (d_pdos d) LC) as P. destruct (projected_lines _ _ _ _) as [ls er]. cbn [snd] in P. subst er. eexists. reflexivity. }
    destruct W as [fs ->]. unfold writes at 1. cbn [fst snd andthen].
    assert (D : exists f, dos_plot set_text p d (xyz_of x) (dos_options e da) = Ok (Some f)).
    { unfold dos_plot. cbn [dos_options do_orient do_elimit do_total].
      replace (String.eqb (text_or "horizontal" (e "orientation_dos"%string)) "horizontal" || String.eqb (text_or "horizontal" (e "orientation_dos"%string)) "vertical")%bool with true
        by (unfold text_or; destruct (e "orientation_dos"%string) eqn:EO; try reflexivity; destruct (HE _ EO) as [-> | ->]; reflexivity).
      destruct (window_ok p (da_elimit da) H F HR) as [w ->]. cbn [bind]. unfold dos_arts. cbn [dos_options do_option]. rewrite HO. cbn [String.eqb Ascii.eqb Bool.eqb].
      unfold total_art. destruct (points_ok (String.eqb (text_or "horizontal" (e "orientation_dos"%string)) "vertical") (d_freq d) (d_tdos d)) as [pts ->]; [unfold d; cbn [d_tdos d_freq]; unfold totals; rewrite map_length; exact LC|].
      cbn [bind]. eexists. reflexivity. }
    destruct D as [f ->]. cbn [draws andthen].
    destruct th as [ts|]; [destruct (thermal_finish folder p ts HT) as [lt ->]|]; cbn [quiet andthen]; eexists _, _; reflexivity.
  Qed.

  (** ---- bands ---- *)
  Lemma band_loop_size ks : forall ind prev acc, let (xs, ts) := band_loop ind prev acc ks in length xs = length ks /\ Forall (fun t => ind <= t < ind + length ks) ts.
  Proof.
    induction ks as [|k r IH]; intros ind prev acc; cbn [band_loop]; [split; constructor|].
    specialize (IH (S ind) k (acc + sqrt (vdot (vsub k prev) (vsub k prev)))%R). destruct (band_loop _ _ _ r) as [xs ts]. destruct IH as [IH1 IH2]. cbn [length]. split; [rewrite IH1; reflexivity|].
    assert (X : Forall (fun t => ind <= t < ind + S (length r)) ts) by (eapply Forall_impl; [|exact IH2]; cbv beta; intros; lia).
    destruct (allcloseR k prev); [constructor; [lia|exact X]|exact X].
  Qed.
  Lemma band_finish g folder e x p ba : 2 <= length (p_k p) -> length (p_modes p) = length (p_k p) -> Forall (fun m => fst m <> []) (p_modes p) ->
    ba_option ba = "plain"%string -> label_list (e "k_label_band"%string) = [] -> range_ok (ba_elimit ba) ->
    exists l, band_part bad set_text row kname ase g folder e x p ba None None = (l, Ok tt).
  Proof.
    intros HK HM F HO HL HR. unfold band_part, band_set. unfold band_init at 1.
    destruct (p_k p) as [|k0 [|k1 r]] eqn:EK; [cbn in HK; lia|cbn in HK; lia|].
    unfold band_init. rewrite EK. cbn [b_len map nth]. set (start := 0%R).
    pose proof (band_loop_size (k1 :: r) 1 k0 start) as BL. destruct (band_loop 1 k0 start (k1 :: r)) as [xs ts]. destruct BL as [L1 L2]. rewrite quiet_andthen.
    match goal with |- context [band_write _ _ _ ?b0] => set (b := b0) end. unfold writes. cbn [fst snd andthen].
    assert (LB : length (b_len b) = length (p_modes p)) by (unfold b; cbn [b_len]; rewrite HM; cbn [length] in *; rewrite L1; reflexivity).
    assert (P : exists f, band_plot set_text p b (xyz_of x) (band_options e ba) = Ok (Some f)).
    { unfold band_plot. cbn [band_options bo_elimit bo_option bo_labels].
      assert (NM : p_modes p <> []) by (intro Z; rewrite Z in HM; discriminate HM).
      destruct (window_ok p (ba_elimit ba) NM F HR) as [w ->]. cbn [bind]. rewrite HO. cbn [String.eqb Ascii.eqb Bool.eqb].
      unfold plain_bands. rewrite LB, Nat.eqb_refl. cbn [negb bind]. rewrite HL.
      unfold band_axes. cbn [k_labels map ticks].
      assert (IDX : forall i, i < length (b_len b) -> exists y, py_nth (b_len b) i = Ok y).
      { intros i Hi. unfold py_nth. destruct (nth_error (b_len b) i) as [y|] eqn:E; [exists y; reflexivity|]. apply nth_error_None in E. lia. }
      assert (LL : length (b_len b) = S (S (length r))) by (rewrite LB, HM; reflexivity).
      destruct (IDX 0) as [y0 ->]; [lia|]. cbn [bind]. destruct (IDX (length (b_len b) - 1)) as [y1 ->]; [lia|]. cbn [bind].
      destruct (mapM_some (py_nth (b_len b)) (b_ticks b)) as (tk & -> & _).
      { apply Forall_forall. intros t Ht. apply IDX. unfold b in Ht. cbn [b_ticks] in Ht. rewrite LL.
        destruct Ht as [<-|Ht]; [lia|]. cbn [app] in Ht. apply in_app_or in Ht. destruct Ht as [Ht|[<-|[]]]; [|cbn [length]; lia].
        rewrite Forall_forall in L2. specialize (L2 t Ht). cbn [length] in L2. lia. }
      cbn [bind]. eexists. reflexivity. }
    destruct P as [f ->]. cbn [draws andthen quiet]. eexists. reflexivity.
  Qed.

  Local Notation analyses := (analyses search sym_forces eig argsort junk bad set_text row kname ase).

  (** Once the structures fit together, analyses with plain pictures and default smearing
      finish: density of states with thermal properties, bands, or both. *)
  Theorem plain_dos_finishes : forall g e x da kd th, prepared_as g x -> fits x -> k_points_given g (pp_arg x) kd 1 ->
    toR (da_sigma da) <> 0%R -> da_option da = "plain"%string -> range_ok (da_elimit da) -> orientation_known e -> match th with Some ts => ts <> [] | None => True end ->
    exists E, analyses g e (Some (da, kd)) th None None = (E, Ok tt).
  Proof.
    intros g e x da kd th HP HF HK HS HO HR HE HT. rewrite analyses_dos. cbv zeta. cbn [fst snd]. unfold dos_stage. pose proof HP as HP'. unfold prepared_as in HP'. rewrite HP'. rewrite quiet_andthen.
    destruct (evaluate_ok g x [] kd 0 HP HF HK) as (l & p & -> & L1 & L2 & L3). cbn [andthen].
    assert (NM : p_modes p <> []) by (intro Z; rewrite Z in L2; cbn in L2; lia).
    destruct (dos_finish (folder_text (removelast (resolve (g_cwd g) (g_unit g)))) e x p da th NM L3 HS HO HR HE HT) as (l2 & d & ->). cbn [andthen quiet]. eexists. reflexivity.
  Qed.
  Theorem plain_bands_finish : forall g e x th ba kb, prepared_as g x -> fits x -> k_points_given g (pp_arg x) kb 2 ->
    ba_option ba = "plain"%string -> label_list (e "k_label_band"%string) = [] -> range_ok (ba_elimit ba) ->
    exists E, analyses g e None th (Some (ba, kb)) None = (E, Ok tt).
  Proof.
    intros g e x th ba kb HP HF HK HO HL HR. rewrite analyses_band. cbv zeta. cbn [fst snd]. unfold band_stage. pose proof HP as HP'. unfold prepared_as in HP'. rewrite HP'. rewrite quiet_andthen.
    destruct (evaluate_ok g x [] kb 1 HP HF HK) as (l & p & -> & L1 & L2 & L3). cbn [andthen].
    destruct (band_finish g (folder_text (removelast (resolve (g_cwd g) (g_unit g)))) e x p ba L1 L2 L3 HO HL HR) as (l2 & ->). cbn [andthen quiet]. eexists. reflexivity.
  Qed.
  Theorem plain_run_finishes : forall g e x da kd th ba kb, prepared_as g x -> fits x -> repeatable sym_forces g ->
    k_points_given g (pp_arg x) kd 1 -> k_points_given g (pp_arg x) kb 2 ->
    toR (da_sigma da) <> 0%R -> da_option da = "plain"%string -> range_ok (da_elimit da) -> labels_fit da -> orientation_known e -> match th with Some ts => ts <> [] | None => True end ->
    ba_option ba = "plain"%string -> label_list (e "k_label_band"%string) = [] -> range_ok (ba_elimit ba) ->
    exists E, analyses g e (Some (da, kd)) th (Some (ba, kb)) None = (E, Ok tt).
  Proof.
    intros g e x da kd th ba kb HP HF HRp HKd HKb HS HO HR HLf HE HT HO2 HL HR2.
    destruct (plain_dos_finishes g e x da kd th HP HF HKd HS HO HR HE HT) as [E1 H1].
    destruct (plain_bands_finish g e x None ba kb HP HF HKb HO2 HL HR2) as [E2 H2].
    destruct (both_analyses_in_one_run search sym_forces eig argsort junk bad set_text row kname ase g e da kd th ba kb None E1 E2 HRp HLf HE (or_introl HO2) H1 H2) as (E & _ & _ & _ & _ & H & _).
    exists E. exact H.
  Qed.
End Finish.

(** ---- when structures fit: a check that can be computed ---- *)
Definition shape_ok (x : prepared) : bool :=
  let u := pp_unit x in let s := pp_super x in let ar := pp_arg x in
  match a_pbc ar, a_enl ar, c_xyz u, c_true u, c_xyz s, c_type s, c_cart s, c_cart u, c_lat s, c_mass u with
  | Some pbc, Some enl, Some uxyz, Some tr, Some sxyz, Some sty, Some scart, Some ucart, Some _, Some ms =>
      match enlarge enl pbc with
      | Ok E =>
          (Nat.eqb (length ms) (length uxyz) && negb (Nat.eqb (length uxyz) 0) && (length uxyz <=? 3 * length tr)
           && forallb (fun a => match np_index (length ucart) a with Ok i => i <? length ucart | Err _ => false end) uxyz
           && forallb (fun sa => match np_index (length scart) (snd sa), np_index (3 * length sty) (snd sa * 3 + Z.of_nat (fst sa mod 3)) with
                                 | Ok i, Ok _ => (i <? length scart) && (fst sa / (Z.to_nat E * 3) * 3 + fst sa mod 3 <? length uxyz) | _, _ => false end)
                (combine (seq 0 (length sxyz)) sxyz))%bool
      | Err _ => false
      end
  | _, _, _, _, _, _, _, _, _, _ => false
  end.
Lemma unit_loop_total n ncol axes ucart x row f : row < n -> forall uxyz s2 q D, s2 + length uxyz <= ncol ->
  forallb (fun a => match np_index (length ucart) a with Ok i => i <? length ucart | Err _ => false end) uxyz = true ->
  exists D1, unit_loop n ncol axes q ucart (Ok x) row (Ok f) s2 uxyz D = Ok D1.
Proof.
  intros HR. induction uxyz as [|a r IH]; intros s2 q D HN HF; cbn [unit_loop]; [eexists; reflexivity|]. cbn [forallb length] in *. apply andb_prop in HF. destruct HF as [H1 H2].
  cbn [bind]. destruct (np_index (length ucart) a) as [i|]; [|discriminate]. cbn [bind]. apply Nat.ltb_lt in H1.
  unfold py_nth. destruct (nth_error ucart i) as [y|] eqn:E; [|apply nth_error_None in E; lia]. cbn [of_option bind].
  destruct (n <=? row) eqn:E2; [apply Nat.leb_le in E2; lia|]. destruct (ncol <=? s2) eqn:E3; [apply Nat.leb_le in E3; lia|]. apply IH; [lia|exact H2].
Qed.
Lemma super_loop_total n nrow ncol E axes scart ucart fc uxyz : length uxyz <= ncol ->
  forallb (fun a => match np_index (length ucart) a with Ok i => i <? length ucart | Err _ => false end) uxyz = true ->
  forall sxyz s1 q D, forallb (fun sa => match np_index (length scart) (snd sa), np_index nrow (snd sa * 3 + Z.of_nat (fst sa mod 3)) with
                                 | Ok i, Ok _ => (i <? length scart) && (fst sa / (E * 3) * 3 + fst sa mod 3 <? n) | _, _ => false end)
                (combine (seq s1 (length sxyz)) sxyz) = true ->
  exists D1, super_loop n nrow ncol E axes q scart ucart fc uxyz s1 sxyz D = Ok D1.
Proof.
  intros HN HU. induction sxyz as [|a r IH]; intros s1 q D H; cbn [super_loop]; [eexists; reflexivity|].
  change (combine (seq s1 (length (a :: r))) (a :: r)) with ((s1, a) :: combine (seq (S s1) (length r)) r) in H. cbn [forallb] in H. apply andb_prop in H. destruct H as [H1 H2].
  cbn [fst snd] in H1. destruct (np_index (length scart) a) as [i|]; [|discriminate]. destruct (np_index nrow (a * 3 + Z.of_nat (s1 mod 3))) as [k|]; [|discriminate].
  apply andb_prop in H1. destruct H1 as [H3 H4]. apply Nat.ltb_lt in H3, H4. cbn [bind].
  unfold py_nth at 1. destruct (nth_error scart i) as [y|] eqn:E2; [|apply nth_error_None in E2; lia]. cbn [of_option].
  destruct (unit_loop_total n ncol axes ucart y _ (fc k) H4 uxyz 0 q D ltac:(lia) HU) as [D1 ->]. cbn [bind]. exact (IH _ _ _ H2).
Qed.
Lemma shape_fits x : shape_ok x = true -> fits x.
Proof.
  unfold shape_ok, fits. intro H.
  destruct (a_pbc (pp_arg x)) as [pbc|] eqn:E1; [|discriminate]. destruct (a_enl (pp_arg x)) as [enl|] eqn:E2; [|discriminate].
  destruct (c_xyz (pp_unit x)) as [uxyz|] eqn:E3; [|discriminate]. destruct (c_true (pp_unit x)) as [tr|] eqn:E4; [|discriminate].
  destruct (c_xyz (pp_super x)) as [sxyz|] eqn:E5; [|discriminate]. destruct (c_type (pp_super x)) as [sty|] eqn:E6; [|discriminate].
  destruct (c_cart (pp_super x)) as [scart|] eqn:E7; [|discriminate]. destruct (c_cart (pp_unit x)) as [ucart|] eqn:E8; [|discriminate].
  destruct (c_lat (pp_super x)) as [SL|] eqn:E9; [|discriminate]. destruct (c_mass (pp_unit x)) as [ms|] eqn:E10; [|discriminate].
  destruct (enlarge enl pbc) as [E|] eqn:EE; [|discriminate].
  apply andb_prop in H. destruct H as [H HS]. apply andb_prop in H. destruct H as [H HU]. apply andb_prop in H. destruct H as [H HN]. apply andb_prop in H. destruct H as [HM HZ].
  apply Nat.eqb_eq in HM. apply Nat.leb_le in HN. split.
  - exists (M3 v3z v3z v3z), (fun _ _ => 0%R).
    unfold dyn_at. cbn [cell_R c_xyz c_true c_type c_cart c_lat c_mass]. rewrite E1, E2. cbn [of_option bind]. rewrite EE. cbn [bind]. rewrite E3, E4, E5, E6, E7, E8, E9, E10. cbn [option_map of_option bind].
    destruct (super_loop_total (length uxyz) (3 * length sty) (3 * length tr) (Z.to_nat E) (pbc_axes pbc (m3R SL)) (map v3R scart) (map v3R ucart) (fun _ _ => 0%R) uxyz HN) with (sxyz := sxyz) (s1 := 0) (q := vmul (V3 0 0 0)%R (M3 (v3z : v3 R) v3z v3z)) (D := fun _ _ : nat => RtoC 0) as [D1 HD].
    + rewrite map_length. exact HU.
    + rewrite !map_length. exact HS.
    + rewrite HD. cbn [bind]. rewrite map_length, HM, Nat.eqb_refl. cbn [negb]. eexists. reflexivity.
  - destruct uxyz as [|c l]; [discriminate HZ|]. exists c, l. reflexivity.
Qed.

(** ---- one atom in a square layer, six force files, both analyses and thermal properties ---- *)
Section Demo.
  Let here : path := ["home"; "me"]%string.
  Let poscar (x y z : string) : string := to_text ["one atom"; "1.0"; "2.5 0 0"; "0 2.5 0"; "0 0 10"; "Si"; "1"; "Cartesian"; x ++ " " ++ y ++ " " ++ z]%string.
  Let moved (k : nat) : string := match k with
    | 0 => poscar "0.27" "0" "5" | 1 => poscar "0.23" "0" "5" | 2 => poscar "0.25" "0.02" "5" | 3 => poscar "0.25" "-0.02" "5" | 4 => poscar "0.25" "0" "5.02" | _ => poscar "0.25" "0" "4.98" end.
  Let dirs : list string := ["d1"; "d2"; "d3"; "d4"; "d5"; "d6"]%string.
  Let forces : string := to_text ["<varray name=""forces"" >"; " <v> 0 0 0 </v>"; "</varray>"]%string.
  Let w : world := mkWorld (fun p =>
    if same_path p (here ++ ["POSCAR"%string]) then Some (poscar "0.25" "0" "5")
    else if same_path p (here ++ ["SUPERCELL"%string]) then Some (poscar "0.25" "0" "5")
    else if same_path p (here ++ ["KPOINTS"%string]) then Some (to_text ["grid"; "0"; "G"; "2 2 1"; "0 0 0"]%string)
    else if same_path p (here ++ ["KPATH"%string]) then Some (to_text ["path"; "10"; "L"; "0 0 0"; "0.5 0 0"]%string)
    else match find (fun kd => same_path p (here ++ [snd kd; "POSCAR"%string])) (combine (seq 0 6) dirs) with
         | Some kd => Some (moved (fst kd))
         | None => if existsb (fun dd => same_path p (here ++ [dd; "vasprun.xml"%string])) dirs then Some forces else None
         end) (fun _ => None).
  Let g (sym : bool) : setting := mkSetting here [("dft_code", VStr "vasp"); ("displacement", VFloat (Q2Qc (1 # 50))); ("enlargement", VStr "1 1 1"); ("periodicity", VStr "1 1 0")]%string sym "POSCAR"%string "SUPERCELL"%string (map (fun s => s ++ "/vasprun.xml")%string dirs) w.
  Let search (u s : cell Qc) (a : args) : result (option (string * list (nat * (v3 Qc * list (v3 Qc))))) := Ok None.
  Let sf (m : fmat Qc) (u s : cell Qc) (a : args) (_ : string -> result (list (v3 Qc))) (_ : list string) : fmat Qc * option err := (m, None).
  Let prep : result prepared := let! x0 := new_process (g false) in settle search sf (g false) x0.
  Let e : env := fun k => VNone.
  Let da : dos_args := mkDosArgs (Q2Qc (1 # 10)) 200 "plain" None None None.
  Let ba : band_args := mkBandArgs "plain" None None.
  Let ok_points (a : args) (f : string) (n : nat) : bool :=
    match w_file w (resolve here f) with
    | Some t => match set_k_points (readlines t) (a_pbc a) with ((ks, _), None) => n <=? length ks | _ => false end
    | None => false
    end.
  Lemma points_of a f n : ok_points a f n = true -> k_points_given (g false) a (VStr f) n.
  Proof.
    unfold ok_points, k_points_given. cbn [g g_world g_cwd]. destruct (w_file w (resolve here f)) as [t|] eqn:E1; [|discriminate].
    destruct (set_k_points (readlines t) (a_pbc a)) as [[ks kind] [er|]] eqn:E2; [discriminate|]. intro H. exists f, t, ks, kind.
    split; [reflexivity|]. split; [exact E1|]. split; [exact E2|]. apply Nat.leb_le. exact H.
  Qed.
  Lemma prep_ok : match prep with Ok x => (shape_ok x && ok_points (pp_arg x) "KPOINTS" 1 && ok_points (pp_arg x) "KPATH" 2 && negb (cluster (pp_arg x)))%bool | Err _ => false end = true.
  Proof. vm_compute. reflexivity. Qed.

  (** The conditions of C98, C99, C100 and C103 hold, and the run leaves these files. *)
  Example both_analyses_example : forall eig argsort junk bad set_text row kname ase,
    (forall n D, length (fst (eig n D)) = n) -> (forall l, length (argsort l) = length l) ->
    exists x, prepared_as search sf (g false) x /\ fits x /\ repeatable sf (g false) /\ labels_fit da /\ orientation_known e /\
    exists E, analyses search sf eig argsort junk bad set_text row kname ase (g false) e (Some (da, VStr "KPOINTS"%string)) (Some [0; 300]%Z) (Some (ba, VStr "KPATH"%string)) None = (E, Ok tt) /\
      map file_of E = ["/home/me/total_dos.dat"; "/home/me/projected_dos.dat"; "dos.png"; "/home/me/thermal_properties.dat"; "thermal_properties.png";
                       "/home/me/band.dat"; "band.png"; "band_dos.png"; "post_process.yaml"]%string.
  Proof.
    intros eig argsort junk bad set_text row kname ase SE SA. pose proof prep_ok as HP. destruct prep as [x|] eqn:EP; [|discriminate].
    apply andb_prop in HP. destruct HP as [HP HC]. apply andb_prop in HP. destruct HP as [HP H3]. apply andb_prop in HP. destruct HP as [H1 H2].
    exists x. split; [exact EP|]. pose proof (shape_fits x H1) as HF. split; [exact HF|]. assert (HR : repeatable sf (g false)) by (intros X; discriminate X). split; [exact HR|].
    split; [exact I|]. assert (HE : orientation_known e) by (intros s Hs; discriminate Hs). split; [exact HE|].
    assert (SG : toR (da_sigma da) <> 0%R).
    { unfold toR, da. cbn [da_sigma]. replace (this (Q2Qc (1 # 10))) with (1 # 10)%Q by (vm_compute; reflexivity). unfold Q2R. cbn [Qnum Qden]. lra. }
    assert (NE : [0; 300]%Z <> []) by discriminate.
    destruct (plain_run_finishes search sf eig argsort junk bad set_text row kname ase SE SA (g false) e x da (VStr "KPOINTS"%string) (Some [0; 300]%Z) ba (VStr "KPATH"%string)
      EP HF HR (points_of _ _ _ H2) (points_of _ _ _ H3) SG eq_refl I I HE NE eq_refl eq_refl I) as [E HE2].
    exists E. split; [exact HE2|].
    destruct (files_of_a_run search sf eig argsort junk bad set_text row kname ase _ _ _ _ _ _ _ HE HE2) as (a & HA & ->). cbv zeta.
    assert (a = pp_arg x) by (pose proof (fresh_arg _ _ _ _ EP) as X; rewrite X in HA; congruence). subst a. unfold dos_names, band_names, gamma_names. destruct (cluster (pp_arg x)); [discriminate HC|].
    vm_compute. reflexivity.
  Qed.
End Demo.
Print Assumptions plain_dos_finishes.
Print Assumptions plain_bands_finish.
Print Assumptions plain_run_finishes.
Print Assumptions both_analyses_example.
