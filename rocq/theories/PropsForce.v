(** Property theorems: force constants (C31, C32, C59) and reciprocal lattice (C33).
    Models: Force.v, Displace.v. *)
From Coq Require Import String Ascii ZArith QArith Qcanon Bool Lia Arith setoid_ring.Field List.
From Verif Require Import Base Field Args Cell Super Displace DisplaceFacts PropsCell Force ForceFacts.
Import ListNotations.
Local Open Scope list_scope.
Local Open Scope nat_scope.

Section Spec.
  Context {A : Type} {F : Fld A}.
  Add Field fld_PF : f_theory.

  (** Forces of a DFT run as a function [law] of the atomic positions.  When a single
      atom k is moved by u from the reference positions [cur], atom s feels
      even(u) - Phi(s,k) u, with an arbitrary even part (residual forces and even
      anharmonic terms). *)
  Definition harmonic (cur : list (v3 A)) (law : list (v3 A) -> list (v3 A)) (Phi : nat -> nat -> m3 A) : Prop :=
    exists even : nat -> nat -> v3 A -> v3 A,
      (forall s k u, even s k (vscale (fopp f1) u) = even s k u) /\
      forall k r u pos, nth_error cur k = Some r -> moved_one cur pos k (vadd r u) ->
        length (law pos) = length cur /\
        forall s, s < length cur -> nth_error (law pos) s = Some (vsub (even s k u) (mvmul (Phi s k) u)).
  (** the DFT output for a displaced structure file *)
  Definition dft (law : list (v3 A) -> list (v3 A)) (o : out A) : result (list (v3 A)) :=
    let! p := of_option EValue (c_cart (o_cell o)) in Ok (law p).
  (** Cartesian component 0, 1, 2; entry of a 3x3 matrix *)
  Definition component (v : v3 A) (i : nat) : A := nth i [vx v; vy v; vz v] f0.
  Definition entry (M : m3 A) (i j : nat) : A := component (nth i [r1 M; r2 M; r3 M] v3z) j.

  Lemma component_vget v i : i < 3 -> vget v i = component v i.
  Proof. destruct i as [|[|[|i]]]; try lia; reflexivity. Qed.

  (** * C31 *)
  Theorem finite_difference_columns :
    forall {file} (read : file -> result (list (v3 A))) (n nsel : nat) (d : A) (m : fmat A) (pairs : list (file * file)),
      length pairs <= 3 * nsel ->
      (forall p, In p pairs -> exists ff fb, read (fst p) = Ok ff /\ read (snd p) = Ok fb /\ length ff = n /\ length fb = n) ->
      exists m', set_force_constant_nosym read n nsel d m (flat_map (fun p => [fst p; snd p]) pairs) = (m', None) /\
        (forall k p ff fb s u v i, nth_error pairs k = Some p -> read (fst p) = Ok ff -> read (snd p) = Ok fb ->
           nth_error ff s = Some u -> nth_error fb s = Some v -> i < 3 ->
           m' (3 * s + i) k = Some (fdiv (fopp (fsub (component u i) (component v i))) (fmul (fmul (fofZ 2) d) (fdiv f1 (fofZ (10 ^ 10)))))) /\
        (forall r c, length pairs <= c -> m' r c = m r c).
  Proof.
    intros file read n nsel d m pairs HL HR.
    assert (FA : Forall (readable read n) pairs) by (apply Forall_forall; exact HR).
    destruct (fd_loop_ok read n (3 * nsel) d pairs FA 0 None m [] HL) as (m' & fw & E & V & U).
    exists m'. rewrite app_nil_r in E. split; [change (2 * 0) with 0 in E; unfold set_force_constant_nosym; unfold unpair in E; rewrite E; reflexivity|].
    split.
    - intros k p ff fb s u v i Hp Rf Rb Hu Hv Hi. change k with (0 + k). rewrite (V k p u v s i ff fb Hp Rf Rb Hu Hv Hi).
      unfold fd. rewrite !component_vget by exact Hi. reflexivity.
    - intros r c Hc. apply U. right. exact Hc.
  Qed.
  (** fewer files than needed: nothing is raised, the other columns keep the
      arbitrary memory of numpy.empty *)
  Theorem missing_force_files_leave_garbage :
    forall {file} (read : file -> result (list (v3 A))) (n nsel : nat) (d : A) (pairs : list (file * file)) (r c : nat),
      length pairs <= c -> c < 3 * nsel ->
      (forall p, In p pairs -> exists ff fb, read (fst p) = Ok ff /\ read (snd p) = Ok fb /\ length ff = n /\ length fb = n) ->
      exists m', set_force_constant_nosym read n nsel d empty_mat (flat_map (fun p => [fst p; snd p]) pairs) = (m', None) /\ m' r c = None.
  Proof.
    intros file read n nsel d pairs r c H1 H2 HR.
    destruct (finite_difference_columns read n nsel d empty_mat pairs ltac:(lia) HR) as (m' & E & _ & U). exists m'. split; [exact E|]. now rewrite U.
  Qed.
  (** If no exception leaves the calculation, every force file was read: an
      unreadable file is never passed over. *)
  Lemma fd_loop_all_read : forall {file} (read : file -> result (list (v3 A))) (nr nc : nat) (d : A) (files : list file) idx fw m m',
      fd_loop read nr nc d idx fw m files = (m', None) -> Forall (fun f => exists v, read f = Ok v) files.
  Proof.
    intros file read nr nc d files. induction files as [|f r IH]; intros idx fw m m' H; [constructor|].
    cbn [fd_loop] in H. destruct (read f) as [v|e] eqn:E; [|discriminate].
    constructor; [now exists v|].
    destruct (Nat.even idx); [exact (IH _ _ _ _ H)|].
    match type of H with match ?X with _ => _ end = _ => destruct X as [m1|e1] end; [|discriminate].
    exact (IH _ _ _ _ H).
  Qed.
  Theorem unreadable_force_file_rejected :
    forall {file} (read : file -> result (list (v3 A))) (n nsel : nat) (d : A) (m m' : fmat A) (files : list file),
      set_force_constant_nosym read n nsel d m files = (m', None) ->
      forall f, In f files -> exists v, read f = Ok v.
  Proof. intros file read n nsel d m m' files H. apply Forall_forall. exact (fd_loop_all_read read _ _ d files _ _ _ _ H). Qed.
  Theorem extra_force_files_rejected :
    forall {file} (read : file -> result (list (v3 A))) (n nsel : nat) (d : A) (m : fmat A) (pairs : list (file * file)) p rest,
      length pairs = 3 * nsel ->
      (forall q, In q (p :: pairs) -> exists ff fb, read (fst q) = Ok ff /\ read (snd q) = Ok fb /\ length ff = n /\ length fb = n) ->
      snd (set_force_constant_nosym read n nsel d m (flat_map (fun q => [fst q; snd q]) (pairs ++ p :: rest))) = Some EIndex.
  Proof.
    intros file read n nsel d m pairs p rest HL HR.
    assert (FA : Forall (readable read n) pairs) by (apply Forall_forall; intros q Hq; apply HR; right; exact Hq).
    destruct (fd_loop_ok read n (3 * nsel) d pairs FA 0 None m (flat_map (fun q => [fst q; snd q]) (p :: rest)) ltac:(cbn; lia)) as (m' & fw & E & _).
    unfold set_force_constant_nosym. rewrite flat_map_app. change (2 * 0) with 0 in E. unfold unpair in E. rewrite E.
    destruct (HR p (or_introl eq_refl)) as (ff & fb & Rf & Rb & Lf & Lb).
    cbn [flat_map app fd_loop]. rewrite Rf, HL. cbn [Nat.add].
    replace (Nat.even (2 * (3 * nsel))) with true by (symmetry; apply Nat.even_spec; exists (3 * nsel); lia).
    rewrite Rb. rewrite Nat.even_succ, <- Nat.negb_even.
    replace (Nat.even (2 * (3 * nsel))) with true by (symmetry; apply Nat.even_spec; exists (3 * nsel); lia). cbn [negb of_option bind].
    rewrite np_sub_ok by congruence. cbn [bind]. unfold set_column.
    rewrite map_length, flatten_length, map_length, combine_length, Lf, Lb, Nat.min_id, Nat.eqb_refl. cbn [negb].
    replace (S (2 * (3 * nsel)) / 2) with (3 * nsel) by (replace (S (2 * (3 * nsel))) with (1 + 3 * nsel * 2) by lia; rewrite Nat.div_add by lia; reflexivity).
    rewrite Nat.leb_refl. reflexivity.
  Qed.

  Lemma pair_up {B} (l : list B) P : length l = 2 * P ->
    exists pairs, l = flat_map (fun p => [fst p; snd p]) pairs /\ length pairs = P /\
      forall k p, nth_error pairs k = Some p -> nth_error l (2 * k) = Some (fst p) /\ nth_error l (2 * k + 1) = Some (snd p).
  Proof.
    revert l; induction P as [|P IH]; intros l H.
    - destruct l; [|discriminate]. exists []. split; [reflexivity|]. split; [reflexivity|]. intros k p Hk. destruct k; discriminate Hk.
    - destruct l as [|a [|b l]]; cbn in H; try lia. destruct (IH l ltac:(lia)) as (ps & -> & L & V).
      exists ((a, b) :: ps). split; [reflexivity|]. split; [cbn; lia|]. intros [|k] p Hk.
      + cbn in Hk. injection Hk as <-. auto.
      + cbn in Hk. destruct (V k p Hk) as (V1 & V2). replace (2 * S k) with (S (S (2 * k))) by lia. cbn. auto.
  Qed.
  Lemma harmonic_difference cur law Phi k r e d pf pb ff fb : harmonic cur law Phi -> nth_error cur k = Some r ->
    moved_one cur pf k (vadd r (vscale d e)) -> moved_one cur pb k (vsub r (vscale d e)) ->
    law pf = ff -> law pb = fb ->
    length ff = length cur /\ length fb = length cur /\
    forall s u v, nth_error ff s = Some u -> nth_error fb s = Some v -> vsub u v = vscale (fopp (fmul (fofZ 2) d)) (mvmul (Phi s k) e).
  Proof.
    intros (ev & Hev & HL) Hr Mf Mb <- <-.
    destruct (HL k r (vscale d e) pf Hr Mf) as (L1 & V1).
    assert (Mb' : moved_one cur pb k (vadd r (vscale (fopp f1) (vscale d e)))).
    { replace (vadd r (vscale (fopp f1) (vscale d e))) with (vsub r (vscale d e)) by (clear; vring_gen). exact Mb. }
    destruct (HL k r _ pb Hr Mb') as (L2 & V2). split; [exact L1|]. split; [exact L2|].
    intros s u v Hu Hv. assert (Hs : s < length cur) by (rewrite <- L1; apply nth_error_Some; congruence).
    rewrite (V1 s Hs) in Hu. rewrite (V2 s Hs) in Hv. injection Hu as <-. injection Hv as <-. rewrite Hev.
    assert (T : (fofZ 2 : A) = fadd f1 f1) by (change 2%Z with (1 + 1)%Z; now rewrite fofZ_add, fofZ_1). rewrite T.
    generalize (ev s k (vscale d e)) as x, (Phi s k) as P. clear. intros x P. vring_gen.
  Qed.

  (** From displaced structures through any harmonic force law to exact force
      constants (per metre: divided by 1e-10). *)
  Theorem harmonic_force_constants_exact :
    forall (u s : cell A) (ar : args) (cur : list (v3 A)) (E n : nat) (d : A) (tr : list Z) law Phi,
      ready s ar cur E n -> c_true u = Some tr -> Forall (fun a => 0 <= a < Z.of_nat n)%Z tr ->
      d <> f0 -> harmonic cur law Phi ->
      exists s' files m', write_displace_nosym u s ar (Some d) = Ok (s', files) /\
        set_force_constant_nosym (dft law) (length cur) (length tr) d empty_mat files = (m', None) /\
        forall i a j al t, nth_error tr i = Some a -> j < 3 -> al < 3 -> t < length cur ->
          m' (3 * t + al) (3 * i + j) = Some (fdiv (entry (Phi t (E * Z.to_nat a)) al j) (fdiv f1 (fofZ (10 ^ 10)))).
  Proof.
    intros u s ar cur E n d tr law Phi HR Ht HF Hd HP.
    destruct (displaced_files_without_symmetry u s ar cur E n d tr HR Ht HF) as (s' & files & W & Lf & V).
    destruct (pair_up files (3 * length tr) ltac:(lia)) as (pairs & Ef & Lp & VP).
    set (unit3 := [V3 f1 f0 f0; V3 f0 f1 f0; V3 f0 f0 f1] : list (v3 A)).
    assert (K : forall k p, nth_error pairs k = Some p -> exists i j a r dir pf pb,
       k = 3 * i + j /\ j < 3 /\ nth_error tr i = Some a /\ nth_error cur (E * Z.to_nat a) = Some r /\ nth_error unit3 j = Some dir /\
       dft law (fst p) = Ok (law pf) /\ dft law (snd p) = Ok (law pb) /\
       moved_one cur pf (E * Z.to_nat a) (vadd r (vscale d dir)) /\ moved_one cur pb (E * Z.to_nat a) (vsub r (vscale d dir))).
    { intros k p Hk. assert (Hlt : k < 3 * length tr) by (rewrite <- Lp; apply nth_error_Some; congruence).
      pose proof (Nat.div_mod k 3 ltac:(lia)) as DM. pose proof (Nat.mod_upper_bound k 3 ltac:(lia)) as MB.
      set (i := k / 3) in *. set (j := k mod 3) in *. clearbody i j.
      destruct (nth_error tr i) as [a|] eqn:Ea; [|apply nth_error_None in Ea; nia].
      assert (Ha : E * Z.to_nat a < length cur).
      { pose proof (rd_len _ _ _ _ _ HR). pose proof (rd_pos _ _ _ _ _ HR). rewrite Forall_forall in HF. specialize (HF a (nth_error_In _ _ Ea)). assert (Z.to_nat a < n) by lia. nia. }
      destruct (nth_error cur (E * Z.to_nat a)) as [r|] eqn:Er; [|apply nth_error_None in Er; lia].
      destruct (nth_error unit3 j) as [dir|] eqn:Ed; [|apply nth_error_None in Ed; cbn in Ed; lia].
      destruct (V i a j Ea MB r dir Er Ed) as (ff & fb & pf & pb & B1 & B2 & _ & _ & _ & _ & B3 & B4 & B5 & B6).
      destruct (VP k p Hk) as (C1 & C2). replace (2 * k) with (6 * i + 2 * j) in * by lia.
      assert (fst p = ff) by congruence. assert (snd p = fb) by congruence.
      exists i, j, a, r, dir, pf, pb. repeat split; try assumption; try lia.
      - unfold dft. rewrite H, B3. reflexivity.
      - unfold dft. rewrite H0, B4. reflexivity. 
      - apply B5. - apply B5. - apply B5. - apply B6. - apply B6. - apply B6. }
    assert (KD : forall k p i j a r dir pf pb, nth_error pairs k = Some p -> nth_error cur (E * Z.to_nat a) = Some r ->
       dft law (fst p) = Ok (law pf) -> dft law (snd p) = Ok (law pb) ->
       moved_one cur pf (E * Z.to_nat a) (vadd r (vscale d dir)) -> moved_one cur pb (E * Z.to_nat a) (vsub r (vscale d dir)) ->
       nth_error unit3 j = Some dir -> nth_error tr i = Some a ->
       length (law pf) = length cur /\ length (law pb) = length cur /\
       forall s u v, nth_error (law pf) s = Some u -> nth_error (law pb) s = Some v -> vsub u v = vscale (fopp (fmul (fofZ 2) d)) (mvmul (Phi s (E * Z.to_nat a)) dir)).
    { intros. eapply harmonic_difference; eauto. }
    destruct (finite_difference_columns (dft law) (length cur) (length tr) d empty_mat pairs ltac:(lia)) as (m' & EM & VM & _).
    { intros p Hp. apply In_nth_error in Hp. destruct Hp as (k & Hk). destruct (K k p Hk) as (i & j & a & r & dir & pf & pb & Q0 & Q1 & Q2 & Q3 & Q4 & Q5 & Q6 & Q7 & Q8).
      destruct (KD k p i j a r dir pf pb Hk Q3 Q5 Q6 Q7 Q8 Q4 Q2) as (X1 & X2 & _). eauto 8. }
    exists s', files, m'. split; [exact W|]. split; [rewrite Ef; exact EM|].
    intros i a j al t Hi Hj Hal Hs.
    assert (Hlt : 3 * i + j < length pairs) by (rewrite Lp; assert (i < length tr) by (apply nth_error_Some; congruence); lia).
    destruct (nth_error pairs (3 * i + j)) as [p|] eqn:Ep; [|apply nth_error_None in Ep; lia].
    destruct (K _ p Ep) as (i' & j' & a' & r & dir & pf & pb & Q0 & Q1 & Q2 & Q3 & Q4 & Q5 & Q6 & Q7 & Q8).
    assert (i' = i) by lia. assert (j' = j) by lia. subst i' j'. assert (a' = a) by congruence. subst a'.
    destruct (KD _ p i j a r dir pf pb Ep Q3 Q5 Q6 Q7 Q8 Q4 Q2) as (X1 & X2 & X3).
    destruct (nth_error (law pf) t) as [u1|] eqn:U1; [|apply nth_error_None in U1; lia].
    destruct (nth_error (law pb) t) as [v1|] eqn:V1; [|apply nth_error_None in V1; lia].
    rewrite (VM _ p _ _ t u1 v1 al Ep Q5 Q6 U1 V1 Hal). f_equal.
    pose proof (X3 t u1 v1 U1 V1) as X. 
    assert (CX : fsub (component u1 al) (component v1 al) = component (vsub u1 v1) al).
    { destruct al as [|[|[|al]]]; try lia; reflexivity. }
    rewrite CX, X. pose proof (fofZ_ne 2%Z ltac:(discriminate)) as N2. pose proof (angstrom_ne (A := A)) as NA. unfold angstrom in NA.
    assert (CE : component (vscale (fopp (fmul (fofZ 2) d)) (mvmul (Phi t (E * Z.to_nat a)) dir)) al = fmul (fopp (fmul (fofZ 2) d)) (entry (Phi t (E * Z.to_nat a)) al j)).
    { generalize (Phi t (E * Z.to_nat a)) as P. intros [[a1 b1 c1] [a2 b2 c2] [a3 b3 c3]]. clear - Q4 Hal Hj.
      destruct j as [|[|[|j]]]; try lia; cbn in Q4; injection Q4 as <-; (destruct al as [|[|[|al]]]; [| | |lia]);
        cbv beta iota zeta delta [component entry nth vscale mvmul vdot vx vy vz r1 r2 r3]; ring. }
    rewrite CE. field. repeat split; try assumption; first [exact f_1_neq_0 | apply fofZ_ne; discriminate].
  Qed.

  (** * C32 *)
  (** What "the operation is a symmetry of the force field" means: [img] maps the
      position k of every selected supercell atom st[k] to the position of its image,
      the operation has Cartesian matrix W and carries unit-cell atom number r (of the
      selection) to r'; rotated force constants are force constants of the images. *)
  Definition symmetric_under (st img : list nat) (W : m3 A) (Phi : nat -> nat -> m3 A) (r r' : nat) : Prop :=
    length img = length st /\ NoDup img /\ Forall (fun v => v < length st) img /\
    forall k v s t, nth_error img k = Some v -> nth_error st k = Some s -> nth_error st v = Some t ->
      mmul W (Phi s r) = mmul (Phi t r') W.
  (** Directions used for required atom number [i] (atom [r]): images of the seed u0
      under operations of the force field that fix r, completed by [adds] to three
      independent vectors. *)
  Definition independent_directions (sd : symdata A) (st : list nat) Phi (i r : nat) (u0 : v3 A) (adds : list (v3 A)) : Prop :=
    exists wi wc e1 e2 e3,
      nth_error (sd_W_index sd) i = Some wi /\ nth_error (sd_W_cart sd) i = Some wc /\ length wi = length wc /\ wc <> [] /\
      nth_error (sd_single sd) i = Some (map (fun W => mvmul W u0) wc) /\ nth_error (sd_additional sd) i = Some adds /\
      map (fun W => mvmul W u0) wc ++ adds = [e1; e2; e3] /\ det (M3 e1 e2 e3) <> f0 /\
      forall w W, In (w, W) (combine wi wc) -> exists per img,
        nth_error (sd_same_super sd) w = Some per /\ nth_error per r = Some img /\ symmetric_under st img W Phi r r.
  (** A derived atom [nr] with recorded operation [pg] is carried to a required atom. *)
  Definition derived_from_required (sd : symdata A) (st : list nat) (L : m3 A) (norms : v3 A) Phi (pg nr : nat) : Prop :=
    ~ In nr (sd_require sd) /\
    exists W per img same s0 g, nth_error (sd_W sd) pg = Some W /\ nth_error (sd_same_super sd) pg = Some per /\ nth_error per nr = Some img /\
      nth_error (sd_same_index sd) pg = Some same /\ nth_error same 0 = Some s0 /\ nth_error s0 nr = Some g /\ In g (sd_require sd) /\
      det (cart_op L norms W) <> f0 /\ symmetric_under st img (cart_op L norms W) Phi nr g.

  Lemma block_entry (m : fmat A) s c M i j : block_of m s c = Some M -> i < 3 -> j < 3 -> m (3 * s + i) (3 * c + j) = Some (entry M i j).
  Proof.
    intros H Hi Hj. unfold block_of in H.
    destruct (m (3 * s + 0) (3 * c + 0)) eqn:E00; [|discriminate]. destruct (m (3 * s + 0) (3 * c + 1)) eqn:E01; [|discriminate].
    destruct (m (3 * s + 0) (3 * c + 2)) eqn:E02; [|discriminate]. destruct (m (3 * s + 1) (3 * c + 0)) eqn:E10; [|discriminate].
    destruct (m (3 * s + 1) (3 * c + 1)) eqn:E11; [|discriminate]. destruct (m (3 * s + 1) (3 * c + 2)) eqn:E12; [|discriminate].
    destruct (m (3 * s + 2) (3 * c + 0)) eqn:E20; [|discriminate]. destruct (m (3 * s + 2) (3 * c + 1)) eqn:E21; [|discriminate].
    destruct (m (3 * s + 2) (3 * c + 2)) eqn:E22; [|discriminate]. injection H as <-.
    destruct i as [|[|[|i]]]; [| | |lia]; (destruct j as [|[|[|j]]]; [| | |lia]); assumption.
  Qed.

  Theorem symmetry_force_constants_exact :
    forall {file} (read : file -> result (list (v3 A))) (n nsel : nat) (st : list nat) (sd : symdata A) (L : m3 A) (norms : v3 A) (d : A) (m : fmat A)
           (Phi : nat -> nat -> m3 A) (groups : list (list (file * file))),
      d <> f0 -> det (to_cart L norms) <> f0 -> NoDup st -> Forall (fun s => s < n) st ->
      length groups = length (sd_require sd) ->
      (forall i r ps, nth_error (sd_require sd) i = Some r -> nth_error groups i = Some ps ->
         r < nsel /\ exists u0 adds, independent_directions sd st Phi i r u0 adds /\
           Forall2 (fun e p => exists ff fb, read (fst p) = Ok ff /\ read (snd p) = Ok fb /\ length ff = n /\ length fb = n /\
              forall s u v, In s st -> nth_error ff s = Some u -> nth_error fb s = Some v ->
                vsub u v = vscale (fopp (fmul (fofZ 2) d)) (mvmul (Phi s r) e)) (u0 :: adds) ps) ->
      Forall (fun '(pg, nr) => derived_from_required sd st L norms Phi pg nr) (combine (sd_pgi sd) (sd_not_require sd)) ->
      length (sd_pgi sd) = length (sd_not_require sd) ->
      exists m', set_force_constant_sym read n nsel st sd L norms d m (flat_map (fun p => [fst p; snd p]) (concat groups)) = (m', None) /\
        forall r s i j, In r (sd_require sd) \/ In r (sd_not_require sd) -> In s st -> i < 3 -> j < 3 ->
          m' (3 * s + i) (3 * r + j) = Some (fdiv (entry (Phi s r) i j) (fdiv f1 (fofZ (10 ^ 10)))).
  Proof.
    intros file read n nsel st sd L norms d m Phi groups Hd HL ND HS Lg HG HDr Lpg.
    destruct (require_loop_ok read n st Phi d ND HS Hd nsel sd [] (sd_require sd) 0 groups m Lg) as (m1 & E1 & V1 & _).
    { intros j r ps Hr Hps. destruct (HG j r ps Hr Hps) as (Hlt & u0 & adds & (wi & wc & e1 & e2 & e3 & A1 & A2 & A3 & A4 & A5 & A6 & A7 & A8 & A9) & FP).
      split; [exact Hlt|]. exists u0, adds. split.
      - exists wi, wc, e1, e2, e3. repeat (split; [assumption|]). split; [|exact A9]. rewrite det_transpose. exact A8.
      - clear - FP. induction FP as [|e p es ps (ff & fb & R1 & R2 & L1 & L2 & D) FP IH]; constructor; [|exact IH].
        exists ff, fb. split; [exact R1|]. split; [exact R2|]. split; [exact L1|]. split; [exact L2|]. exact D. }
    rewrite app_nil_r in E1.
    destruct (derive_loop_ok n st Phi ND sd L norms (sd_require sd) (combine (sd_pgi sd) (sd_not_require sd)) m1) as (m' & E & V & _).
    { apply Forall_forall. intros [pg nr] Hin. rewrite Forall_forall in HDr. exact (HDr _ Hin). }
    { exact V1. }
    exists m'. split.
    - unfold set_force_constant_sym. unfold unpair in E1. rewrite E1. destruct (f_dec (det (to_cart L norms)) f0) as [Z|_]; [contradiction|]. exact E.
    - intros r s i j Hr Hs Hi Hj.
      assert (Hr' : In r (sd_require sd) \/ In r (map snd (combine (sd_pgi sd) (sd_not_require sd)))).
      { destruct Hr as [Hr|Hr]; [left; exact Hr|right].
        assert (M : map snd (combine (sd_pgi sd) (sd_not_require sd)) = sd_not_require sd).
        { clear - Lpg. revert Lpg. generalize (sd_pgi sd) (sd_not_require sd). induction l as [|x l IH]; intros [|y l'] E; try discriminate; [reflexivity|]. cbn. f_equal. apply IH. now injection E. }
        rewrite M. exact Hr. }
      pose proof (V r s Hr' Hs) as B. rewrite (block_entry _ _ _ _ i j B Hi Hj). f_equal.
      assert (EE : entry (mscale (finv angstrom) (Phi s r)) i j = fmul (finv angstrom) (entry (Phi s r) i j)).
      { generalize (Phi s r). intros [[a1 b1 c1] [a2 b2 c2] [a3 b3 c3]]. destruct i as [|[|[|i]]]; [| | |lia]; (destruct j as [|[|[|j]]]; [| | |lia]); reflexivity. }
      rewrite EE. rewrite (Fdiv_def f_theory). fold (angstrom (A := A)). ring.
  Qed.


  Lemma group_up {B} (lens : list nat) : forall l : list B, length l = list_sum lens ->
    exists gs, concat gs = l /\ length gs = length lens /\
      forall t g k, nth_error gs t = Some g -> nth_error lens t = Some k -> length g = k /\
        forall j, j < k -> nth_error g j = nth_error l (list_sum (firstn t lens) + j).
  Proof.
    induction lens as [|k lens IH]; intros l H.
    - destruct l; [|discriminate]. exists []. split; [reflexivity|]. split; [reflexivity|]. intros t g k Ht. destruct t; discriminate Ht.
    - change (list_sum (k :: lens)) with (k + list_sum lens) in H.
      destruct (IH (skipn k l)) as (gs & E & L & V); [rewrite skipn_length; lia|].
      exists (firstn k l :: gs). split; [cbn; rewrite E; apply firstn_skipn|]. split; [cbn; lia|].
      intros [|t] g k' Hg Hk; cbn in Hg, Hk.
      + injection Hg as <-. injection Hk as <-. split; [rewrite firstn_length; lia|]. intros j Hj. cbn [firstn list_sum fold_right Nat.add].
        rewrite <- (firstn_skipn k l) at 2. rewrite nth_error_app1 by (rewrite firstn_length; lia). reflexivity.
      + destruct (V t g k' Hg Hk) as (V1 & V2). split; [exact V1|]. intros j Hj. rewrite V2 by exact Hj.
        change (firstn (S t) (k :: lens)) with (k :: firstn t lens).
        change (list_sum (k :: firstn t lens)) with (k + list_sum (firstn t lens)).
        rewrite <- (firstn_skipn k l) at 2. rewrite nth_error_app2 by (rewrite firstn_length; lia). rewrite firstn_length. f_equal. lia.
  Qed.

  (** The whole symmetry pipeline: displaced structures for the required atoms only,
      any harmonic force law symmetric under the operations used, then the
      force constants of all atoms. *)
  Theorem symmetry_pipeline_exact :
    forall (u s : cell A) (ar : args) (cur : list (v3 A)) (E nu : nat) (d : A) (tr : list Z) law (PhiS : nat -> nat -> m3 A)
           (req : list (nat * (v3 A * list (v3 A)))) (sd : symdata A) (st : list nat) (L : m3 A) (norms : v3 A),
      ready s ar cur E nu -> c_true u = Some tr -> Forall (fun a => 0 <= a < Z.of_nat nu)%Z tr ->
      d <> f0 -> harmonic cur law PhiS -> det (to_cart L norms) <> f0 ->
      NoDup st -> Forall (fun t => t < length cur) st ->
      let Phi t r := PhiS t (E * Z.to_nat (nth r tr 0%Z)) in
      sd_require sd = map fst req ->
      (forall i r u0 adds, nth_error req i = Some (r, (u0, adds)) -> r < length tr /\ independent_directions sd st Phi i r u0 adds) ->
      Forall (fun '(pg, nr) => derived_from_required sd st L norms Phi pg nr) (combine (sd_pgi sd) (sd_not_require sd)) ->
      length (sd_pgi sd) = length (sd_not_require sd) ->
      exists s' files m', write_displace_sym u s ar (Some d) req = Ok (s', files) /\
        set_force_constant_sym (dft law) (length cur) (length tr) st sd L norms d empty_mat files = (m', None) /\
        forall r t i j, In r (sd_require sd) \/ In r (sd_not_require sd) -> In t st -> i < 3 -> j < 3 ->
          m' (3 * t + i) (3 * r + j) = Some (fdiv (entry (Phi t r) i j) (fdiv f1 (fofZ (10 ^ 10)))).
  Proof.
    intros u s ar cur E nu d tr law PhiS req sd st L norms HR Ht HF Hd HP HLn ND HS Phi HQ HD HDr Lpg.
    assert (HQl : Forall (fun '(k, _) => k < length tr) req).
    { apply Forall_forall. intros [k [u0 adds]] Hin. apply In_nth_error in Hin. destruct Hin as (i & Hi). now apply (HD i k u0 adds). }
    destruct (displaced_files_with_symmetry u s ar cur E nu d tr req HR Ht HF HQl) as (s' & files & W & Lf & _ & V).
    destruct (pair_up files _ Lf) as (pairs & Ef & Lp & VP).
    destruct (group_up _ pairs Lp) as (groups & Eg & Lg & VG). rewrite map_length in Lg.
    destruct (symmetry_force_constants_exact (dft law) (length cur) (length tr) st sd L norms d empty_mat Phi groups Hd HLn ND HS) as (m' & EM & VM).
    { rewrite HQ, map_length. exact Lg. }
    { intros i r ps Hr Hps. rewrite HQ, nth_error_map in Hr. destruct (nth_error req i) as [[r' [u0 adds]]|] eqn:Eq; [|discriminate]. cbn in Hr. injection Hr as ->.
      destruct (HD i r u0 adds Eq) as (Hlt & HI). split; [exact Hlt|]. exists u0, adds. split; [exact HI|].
      destruct (VG i ps (S (length adds)) Hps) as (Lps & VPs).
      { rewrite nth_error_map, Eq. reflexivity. }
      destruct (nth_error tr r) as [a|] eqn:Ea; [|apply nth_error_None in Ea; lia].
      assert (Ha : E * Z.to_nat a < length cur).
      { pose proof (rd_len _ _ _ _ _ HR). pose proof (rd_pos _ _ _ _ _ HR). rewrite Forall_forall in HF. specialize (HF a (nth_error_In _ _ Ea)). assert (Z.to_nat a < nu) by lia. nia. }
      destruct (nth_error cur (E * Z.to_nat a)) as [x|] eqn:Ex; [|apply nth_error_None in Ex; lia].
      assert (Nr : nth r tr 0%Z = a) by (apply nth_error_nth; exact Ea).
      (* pointwise *)
      assert (PW : forall j e p, nth_error (u0 :: adds) j = Some e -> nth_error ps j = Some p ->
        exists ff fb, dft law (fst p) = Ok ff /\ dft law (snd p) = Ok fb /\ length ff = length cur /\ length fb = length cur /\
          forall s u v, In s st -> nth_error ff s = Some u -> nth_error fb s = Some v -> vsub u v = vscale (fopp (fmul (fofZ 2) d)) (mvmul (Phi s r) e)).
      { intros j e p He Hp. assert (Hj : j < S (length adds)) by (rewrite <- Lps; apply nth_error_Some; congruence).
        rewrite VPs in Hp by exact Hj. rewrite firstn_map in Hp.
        destruct (V i r u0 adds a j e x Eq Ea He Ex) as (ff & fb & pf & pb & B1 & B2 & _ & _ & B3 & B4 & B5 & B6).
        destruct (VP _ p Hp) as (C1 & C2). rewrite C1 in B1. rewrite C2 in B2. injection B1 as B1. injection B2 as B2.
        exists (law pf), (law pb).
        destruct (harmonic_difference cur law PhiS (E * Z.to_nat a) x e d pf pb _ _ HP Ex B5 B6 eq_refl eq_refl) as (D1 & D2 & D3).
        split; [unfold dft; rewrite B1, B3; reflexivity|]. split; [unfold dft; rewrite B2, B4; reflexivity|].
        split; [exact D1|]. split; [exact D2|]. intros t u1 v1 _ Hu Hv. unfold Phi. rewrite Nr. now apply D3. }
      clear - PW Lps. assert (Ll : length (u0 :: adds) = length ps) by (symmetry; exact Lps).
      revert PW Ll. generalize (u0 :: adds). clear. revert ps. induction ps as [|p ps IH]; intros [|e es] PW Ll; try discriminate; constructor.
      - apply (PW 0 e p); reflexivity.
      - apply IH; [|now injection Ll]. intros j e' p' He Hp. apply (PW (S j)); assumption. }
    { exact HDr. }
    { exact Lpg. }
    exists s', files, m'. split; [exact W|]. split; [|exact VM]. rewrite Ef, <- Eg. exact EM.
  Qed.

  (** * C33 *)
  Theorem reciprocal_lattice_dual : forall (pi : A) (L : m3 A), det L <> f0 ->
    let B := reciprocal pi L in
    let tau := fmul (fofZ 2) pi in
    vdot (r1 L) (r1 B) = tau /\ vdot (r1 L) (r2 B) = f0 /\ vdot (r1 L) (r3 B) = f0 /\
    vdot (r2 L) (r1 B) = f0 /\ vdot (r2 L) (r2 B) = tau /\ vdot (r2 L) (r3 B) = f0 /\
    vdot (r3 L) (r1 B) = f0 /\ vdot (r3 L) (r2 B) = f0 /\ vdot (r3 L) (r3 B) = tau.
  Proof.
    intros pi [[a1 b1 c1] [a2 b2 c2] [a3 b3 c3]] H. cbv beta iota zeta delta [det reciprocal vdot vcross vx vy vz r1 r2 r3] in *.
    repeat split; field; exact H.
  Qed.

  (** * The hypothesis [harmonic] is met for every table of force constants: the force
      law of coupled springs. *)
  Fixpoint vsum (l : list (v3 A)) : v3 A := match l with [] => v3z | v :: r => vadd v (vsum r) end.
  Definition spring_law (cur : list (v3 A)) (Phi : nat -> nat -> m3 A) (pos : list (v3 A)) : list (v3 A) :=
    map (fun s => vsum (map (fun k => mvmul (Phi s k) (vsub (nth k cur v3z) (nth k pos v3z))) (seq 0 (length cur)))) (seq 0 (length cur)).
  Lemma vsum_single (g : nat -> v3 A) k : forall l, NoDup l -> In k l -> (forall j, In j l -> j <> k -> g j = v3z) -> vsum (map g l) = g k.
  Proof.
    induction l as [|x l IH]; intros ND HI HZ; [destruct HI|]. inversion ND as [|? ? N1 N2]; subst. cbn [map vsum].
    destruct HI as [->|HI].
    - assert (Z : vsum (map g l) = v3z).
      { assert (forall j, In j l -> g j = v3z) as G by (intros j Hj; apply HZ; [right; exact Hj|intros ->; contradiction]).
        clear - G. induction l as [|y l IH]; [reflexivity|]. cbn [map vsum]. rewrite G by now left. rewrite IH by (intros; apply G; now right). vring_gen. }
      rewrite Z. generalize (g k) as x. clear. intros x. vring_gen.
    - rewrite (HZ x (or_introl eq_refl)) by (intros ->; contradiction). rewrite IH; [|exact N2|exact HI|intros; apply HZ; [now right|assumption]].
      generalize (g k) as y. clear. intros y. vring_gen.
  Qed.
  Theorem every_spring_law_is_harmonic : forall cur Phi, harmonic cur (spring_law cur Phi) Phi.
  Proof.
    intros cur Phi. exists (fun _ _ _ => v3z). split; [reflexivity|]. intros k r u pos Hr (Lp & Hk & Ho).
    split; [unfold spring_law; now rewrite map_length, seq_length|]. intros s Hs.
    assert (Hkl : k < length cur) by (apply nth_error_Some; congruence).
    unfold spring_law. rewrite nth_error_map, (nth_error_nth' _ 0) by (rewrite seq_length; exact Hs). rewrite seq_nth by exact Hs. cbn [option_map Nat.add]. f_equal.
    rewrite (vsum_single _ k).
    - rewrite (nth_error_nth _ _ _ Hr), (nth_error_nth _ _ _ Hk). generalize (Phi s k) as P. clear. intros P. vring_gen.
    - apply seq_NoDup.
    - apply in_seq. lia.
    - intros j Hj Hne. assert (E : nth j pos v3z = nth j cur v3z).
      { specialize (Ho j Hne). apply in_seq in Hj. rewrite (nth_error_nth' cur v3z) in Ho by lia. exact (nth_error_nth _ _ _ Ho). }
      rewrite E. generalize (nth j cur v3z) as x, (Phi s j) as P. clear. intros x P. vring_gen.
  Qed.

  (** * C59: Cartesian form of an operation given in direct coordinates.
      The operation sends the point with direct coordinates x (position x L) to the
      point with direct coordinates W x.  The matrix used for deriving forces represents
      it exactly when W does not mix lattice vectors of different length. *)
  Definition represents (L W M : m3 A) : Prop := forall x, mvmul M (vmul x L) = vmul (mvmul W x) L.
  Definition diag3 (n : v3 A) : m3 A := M3 (V3 (vx n) f0 f0) (V3 f0 (vy n) f0) (V3 f0 f0 (vz n)).
  Lemma mvmul_ext (M N : m3 A) : (forall x, mvmul M x = mvmul N x) -> M = N.
  Proof.
    intros H. pose proof (H (V3 f1 f0 f0)) as H1. pose proof (H (V3 f0 f1 f0)) as H2. pose proof (H (V3 f0 f0 f1)) as H3.
    destruct M as [[a1 b1 c1] [a2 b2 c2] [a3 b3 c3]], N as [[a1' b1' c1'] [a2' b2' c2'] [a3' b3' c3']].
    cbv beta iota zeta delta [mvmul vdot vx vy vz r1 r2 r3] in H1, H2, H3.
    injection H1 as X1 X2 X3. injection H2 as Y1 Y2 Y3. injection H3 as Z1 Z2 Z3.
    ring_simplify in X1. ring_simplify in X2. ring_simplify in X3. ring_simplify in Y1. ring_simplify in Y2. ring_simplify in Y3. ring_simplify in Z1. ring_simplify in Z2. ring_simplify in Z3. congruence.
  Qed.
  Lemma represents_iff L W M : represents L W M <-> mmul M (transpose L) = mmul (transpose L) W.
  Proof.
    assert (E1 : forall x, mvmul M (vmul x L) = mvmul (mmul M (transpose L)) x) by (intros x; clear; vring_gen).
    assert (E2 : forall x, vmul (mvmul W x) L = mvmul (mmul (transpose L) W) x) by (intros x; clear; vring_gen).
    unfold represents. split.
    - intros H. apply mvmul_ext. intros x. now rewrite <- E1, <- E2.
    - intros H x. now rewrite E1, E2, H.
  Qed.
  Lemma to_cart_diag L n : to_cart L n = mmul (transpose L) (diag3 (V3 (finv (vx n)) (finv (vy n)) (finv (vz n)))).
  Proof. unfold to_cart, diag3. clear. destruct n as [x y z]. cbn [vx vy vz]. generalize (finv x), (finv y), (finv z). intros p q r. vring_gen. Qed.
  Lemma diag3_inv n : vx n <> f0 -> vy n <> f0 -> vz n <> f0 ->
    mmul (diag3 n) (diag3 (V3 (finv (vx n)) (finv (vy n)) (finv (vz n)))) = m3id /\
    mmul (diag3 (V3 (finv (vx n)) (finv (vy n)) (finv (vz n)))) (diag3 n) = m3id.
  Proof.
    destruct n as [x y z]. cbn [vx vy vz]. intros Hx Hy Hz.
    split; repeat first [apply m3_ext | apply v3_ext]; cbv beta iota zeta delta [vx vy vz r1 r2 r3 vadd vscale vmul mmul m3id diag3]; field; assumption.
  Qed.
  Lemma det_diag3 n : det (diag3 n) = fmul (fmul (vx n) (vy n)) (vz n).
  Proof. destruct n as [x y z]. cbv beta iota zeta delta [det diag3 vdot vcross vx vy vz r1 r2 r3]. ring. Qed.
  Lemma f_mul_ne x y : x <> f0 -> y <> f0 -> fmul x y <> (f0 : A).
  Proof. intros H1 H2 H. apply f_integral in H. destruct H; contradiction. Qed.
  Lemma det_m3_ne (M N : m3 A) : mmul M N = m3id -> det M <> f0.
  Proof.
    intros H E. pose proof (det_mmul M N) as D. rewrite H, det_id, E in D. apply (F_1_neq_0 f_theory). rewrite D. ring.
  Qed.

  Theorem cartesian_operation_correct_iff : forall (L : m3 A) (norms : v3 A) (W : m3 A),
    det L <> f0 -> vx norms <> f0 -> vy norms <> f0 -> vz norms <> f0 ->
    (represents L W (cart_op L norms W) <->
     forall i j, i < 3 -> j < 3 -> entry W i j = f0 \/ component norms i = component norms j).
  Proof.
    intros L n W HL Hx Hy Hz. rewrite represents_iff. unfold cart_op. rewrite to_cart_diag.
    set (D' := diag3 (V3 (finv (vx n)) (finv (vy n)) (finv (vz n)))). destruct (diag3_inv n Hx Hy Hz) as (DI & DI'). fold D' in DI, DI'.
    set (P := transpose L). assert (HP : det P <> f0) by (unfold P; rewrite det_transpose; exact HL).
    assert (HD' : det D' <> f0) by (apply (det_m3_ne D' (diag3 n)); exact DI').
    assert (IV : minv_raw (mmul P D') = mmul (diag3 n) (minv_raw P)).
    { apply minv_unique.
      - rewrite mmul_assoc. rewrite <- (mmul_assoc (minv_raw P) P D'). rewrite minv_l by exact HP. rewrite mmul_id_l. exact DI.
      - rewrite det_mmul. apply f_mul_ne; assumption. }
    rewrite IV.
    assert (EQ : mmul (mmul (mmul (mmul P D') W) (mmul (diag3 n) (minv_raw P))) P = mmul P (mmul D' (mmul W (diag3 n)))).
    { rewrite !mmul_assoc. rewrite (minv_l P HP). rewrite mmul_id_r. reflexivity. }
    rewrite EQ.
    assert (C1 : mmul P (mmul D' (mmul W (diag3 n))) = mmul P W <-> mmul W (diag3 n) = mmul (diag3 n) W).
    { split; intros H.
      - assert (H1 : mmul D' (mmul W (diag3 n)) = W).
        { rewrite <- (mmul_id_l (mmul D' _)), <- (minv_l P HP), mmul_assoc, H, <- mmul_assoc, minv_l by exact HP. apply mmul_id_l. }
        rewrite <- H1 at 2. rewrite <- mmul_assoc, DI, mmul_id_l. reflexivity.
      - f_equal. rewrite H, <- mmul_assoc, DI'. apply mmul_id_l. }
    rewrite C1. clear - F. destruct W as [[a1 b1 c1] [a2 b2 c2] [a3 b3 c3]], n as [x y z].
    assert (SW : forall w p q : A, fmul w p = fmul q w -> w = f0 \/ q = p).
    { intros w p q H. destruct (f_dec w f0) as [E|E]; [left; exact E|right].
      assert (X : fmul w (fsub q p) = f0) by (replace (fmul w (fsub q p)) with (fsub (fmul q w) (fmul w p)) by ring; rewrite H; ring).
      apply f_integral in X. destruct X as [X|X]; [contradiction|]. replace q with (fadd (fsub q p) p) by ring. rewrite X. ring. }
    assert (WS : forall w p q : A, w = f0 \/ q = p -> fmul w p = fmul q w) by (intros w p q [-> | ->]; ring).
    split.
    - intros H. cbv beta iota zeta delta [mmul diag3 vmul vadd vscale vx vy vz r1 r2 r3] in H. injection H as X1 X2 X3 X4 X5 X6 X7 X8 X9.
      ring_simplify in X1. ring_simplify in X2. ring_simplify in X3. ring_simplify in X4. ring_simplify in X5. ring_simplify in X6. ring_simplify in X7. ring_simplify in X8. ring_simplify in X9.
      intros i j Hi Hj. destruct i as [|[|[|i]]]; [| | |lia]; (destruct j as [|[|[|j]]]; [| | |lia]);
        cbn [entry component nth vx vy vz r1 r2 r3]; first [right; reflexivity | apply SW; assumption | idtac].
      all: first [apply SW; rewrite ?X1, ?X2, ?X3, ?X4, ?X5, ?X6, ?X7, ?X8, ?X9; ring | idtac].
    - intros H. 
      repeat first [apply m3_ext | apply v3_ext]; cbv beta iota zeta delta [mmul diag3 vmul vadd vscale vx vy vz r1 r2 r3].
      + ring.
      + transitivity (fmul b1 y); [ring|]. rewrite (WS b1 y x) by (apply (H 0 1); lia). ring.
      + transitivity (fmul c1 z); [ring|]. rewrite (WS c1 z x) by (apply (H 0 2); lia). ring.
      + transitivity (fmul a2 x); [ring|]. rewrite (WS a2 x y) by (apply (H 1 0); lia). ring.
      + ring.
      + transitivity (fmul c2 z); [ring|]. rewrite (WS c2 z y) by (apply (H 1 2); lia). ring.
      + transitivity (fmul a3 x); [ring|]. rewrite (WS a3 x z) by (apply (H 2 0); lia). ring.
      + transitivity (fmul b3 y); [ring|]. rewrite (WS b3 y z) by (apply (H 2 1); lia). ring.
      + ring.
  Qed.
  Lemma vdot_metric (a b : v3 A) (N : m3 A) : vdot (vmul a N) (vmul b N) = vdot a (mvmul (mmul N (transpose N)) b).
  Proof.
    destruct a as [a1 a2 a3], b as [b1 b2 b3], N as [[n1 n2 n3] [n4 n5 n6] [n7 n8 n9]].
    cbv beta iota zeta delta [vmul vadd vscale vdot mvmul mmul transpose vx vy vz r1 r2 r3]. ring.
  Qed.
  Lemma vdot_adjoint (a b : v3 A) (N : m3 A) : vdot (mvmul N a) b = vdot a (mvmul (transpose N) b).
  Proof.
    destruct a as [a1 a2 a3], b as [b1 b2 b3], N as [[n1 n2 n3] [n4 n5 n6] [n7 n8 n9]].
    cbv beta iota zeta delta [vdot mvmul transpose vx vy vz r1 r2 r3]. ring.
  Qed.
End Spec.
Print Assumptions finite_difference_columns.
Print Assumptions missing_force_files_leave_garbage.
Print Assumptions extra_force_files_rejected.
Print Assumptions unreadable_force_file_rejected.
Print Assumptions harmonic_force_constants_exact.
Print Assumptions symmetry_force_constants_exact.
Print Assumptions symmetry_pipeline_exact.
Print Assumptions reciprocal_lattice_dual.
Print Assumptions every_spring_law_is_harmonic.
Print Assumptions cartesian_operation_correct_iff.

Ltac qceq := apply Qc_is_canon; vm_compute; reflexivity.
Ltac m3eq := repeat first [apply m3_ext | apply v3_ext]; qceq.
Ltac qcne := let H := fresh in intro H; apply (f_equal this) in H; vm_compute in H; discriminate H.

(** An operation accepted by the search (it preserves the metric of the periodic
    plane of a cell with |a| = 10, |b| = 13) is given a Cartesian matrix that is not an
    isometry; force constants derived with it are wrong. *)
Theorem cartesian_operation_refuted :
  exists (L : m3 Qc) (norms : v3 Qc) (W : m3 Qc) (B : m3 Qc),
    fmul (vx norms) (vx norms) = vdot (r1 L) (r1 L) /\ fmul (vy norms) (vy norms) = vdot (r2 L) (r2 L) /\ fmul (vz norms) (vz norms) = vdot (r3 L) (r3 L) /\
    det L <> f0 /\
    (* W is a symmetry of the whole lattice *)
    mmul (mmul (transpose W) (mmul L (transpose L))) W = mmul L (transpose L) /\
    exists M, represents L W M /\ mmul M (transpose M) = m3id /\
      ~ represents L W (cart_op L norms W) /\
      mmul (cart_op L norms W) (transpose (cart_op L norms W)) <> m3id /\
      mmul (mmul (minv_raw (cart_op L norms W)) B) (cart_op L norms W) <> mmul (mmul (minv_raw M) B) M.
Proof.
  exists (M3 (vq 10 0 0) (vq 5 12 0) (vq 0 0 20)), (vq 10 13 20), (M3 (vq 1 1 0) (vq 0 (-1) 0) (vq 0 0 1)), (M3 (vq 1 2 0) (vq 2 5 0) (vq 0 0 7)).
  split; [qceq|]. split; [qceq|]. split; [qceq|]. split; [qcne|]. split; [m3eq|].
  exists (M3 (vq 1 0 0) (vq 0 (-1) 0) (vq 0 0 1)). split; [apply represents_iff; m3eq|]. split; [m3eq|].
  split.
  - rewrite cartesian_operation_correct_iff by qcne. intros H. destruct (H 0 1 ltac:(lia) ltac:(lia)) as [X|X]; cbn in X; apply (f_equal this) in X; vm_compute in X; discriminate X.
  - split; intros H; apply (f_equal r1) in H; apply (f_equal vy) in H; apply (f_equal this) in H; vm_compute in H; discriminate H.
Qed.
Print Assumptions cartesian_operation_refuted.

(** Square, rectangular and hexagonal-type cells: equal lengths, or no mixing. *)
Theorem cartesian_operation_correct_on_equal_lengths :
  forall {A} {F : Fld A} (L : m3 A) (norms : v3 A) (a b c d : A),
    det L <> f0 -> vx norms <> f0 -> vy norms <> f0 -> vz norms <> f0 ->
    (vx norms = vy norms \/ (b = f0 /\ c = f0)) ->
    let W := M3 (V3 a b f0) (V3 c d f0) (V3 f0 f0 f1) in
    represents L W (cart_op L norms W).
Proof.
  intros A F L norms a b c d HL Hx Hy Hz H W. apply cartesian_operation_correct_iff; try assumption.
  intros i j Hi Hj. destruct H as [E|[-> ->]];
    (destruct i as [|[|[|i]]]; [| | |lia]); (destruct j as [|[|[|j]]]; [| | |lia]); cbn; auto.
Qed.
Print Assumptions cartesian_operation_correct_on_equal_lengths.

(** The operation preserves distances exactly when W preserves the full metric. *)
Theorem represented_operation_is_isometry :
  forall {A} {F : Fld A} (L W M : m3 A), det L <> f0 -> represents L W M ->
    mmul (mmul (transpose W) (mmul L (transpose L))) W = mmul L (transpose L) ->
    forall u v, vdot (mvmul M u) (mvmul M v) = vdot u v.
Proof.
  intros A F L W M HL HR HM u v.
  assert (X : forall w, exists x, w = vmul x L).
  { intros w. exists (vmul w (minv_raw L)). rewrite vmul_assoc, minv_l by exact HL. now rewrite vmul_id. }
  destruct (X u) as (x & ->). destruct (X v) as (y & ->). rewrite !HR.
  rewrite !vdot_metric, vdot_adjoint, <- !mvmul_mmul, <- !mmul_assoc. rewrite !mmul_assoc in *. rewrite HM. reflexivity.
Qed.
Print Assumptions represented_operation_is_isometry.

(** * Witnesses *)
Example finite_difference_witness :
  exists s cur, build_super ex_unit ex_args = Ok s /\ ready s ex_args cur 6 3 /\ c_true ex_unit = Some [0; 2]%Z /\
    Q2Qc (1#50) <> f0 /\ forall Phi, harmonic cur (spring_law cur Phi) Phi.
Proof.
  destruct supercell_witness as (W1 & W2).
  destruct (built_supercell_is_ready ex_unit ex_args _ _ _ _ _ [0; 2]%Z 2 3 1 1 1 0 W1 eq_refl W2 ltac:(lia) ltac:(lia) ltac:(lia)) as (s & cur & E & R).
  exists s, cur. split; [exact E|]. split; [exact R|]. split; [reflexivity|]. split; [qcne|]. intros Phi. apply every_spring_law_is_harmonic.
Qed.

(** Two atoms of a square cell exchanged by the two-fold axis; only atom 0 is
    displaced, atom 1 is derived; the coupling is not diagonal. *)
Definition sw_lat : m3 Qc := M3 (vq 3 0 0) (vq 0 3 0) (vq 0 0 20).
Definition sw_pos : list (v3 Qc) := [vq 1 0 1; vq 2 0 1].
Definition sw_cell : cell Qc :=
  mkCell (Some sw_lat) (Some ["C"%string; "C"%string]) (Some [2]%Z) true (Some Cartesian) (Some sw_pos) (Some [0; 1]%Z) (Some [0; 0; 0; 1; 1; 1]%Z) None.
Definition sw_args : args := mkArgs (Some (Q2Qc (1#50))) (Some [1; 1; 1]%Z) (Some [1; 1; 0]%Z).
Definition sw_W : m3 Qc := M3 (vq (-1) 0 0) (vq 0 (-1) 0) (vq 0 0 1).
Definition sw_Phi0 (s : nat) : m3 Qc := match s with 0 => M3 (vq 5 1 2) (vq 1 7 3) (vq 2 3 9) | _ => M3 (vq (-4) 1 1) (vq 2 (-6) 1) (vq 3 1 (-8)) end.
Definition sw_Phi (s k : nat) : m3 Qc := match k with 0 => sw_Phi0 s | _ => mmul (mmul sw_W (sw_Phi0 (1 - s))) sw_W end.
Definition sw_req : list (nat * (v3 Qc * list (v3 Qc))) := [(0, (vq 1 0 1, [vq 0 1 1; vq 1 1 0]))].
Definition sw_sd : symdata Qc :=
  mkSym [m3id; sw_W] [[[0; 1]]; [[1; 0]]] [1] [0] [1] [[[0; 1]; [0; 1]]; [[1; 0]; [1; 0]]] [[0]] [[m3id]] [[vq 1 0 1]] [[vq 0 1 1; vq 1 1 0]].

Example symmetry_pipeline_witness :
  ready sw_cell sw_args sw_pos 1 2 /\ c_true sw_cell = Some [0; 1]%Z /\ Q2Qc (1#50) <> f0 /\
  harmonic sw_pos (spring_law sw_pos sw_Phi) sw_Phi /\ det (to_cart sw_lat (vq 3 3 20)) <> f0 /\
  NoDup [0; 1] /\ Forall (fun t => t < length sw_pos) [0; 1] /\
  let Phi t r := sw_Phi t (1 * Z.to_nat (nth r [0; 1]%Z 0%Z)) in
  sd_require sw_sd = map fst sw_req /\
  (forall i r u0 adds, nth_error sw_req i = Some (r, (u0, adds)) -> r < length [0; 1]%Z /\ independent_directions sw_sd [0; 1] Phi i r u0 adds) /\
  Forall (fun '(pg, nr) => derived_from_required sw_sd [0; 1] sw_lat (vq 3 3 20) Phi pg nr) (combine (sd_pgi sw_sd) (sd_not_require sw_sd)) /\
  length (sd_pgi sw_sd) = length (sd_not_require sw_sd).
Proof.
  split. { constructor; [reflexivity|reflexivity| |do 2 eexists; split; [reflexivity|split; reflexivity]|lia]. intros t Ht. injection Ht as <-. reflexivity. }
  split; [reflexivity|]. split; [qcne|]. split; [apply every_spring_law_is_harmonic|]. split; [qcne|].
  split; [repeat constructor; cbn; intuition lia|]. split; [repeat constructor; cbn; lia|]. intros Phi.
  split; [reflexivity|]. split; [|split; [|reflexivity]].
  - intros [|i] r u0 adds H; [|destruct i; discriminate H]. cbn in H. injection H as <- <- <-. split; [cbn; lia|].
    do 5 eexists. split; [reflexivity|]. split; [reflexivity|]. split; [reflexivity|]. split; [discriminate|].
    split. { cbn. rewrite mvmul_id. reflexivity. } split; [reflexivity|]. split. { cbn. rewrite mvmul_id. reflexivity. } split; [qcne|].
    intros w W [E|[]]. injection E as <- <-. do 2 eexists. split; [reflexivity|]. split; [reflexivity|].
    split; [reflexivity|]. split; [repeat constructor; cbn; intuition lia|]. split; [repeat constructor; cbn; lia|].
    intros [|[|k]] v s t H1 H2 H3; cbn in H1; try discriminate; [| |destruct k; discriminate];
      injection H1 as <-; cbn in H2, H3; injection H2 as <-; injection H3 as <-; rewrite mmul_id_l, mmul_id_r; reflexivity.
  - constructor; [|constructor]. split; [cbn; intuition lia|]. do 6 eexists. repeat (split; [reflexivity|]). split; [cbn; auto|].
    assert (CW : cart_op sw_lat (vq 3 3 20) sw_W = sw_W) by m3eq. cbn [sw_sd]. rewrite CW. split; [qcne|].
    split; [reflexivity|]. split; [repeat constructor; cbn; intuition lia|]. split; [repeat constructor; cbn; lia|].
    intros [|[|k]] v s t H1 H2 H3; cbn in H1; try discriminate; [| |destruct k; discriminate];
      injection H1 as <-; cbn in H2, H3; injection H2 as <-; injection H3 as <-; m3eq.
Qed.

Example reciprocal_witness : det ex_lat <> f0.
Proof. qcne. Qed.
