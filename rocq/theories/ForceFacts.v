(** Facts about the force-constant model (Force.v). *)
From Coq Require Import String Ascii ZArith Bool Lia Arith setoid_ring.Field List.
From Verif Require Import Base Field Cell Super Force.
Import ListNotations.
Local Open Scope list_scope.
Local Open Scope nat_scope.

Section FF.
  Context {A : Type} {F : Fld A}.
  Add Field fld_FF : f_theory.

  Lemma flatten_length (m : list (v3 A)) : length (flatten m) = 3 * length m.
  Proof. unfold flatten. rewrite (flat_map_const_length _ _ 3) by reflexivity. lia. Qed.
  Lemma flatten_nth (m : list (v3 A)) s al v : nth_error m s = Some v -> al < 3 -> nth_error (flatten m) (3 * s + al) = Some (vget v al).
  Proof.
    intros H Ha. unfold flatten. rewrite (flat_map_const_nth _ _ 3 s al v); [|reflexivity|exact H|exact Ha].
    destruct al as [|[|[|al]]]; try lia; reflexivity.
  Qed.
  Lemma np_sub_ok (a b : list (v3 A)) : length a = length b -> np_sub a b = Ok (map (fun '(u, v) => vsub u v) (combine a b)).
  Proof. intros H. unfold np_sub. rewrite (proj2 (Nat.eqb_eq _ _) H). reflexivity. Qed.
  Lemma combine_nth_error {B C} (a : list B) (b : list C) s u v :
    nth_error a s = Some u -> nth_error b s = Some v -> nth_error (combine a b) s = Some (u, v).
  Proof. revert b s; induction a as [|x a IH]; intros [|y b] [|s]; cbn; try discriminate; [congruence|apply IH]. Qed.

  Section R.
    Context {file : Type} (read : file -> result (list (v3 A))).
    Definition readable (n : nat) (p : file * file) : Prop :=
      exists ff fb, read (fst p) = Ok ff /\ read (snd p) = Ok fb /\ length ff = n /\ length fb = n.
    Definition unpair (l : list (file * file)) : list file := flat_map (fun p => [fst p; snd p]) l.

    Lemma fd_loop_ok n ncol d pairs : Forall (readable n) pairs -> forall k fwd m tail, k + length pairs <= ncol ->
      exists m' fwd', fd_loop read (3 * n) ncol d (2 * k) fwd m (unpair pairs ++ tail) =
                 fd_loop read (3 * n) ncol d (2 * (k + length pairs)) fwd' m' tail /\
        (forall p fb u v s al ff fbk, nth_error pairs p = Some fb -> read (fst fb) = Ok ff -> read (snd fb) = Ok fbk ->
           nth_error ff s = Some u -> nth_error fbk s = Some v -> al < 3 ->
           m' (3 * s + al) (k + p) = Some (fd d (fsub (vget u al) (vget v al)))) /\
        (forall r c, (c < k \/ k + length pairs <= c) -> m' r c = m r c).
    Proof.
      induction 1 as [|[f b] pairs Hp _ IH]; intros k fwd m tail Hk.
      - exists m, fwd. cbn [unpair flat_map app length]. rewrite Nat.add_0_r. split; [reflexivity|]. split; [|reflexivity].
        intros p fb u v s al ff fbk H. destruct p; discriminate H.
      - destruct Hp as (ff & fb & Rf & Rb & Lf & Lb). cbn [fst snd] in Rf, Rb.
        cbn [unpair flat_map app length fst snd] in *. fold (unpair pairs).
        set (m1 := fun r c => if Nat.eqb c k then nth_error (map (fd d) (flatten (map (fun '(u, v) => vsub u v) (combine ff fb)))) r else m r c).
        destruct (IH (S k) (Some ff) m1 tail ltac:(lia)) as (m' & fwd' & E & V & U).
        exists m', fwd'. split; [|split].
        + cbn [fd_loop]. rewrite Rf. replace (Nat.even (2 * k)) with true by (symmetry; apply Nat.even_spec; exists k; lia).
          cbn [fd_loop]. rewrite Rb. replace (Nat.even (S (2 * k))) with false.
          2:{ symmetry. rewrite Nat.even_succ. rewrite <- Nat.negb_even. replace (Nat.even (2 * k)) with true; [reflexivity|]. symmetry; apply Nat.even_spec; exists k; lia. }
          cbn [of_option bind]. rewrite np_sub_ok by congruence. cbn [bind]. unfold set_column.
          rewrite map_length, flatten_length, map_length, combine_length, Lf, Lb, Nat.min_id, Nat.eqb_refl. cbn [negb].
          replace (S (2 * k) / 2) with k by (replace (S (2 * k)) with (1 + k * 2) by lia; rewrite Nat.div_add by lia; reflexivity).
          destruct (Nat.leb_spec ncol k) as [Hl|_]; [lia|]. fold m1.
          replace (S (S (2 * k))) with (2 * S k) by lia. rewrite E. f_equal. lia.
        + intros p q u v s al ff' fb' Hp Hf Hb Hu Hv Hal. destruct p as [|p].
          * cbn in Hp. injection Hp as <-. cbn [fst snd] in Hf, Hb.
            assert (ff' = ff) by congruence. assert (fb' = fb) by congruence. subst ff' fb'.
            rewrite Nat.add_0_r. rewrite U by lia. unfold m1. rewrite Nat.eqb_refl.
            rewrite nth_error_map. erewrite flatten_nth; [|rewrite nth_error_map, (combine_nth_error _ _ _ _ _ Hu Hv); reflexivity|exact Hal].
            cbn [option_map]. f_equal. f_equal. destruct al as [|[|[|al]]]; try lia; reflexivity.
          * cbn in Hp. replace (k + S p) with (S k + p) by lia. eapply V; eassumption.
        + intros r c Hc. rewrite U by lia. unfold m1. destruct (Nat.eqb_spec c k); [lia|reflexivity].
    Qed.

    (** ** Symmetry branch *)
    Lemma py_nth_ok {B} (l : list B) k x : nth_error l k = Some x -> py_nth l k = Ok x.
    Proof. unfold py_nth. intros ->. reflexivity. Qed.

    Lemma scatter_ok st (src : list (v3 A)) n : NoDup st -> Forall (fun s => s < n) st -> length src = n ->
      forall img k dest, k + length img <= length st -> Forall (fun v => v < length st) img -> NoDup img -> length dest = n ->
      exists dest', scatter st src k img dest = Ok dest' /\ length dest' = n /\
        (forall j v s t, nth_error img j = Some v -> nth_error st (k + j) = Some s -> nth_error st v = Some t ->
           nth_error dest' t = nth_error src s) /\
        (forall t, (forall v, In v img -> nth_error st v <> Some t) -> nth_error dest' t = nth_error dest t).
    Proof.
      intros ND HS Ls. induction img as [|v img IH]; intros k dest Hk Hi Hn Ld.
      - exists dest. split; [reflexivity|]. split; [exact Ld|]. split; [|reflexivity]. intros j v s t H. destruct j; discriminate H.
      - inversion Hi as [|? ? Hv Hi']; subst. inversion Hn as [|? ? Hni Hn']; subst. cbn [length] in Hk.
        destruct (nth_error st v) as [t|] eqn:Et; [|apply nth_error_None in Et; lia].
        destruct (nth_error st k) as [s|] eqn:Es; [|apply nth_error_None in Es; lia].
        rewrite Forall_forall in HS. pose proof (HS t (nth_error_In _ _ Et)) as Ht. pose proof (HS s (nth_error_In _ _ Es)) as Hs.
        destruct (nth_error src s) as [x|] eqn:Ex; [|apply nth_error_None in Ex; lia].
        destruct (IH (S k) (set_nth t x dest)) as (dest' & E & L & V & U); [lia|exact Hi'|exact Hn'|now rewrite set_nth_length|].
        exists dest'. split; [|split; [exact L|split]].
        + cbn [scatter]. rewrite (py_nth_ok _ _ _ Et). cbn [bind]. rewrite (py_nth_ok _ _ _ Es). cbn [bind]. rewrite (py_nth_ok _ _ _ Ex). cbn [bind]. unfold np_set.
          destruct (Nat.ltb_spec t (length dest)) as [_|Hl]; [|lia]. cbn [bind]. exact E.
        + intros j v' s' t' Hj Hs' Ht'. destruct j as [|j].
          * cbn in Hj. injection Hj as <-. rewrite Nat.add_0_r in Hs'. assert (s' = s) by congruence. assert (t' = t) by congruence. subst s' t'.
            rewrite U.
            -- rewrite set_nth_same by lia. congruence.
            -- intros v' Hv' Hc. assert (v' = v).
               { eapply (proj1 (NoDup_nth_error st) ND); [rewrite Forall_forall in Hi'; now apply Hi'|congruence]. }
               subst. contradiction.
          * cbn in Hj. eapply V; [exact Hj| |exact Ht']. rewrite <- Hs'. f_equal. lia.
        + intros t' Ht'. rewrite U by (intros v' Hv'; apply Ht'; right; exact Hv').
          apply set_nth_other. intros <-. apply (Ht' v); [left; reflexivity|exact Et].
    Qed.

    (** [img] lists, for every selected supercell atom, its image under an operation
        with Cartesian matrix [W] that carries unit-cell atom [r] to [r']; the force
        constants [Phi] are invariant under it. *)
    Definition carries (st img : list nat) (W : m3 A) (Phi : nat -> nat -> m3 A) (r r' : nat) : Prop :=
      length img = length st /\ NoDup img /\ Forall (fun v => v < length st) img /\
      forall k v s t, nth_error img k = Some v -> nth_error st k = Some s -> nth_error st v = Some t ->
        mmul W (Phi s r) = mmul (Phi t r') W.

    Lemma full_image (img : list nat) m : length img = m -> NoDup img -> Forall (fun v => v < m) img ->
      forall v, v < m -> exists k, nth_error img k = Some v.
    Proof.
      intros L N H v Hv. apply In_nth_error.
      assert (I : incl (seq 0 m) img).
      { apply NoDup_length_incl; [exact N|rewrite seq_length; lia|]. intros x Hx. rewrite Forall_forall in H. apply in_seq. specialize (H x Hx). lia. }
      apply I, in_seq. lia.
    Qed.

    Variable n : nat.
    Variable st : list nat.
    Variable Phi : nat -> nat -> m3 A.
    Variable d : A.
    Hypothesis ND : NoDup st.
    Hypothesis HS : Forall (fun s => s < n) st.

    Definition delta (s r : nat) (e : v3 A) : v3 A := vscale (fopp (fmul (fofZ 2) d)) (mvmul (Phi s r) e).
    Definition good_col (r : nat) (e : v3 A) (fb : list (v3 A) * list (v3 A)) : Prop :=
      length (fst fb) = n /\ length (snd fb) = n /\
      forall s u v, In s st -> nth_error (fst fb) s = Some u -> nth_error (snd fb) s = Some v -> vsub u v = delta s r e.

    Lemma rot_delta W s t r e u v : mmul W (Phi s r) = mmul (Phi t r) W -> vsub u v = delta s r e ->
      vsub (mvmul W u) (mvmul W v) = delta t r (mvmul W e).
    Proof.
      intros H E.
      assert (X : vsub (mvmul W u) (mvmul W v) = mvmul W (vsub u v)) by (clear; vring_gen).
      rewrite X, E. unfold delta. rewrite mvmul_vscale, <- !mvmul_mmul, H. reflexivity.
    Qed.

    Lemma rotate_loop_ok same_super r f b u0 : good_col r u0 (f, b) ->
      forall ops k f' b' cols kk, length f' = n -> length b' = n -> k + length ops <= 3 ->
      (forall wi W, In (wi, W) ops -> exists per img, nth_error same_super wi = Some per /\ nth_error per r = Some img /\ carries st img W Phi r r) ->
      exists cols', rotate_loop n st same_super r f b k ops f' b' cols kk = Ok (cols', match ops with [] => kk | _ => Some (k + length ops - 1) end) /\
        (forall j wi W, nth_error ops j = Some (wi, W) -> exists fb, cols' (k + j) = Some fb /\ good_col r (mvmul W u0) fb) /\
        (forall c, c < k \/ k + length ops <= c -> cols' c = cols c).
    Proof.
      intros (Lf & Lb & G). cbn [fst snd] in *.
      induction ops as [|[wi W] ops IH]; intros k f' b' cols kk Lf' Lb' Hk HO.
      - exists cols. split; [reflexivity|]. split; [|reflexivity]. intros j wi W H. destruct j; discriminate H.
      - destruct (HO wi W (or_introl eq_refl)) as (per & img & E1 & E2 & (Li & Ni & Hi & HC)). cbn [length] in Hk.
        destruct (scatter_ok st (map (mvmul W) f) n ND HS ltac:(now rewrite map_length) img 0 f' ltac:(cbn; lia) Hi Ni Lf') as (f1' & Ef & Lf1 & Vf & _).
        destruct (scatter_ok st (map (mvmul W) b) n ND HS ltac:(now rewrite map_length) img 0 b' ltac:(cbn; lia) Hi Ni Lb') as (b1' & Eb & Lb1 & Vb & _).
        set (cols1 := fun c => if Nat.eqb c k then Some (f1', b1') else cols c).
        destruct (IH (S k) f1' b1' cols1 (Some k) Lf1 Lb1 ltac:(lia)) as (cols' & E & V & U).
        { intros; apply HO; right; assumption. }
        exists cols'. split; [|split].
        + cbn [rotate_loop]. rewrite (py_nth_ok _ _ _ E1). cbn [bind]. rewrite (py_nth_ok _ _ _ E2). cbn [bind].
          rewrite Ef. cbn [bind]. rewrite Eb. cbn [bind]. unfold put_columns. rewrite Lf1, Lb1, !Nat.eqb_refl. cbn [andb negb].
          destruct (Nat.leb_spec 3 (0 + k)) as [Hl|_]; [lia|]. cbn [bind]. change (0 + k) with k. fold cols1. rewrite E.
          f_equal. f_equal. destruct ops; cbn [length]; f_equal; lia.
        + intros j wi' W' Hj. destruct j as [|j].
          * cbn in Hj. injection Hj as <- <-. exists (f1', b1'). split.
            { rewrite U by lia. unfold cols1. now rewrite Nat.add_0_r, Nat.eqb_refl. }
            split; [exact Lf1|]. split; [exact Lb1|]. cbn [fst snd]. intros t u v Ht Hu Hv.
            apply In_nth_error in Ht. destruct Ht as (vi & Hvi).
            destruct (full_image img (length st) Li Ni Hi vi) as (kk' & Hkk'); [apply nth_error_Some; congruence|].
            assert (Hlt : kk' < length st) by (rewrite <- Li; apply nth_error_Some; congruence).
            destruct (nth_error st kk') as [s|] eqn:Es; [|apply nth_error_None in Es; lia].
            rewrite (Vf kk' vi s t Hkk' Es Hvi) in Hu. rewrite (Vb kk' vi s t Hkk' Es Hvi) in Hv.
            rewrite nth_error_map in Hu, Hv.
            destruct (nth_error f s) as [u1|] eqn:Eu; [|discriminate]. destruct (nth_error b s) as [v1|] eqn:Ev; [|discriminate].
            cbn in Hu, Hv. injection Hu as <-. injection Hv as <-.
            apply (rot_delta W s t r u0); [exact (HC kk' vi s t Hkk' Es Hvi)|].
            apply G; [apply (nth_error_In _ _ Es)|exact Eu|exact Ev].
          * cbn in Hj. destruct (V j wi' W' Hj) as (fb & A1 & A2). exists fb. split; [|exact A2]. rewrite <- A1. f_equal. lia.
        + intros c Hc. cbn [length] in Hc. rewrite U by lia. unfold cols1. destruct (Nat.eqb_spec c k); [lia|reflexivity].
    Qed.

    (** a pair of files belonging to displacement [e] of atom [r] *)
    Definition pair_ok (r : nat) (e : v3 A) (fb : file * file) : Prop :=
      exists ff fbk, read (fst fb) = Ok ff /\ read (snd fb) = Ok fbk /\ good_col r e (ff, fbk).

    Lemma adds_loop_ok same_super r ops adds k0 : forall es pairs p cols rest, Forall2 (pair_ok r) es pairs -> adds <> [] ->
      0 < p -> p + k0 + length es <= 3 ->
      exists cols', atom_loop read n st same_super r ops adds p (length es) cols (Some k0) (unpair pairs ++ rest) = Ok (cols', rest) /\
        (forall j e, nth_error es j = Some e -> exists fb, cols' (p + k0 + j) = Some fb /\ good_col r e fb) /\
        (forall c, c < p + k0 -> cols' c = cols c).
    Proof.
      induction es as [|e es IH]; intros pairs p cols rest FA NE Hp Hk; inversion FA as [|? [f b] ? pairs' Hf FA']; subst.
      - exists cols. split; [reflexivity|]. split; [|reflexivity]. intros j e H. destruct j; discriminate H.
      - destruct Hf as (ff & fb & Rf & Rb & Gc). cbn [fst snd] in Rf, Rb. cbn [length] in Hk.
        set (cols1 := fun c => if Nat.eqb c (p + k0) then Some (ff, fb) else cols c).
        destruct (IH pairs' (S p) cols1 rest FA' NE ltac:(lia) ltac:(lia)) as (cols' & E & V & U).
        exists cols'. split; [|split].
        + cbn [unpair flat_map app fst snd length atom_loop]. fold (unpair pairs'). rewrite Rf. cbn [bind]. rewrite Rb. cbn [bind].
          destruct (Nat.eqb_spec p 0); [lia|]. destruct adds as [|a adds]; [congruence|]. cbn [of_option bind].
          destruct Gc as (L1 & L2 & _). cbn [fst snd] in L1, L2. unfold put_columns. rewrite L1, L2, !Nat.eqb_refl. cbn [andb negb].
          destruct (Nat.leb_spec 3 (p + k0)); [lia|]. cbn [bind]. fold cols1. exact E.
        + intros j e' Hj. destruct j as [|j].
          * cbn in Hj. injection Hj as <-. exists (ff, fb). split; [|exact Gc]. rewrite U by lia. unfold cols1. now rewrite Nat.add_0_r, Nat.eqb_refl.
          * cbn in Hj. destruct (V j e' Hj) as (x & A1 & A2). exists x. split; [|exact A2]. rewrite <- A1. f_equal. lia.
        + intros c Hc. rewrite U by lia. unfold cols1. destruct (Nat.eqb_spec c (p + k0)); [lia|reflexivity].
    Qed.

    Lemma atom_loop_ok same_super r ops adds u0 pairs rest :
      0 < length ops -> length ops + length adds <= 3 ->
      (forall wi W, In (wi, W) ops -> exists per img, nth_error same_super wi = Some per /\ nth_error per r = Some img /\ carries st img W Phi r r) ->
      Forall2 (pair_ok r) (u0 :: adds) pairs ->
      exists cols', atom_loop read n st same_super r ops adds 0 (length adds + 1) (fun _ => None) None (unpair pairs ++ rest) = Ok (cols', rest) /\
        forall j e, nth_error (map (fun '(_, W) => mvmul W u0) ops ++ adds) j = Some e -> exists fb, cols' j = Some fb /\ good_col r e fb.
    Proof.
      intros HO HL HC FA. inversion FA as [|? [f b] ? pairs' Hf FA']; subst.
      destruct Hf as (ff & fb & Rf & Rb & Gc). cbn [fst snd] in Rf, Rb. destruct Gc as (L1 & L2 & G). cbn [fst snd] in L1, L2.
      destruct (rotate_loop_ok same_super r ff fb u0 (conj L1 (conj L2 G)) ops 0 ff fb (fun _ => None) None L1 L2 ltac:(lia) HC) as (cols1 & E1 & V1 & U1).
      set (kk := length ops - 1).
      assert (E1' : rotate_loop n st same_super r ff fb 0 ops ff fb (fun _ => None) None = Ok (cols1, Some kk)).
      { rewrite E1. destruct ops; [cbn in HO; lia|reflexivity]. }
      assert (X : exists cols', atom_loop read n st same_super r ops adds 1 (length adds) cols1 (Some kk) (unpair pairs' ++ rest) = Ok (cols', rest) /\
        (forall j e, nth_error adds j = Some e -> exists fb, cols' (1 + kk + j) = Some fb /\ good_col r e fb) /\
        (forall c, c < 1 + kk -> cols' c = cols1 c)).
      { destruct adds as [|a adds'].
        - inversion FA'; subst. exists cols1. split; [reflexivity|]. split; [|reflexivity]. intros j e H. destruct j; discriminate H.
        - apply (adds_loop_ok same_super r ops (a :: adds') kk (a :: adds') pairs' 1 cols1 rest FA'); [discriminate|lia|unfold kk; lia]. }
      destruct X as (cols' & E & V & U). exists cols'. split.
      - rewrite Nat.add_1_r. cbn [unpair flat_map app fst snd atom_loop]. fold (unpair pairs'). rewrite Rf. cbn [bind]. rewrite Rb. cbn [bind].
        cbn [Nat.eqb]. rewrite E1'. cbn [bind]. exact E.
      - intros j e Hj. destruct (Nat.lt_ge_cases j (length ops)) as [Hlt|Hge].
        + rewrite nth_error_app1 in Hj by (rewrite map_length; exact Hlt). rewrite nth_error_map in Hj.
          destruct (nth_error ops j) as [[wi W]|] eqn:Eo; [|discriminate]. cbn in Hj. injection Hj as <-.
          destruct (V1 j wi W Eo) as (x & A1 & A2). exists x. split; [|exact A2]. rewrite U by (unfold kk; lia). exact A1.
        + rewrite nth_error_app2 in Hj by (rewrite map_length; exact Hge). rewrite map_length in Hj.
          destruct (V (j - length ops) e Hj) as (x & A1 & A2). exists x. split; [|exact A2]. rewrite <- A1. f_equal. unfold kk. lia.
    Qed.

    Lemma div3 s i : i < 3 -> (3 * s + i) / 3 = s.
    Proof. intros H. rewrite (Nat.mul_comm 3 s), Nat.div_add_l by lia. rewrite (Nat.div_small i 3 H). lia. Qed.
    Lemma mod3 s i : i < 3 -> (3 * s + i) mod 3 = i.
    Proof. intros H. rewrite Nat.add_comm, (Nat.mul_comm 3 s), Nat.mod_add by lia. now apply Nat.mod_small. Qed.
    Lemma block_put_column (m : fmat A) c B s : block_of (put_block_column m c B) s c = B s.
    Proof.
      unfold block_of, put_block_column. rewrite !div3, !mod3, Nat.eqb_refl by lia.
      destruct (B s) as [[[] [] []]|]; reflexivity.
    Qed.
    Lemma block_put_column_other (m : fmat A) c c' B s : c' <> c -> block_of (put_block_column m c B) s c' = block_of m s c'.
    Proof. intros H. unfold block_of, put_block_column. rewrite !div3 by lia. destruct (Nat.eqb_spec c' c); [contradiction|reflexivity]. Qed.
    Lemma block_put (m : fmat A) s c B : block_of (put_block m s c B) s c = B.
    Proof. unfold block_of, put_block. rewrite !div3, !mod3, !Nat.eqb_refl by lia. destruct B as [[[] [] []]|]; reflexivity. Qed.
    Lemma block_put_other (m : fmat A) s c s' c' B : (s' <> s \/ c' <> c) -> block_of (put_block m s c B) s' c' = block_of m s' c'.
    Proof.
      intros H. unfold block_of, put_block. rewrite !div3 by lia.
      destruct (Nat.eqb_spec s' s), (Nat.eqb_spec c' c); try reflexivity. exfalso; tauto.
    Qed.

    Lemma fofZ_ne a : a <> 0%Z -> fofZ a <> (f0 : A). Proof. intros H E. apply H, (fofZ_inj0 a E). Qed.
    Lemma angstrom_ne : (angstrom : A) <> f0.
    Proof.
      intros H. unfold angstrom in H. apply f_1_neq_0. pose proof (fofZ_ne (10 ^ 10)%Z ltac:(discriminate)) as N.
      replace (f1 : A) with (fmul (fdiv f1 (fofZ (10 ^ 10))) (fofZ (10 ^ 10))) by (field; exact N). rewrite H. ring.
    Qed.

    Hypothesis Hd : d <> f0.
    Lemma block_solved s r e1 e2 e3 : det (transpose (M3 e1 e2 e3)) <> f0 ->
      fc_block d (minv_raw (transpose (M3 e1 e2 e3))) (transpose (M3 (delta s r e1) (delta s r e2) (delta s r e3)))
      = mscale (finv angstrom) (Phi s r).
    Proof.
      intros H. set (E := transpose (M3 e1 e2 e3)) in *.
      assert (X : transpose (M3 (delta s r e1) (delta s r e2) (delta s r e3)) = mscale (fopp (fmul (fofZ 2) d)) (mmul (Phi s r) E)).
      { unfold E, delta. clear. generalize (Phi s r) as P. intros P. vring_gen. }
      rewrite X. unfold fc_block.
      assert (Y : forall M : m3 A, map_m3 fopp M = mscale (fopp f1) M) by (intros M; unfold map_m3; vring_gen).
      pose proof (fofZ_ne 2%Z ltac:(discriminate)) as N2. pose proof angstrom_ne as NA.
      assert (Nk : fmul (fmul (fofZ 2) d) (angstrom : A) <> f0).
      { intros Z. destruct (f_integral _ _ Z) as [Z1|Z1]; [|contradiction]. destruct (f_integral _ _ Z1); contradiction. }
      assert (D : forall M : m3 A, map_m3 (fun x => fdiv x (fmul (fmul (fofZ 2) d) angstrom)) M = mscale (finv (fmul (fmul (fofZ 2) d) angstrom)) M).
      { intros [[x1 y1 z1] [x2 y2 z2] [x3 y3 z3]]. unfold map_m3, mscale, vscale. cbn [vx vy vz r1 r2 r3].
        assert (Q : forall x k : A, fdiv x k = fmul (finv k) x) by (intros; rewrite (Fdiv_def f_theory); ring). rewrite !Q. reflexivity. }
      rewrite D, Y, !mmul_mscale_l, mmul_assoc, minv_r by exact H. rewrite mmul_id_r, !mscale_mscale. f_equal. field. repeat split; assumption.
    Qed.

    (** everything the search must deliver for required atom number [i] = atom [r] *)
    Definition atom_data_ok (sd : symdata A) (i r : nat) (u0 : v3 A) (adds : list (v3 A)) : Prop :=
      exists wi wc e1 e2 e3,
        nth_error (sd_W_index sd) i = Some wi /\ nth_error (sd_W_cart sd) i = Some wc /\ length wi = length wc /\ wc <> [] /\
        nth_error (sd_single sd) i = Some (map (fun W => mvmul W u0) wc) /\ nth_error (sd_additional sd) i = Some adds /\
        map (fun W => mvmul W u0) wc ++ adds = [e1; e2; e3] /\ det (transpose (M3 e1 e2 e3)) <> f0 /\
        forall w W, In (w, W) (combine wi wc) -> exists per img,
          nth_error (sd_same_super sd) w = Some per /\ nth_error per r = Some img /\ carries st img W Phi r r.

    Lemma require_loop_ok nsel sd rest : forall require i pss m,
      length pss = length require ->
      (forall j r ps, nth_error require j = Some r -> nth_error pss j = Some ps ->
         r < nsel /\ exists u0 adds, atom_data_ok sd (i + j) r u0 adds /\ Forall2 (pair_ok r) (u0 :: adds) ps) ->
      exists m', require_loop read n nsel st sd d i require m (unpair (concat pss) ++ rest) = (m', None) /\
        (forall r s, In r require -> In s st -> block_of m' s r = Some (mscale (finv angstrom) (Phi s r))) /\
        (forall s r, ~ In r require -> block_of m' s r = block_of m s r).
    Proof.
      induction require as [|r require IH]; intros i pss m Hl H.
      - exists m. split; [reflexivity|]. split; [intros ? ? []|reflexivity].
      - destruct pss as [|ps pss]; [discriminate Hl|].
        destruct (H 0 r ps eq_refl eq_refl) as (Hr & u0 & adds & (wi & wc & e1 & e2 & e3 & A1 & A2 & A3 & A4 & A5 & A6 & A7 & A8 & A9) & FP).
        rewrite Nat.add_0_r in *.
        assert (Lc : length (combine wi wc) = length wc) by (rewrite combine_length; lia).
        assert (L3 : length wc + length adds = 3) by (apply (f_equal (@length _)) in A7; rewrite app_length, map_length in A7; exact A7).
        assert (Mc : map (fun '(_, W) => mvmul W u0) (combine wi wc) = map (fun W => mvmul W u0) wc).
        { clear - A3. revert wc A3. induction wi as [|a wi IHw]; intros [|b wc] E; try discriminate; [reflexivity|]. cbn. f_equal. apply IHw. now injection E. }
        destruct (atom_loop_ok (sd_same_super sd) r (combine wi wc) adds u0 ps (unpair (concat pss) ++ rest)) as (cols & E & V);
          [rewrite Lc; destruct wc; [congruence|cbn; lia]|lia|exact A9|exact FP|].
        rewrite Mc, A7 in V.
        destruct (V 0 e1 eq_refl) as ([f0' b0'] & C0 & G0). destruct (V 1 e2 eq_refl) as ([f1' b1'] & C1 & G1). destruct (V 2 e3 eq_refl) as ([f2' b2'] & C2 & G2).
        set (inv := minv_raw (transpose (M3 e1 e2 e3))).
        set (m1 := put_block_column m r (fun s => option_map (fc_block d inv) (diff_block cols s))).
        destruct (IH (S i) pss m1 ltac:(cbn in Hl; lia)) as (m' & Em & Vm & Um).
        { intros j r' ps' B1 B2. destruct (H (S j) r' ps' B1 B2) as (B3 & u' & ad' & B4 & B5). split; [exact B3|]. exists u', ad'.
          split; [|exact B5]. replace (S i + j) with (i + S j) by lia. exact B4. }
        exists m'. split; [|split].
        + cbn [require_loop concat]. rewrite (py_nth_ok _ _ _ A6). cbn [bind]. rewrite (py_nth_ok _ _ _ A5). cbn [bind]. rewrite A7.
          unfold displace_inverse at 1. destruct (f_dec (det (transpose (M3 e1 e2 e3))) f0) as [Z|_]; [contradiction|]. cbn [bind].
          rewrite (py_nth_ok _ _ _ A1). cbn [bind]. rewrite (py_nth_ok _ _ _ A2). cbn [bind].
          unfold unpair in *. rewrite flat_map_app, <- app_assoc. rewrite E. cbn [bind].
          destruct (Nat.leb_spec nsel r); [lia|]. fold inv. fold m1. exact Em.
        + intros r' s Hr' Hs. destruct (in_dec Nat.eq_dec r' require) as [I|NI]; [now apply Vm|].
          destruct Hr' as [<-|I]; [|contradiction]. rewrite Um by exact NI. unfold m1. rewrite block_put_column. unfold diff_block. rewrite C0, C1, C2.
          assert (Hs' : s < n) by (rewrite Forall_forall in HS; now apply HS).
          destruct G0 as (L0 & L0' & G0), G1 as (L1 & L1' & G1), G2 as (L2 & L2' & G2). cbn [fst snd] in *.
          destruct (nth_error f0' s) as [x0|] eqn:X0; [|apply nth_error_None in X0; lia].
          destruct (nth_error b0' s) as [y0|] eqn:Y0; [|apply nth_error_None in Y0; lia].
          destruct (nth_error f1' s) as [x1|] eqn:X1; [|apply nth_error_None in X1; lia].
          destruct (nth_error b1' s) as [y1|] eqn:Y1; [|apply nth_error_None in Y1; lia].
          destruct (nth_error f2' s) as [x2|] eqn:X2; [|apply nth_error_None in X2; lia].
          destruct (nth_error b2' s) as [y2|] eqn:Y2; [|apply nth_error_None in Y2; lia].
          cbn [option_map]. rewrite (G0 s x0 y0 Hs X0 Y0), (G1 s x1 y1 Hs X1 Y1), (G2 s x2 y2 Hs X2 Y2). f_equal. apply block_solved. exact A8.
        + intros s r' NI. rewrite Um by (intros Hc; apply NI; right; exact Hc). unfold m1. apply block_put_column_other. intros ->. apply NI. left; reflexivity.
    Qed.

    Lemma derive_rows_ok Wc nr g (HW : det Wc <> f0) (Hg : g <> nr) : forall img k m,
      k + length img <= length st ->
      (forall j v s t, nth_error img j = Some v -> nth_error st (k + j) = Some s -> nth_error st v = Some t -> mmul Wc (Phi s nr) = mmul (Phi t g) Wc) ->
      Forall (fun v => v < length st) img ->
      (forall s, In s st -> block_of m s g = Some (mscale (finv angstrom) (Phi s g))) ->
      exists m', derive_rows st Wc nr g k img m = Ok m' /\
        (forall j s, j < length img -> nth_error st (k + j) = Some s -> block_of m' s nr = Some (mscale (finv angstrom) (Phi s nr))) /\
        (forall s c, c <> nr -> block_of m' s c = block_of m s c) /\
        (forall s, (forall j, j < length img -> nth_error st (k + j) <> Some s) -> block_of m' s nr = block_of m s nr).
    Proof.
      induction img as [|v img IH]; intros k m Hk HC HI HG.
      - exists m. split; [reflexivity|]. split; [cbn; intros; lia|]. split; reflexivity.
      - cbn [length] in Hk. inversion HI as [|? ? Hv HI']; subst.
        destruct (nth_error st v) as [t|] eqn:Et; [|apply nth_error_None in Et; lia].
        destruct (nth_error st k) as [s|] eqn:Es; [|apply nth_error_None in Es; lia].
        set (nb := option_map (fun B => mmul (mmul (minv_raw Wc) B) Wc) (block_of m t g)).
        assert (NB : nb = Some (mscale (finv angstrom) (Phi s nr))).
        { unfold nb. rewrite (HG t (nth_error_In _ _ Et)). cbn [option_map]. f_equal.
          rewrite mmul_mscale_r, mmul_mscale_l. f_equal. rewrite mmul_assoc.
          rewrite <- (HC 0 v s t eq_refl ltac:(rewrite Nat.add_0_r; exact Es) Et). rewrite <- mmul_assoc, minv_l by exact HW. apply mmul_id_l. }
        destruct (IH (S k) (put_block m s nr nb)) as (m' & E & V & U & U2); [lia| |exact HI'| |].
        { intros j v' s' t' B1 B2 B3. apply (HC (S j) v' s' t' B1); [rewrite <- B2; f_equal; lia|exact B3]. }
        { intros s' Hs'. rewrite block_put_other by (right; exact Hg). now apply HG. }
        exists m'. split; [|split; [|split]].
        + cbn [derive_rows]. rewrite (py_nth_ok _ _ _ Es). cbn [bind]. rewrite (py_nth_ok _ _ _ Et). cbn [bind]. fold nb. exact E.
        + intros j s' Hj Hs'. destruct j as [|j].
          * rewrite Nat.add_0_r in Hs'. assert (s' = s) by congruence. subst s'. rewrite U2.
            -- rewrite block_put. exact NB.
            -- intros j' Hj' Hc. assert (k = S k + j') by (eapply (proj1 (NoDup_nth_error st) ND); [apply nth_error_Some; congruence|congruence]). lia.
          * apply (V j); [cbn [length] in Hj; lia|]. rewrite <- Hs'. f_equal. lia.
        + intros s' c Hc. rewrite U by exact Hc. apply block_put_other. right; exact Hc.
        + intros s' Hs'. rewrite U2.
          * apply block_put_other. left. intros ->. apply (Hs' 0); [cbn; lia|]. rewrite Nat.add_0_r. exact Es.
          * intros j Hj Hc. apply (Hs' (S j)); [cbn [length]; lia|]. rewrite <- Hc. f_equal. lia.
    Qed.

    (** what the search must deliver for a derived atom [nr] and its operation [pg] *)
    Definition derived_ok (sd : symdata A) (L : m3 A) (norms : v3 A) (require : list nat) (pg nr : nat) : Prop :=
      ~ In nr require /\
      exists W per img same s0 g, nth_error (sd_W sd) pg = Some W /\ nth_error (sd_same_super sd) pg = Some per /\ nth_error per nr = Some img /\
        nth_error (sd_same_index sd) pg = Some same /\ nth_error same 0 = Some s0 /\ nth_error s0 nr = Some g /\ In g require /\
        det (cart_op L norms W) <> f0 /\ carries st img (cart_op L norms W) Phi nr g.

    Lemma derive_loop_ok sd L norms require : forall l m,
      Forall (fun '(pg, nr) => derived_ok sd L norms require pg nr) l ->
      (forall r s, In r require -> In s st -> block_of m s r = Some (mscale (finv angstrom) (Phi s r))) ->
      exists m', derive_loop st sd L norms l m = (m', None) /\
        (forall r s, In r require \/ In r (map snd l) -> In s st -> block_of m' s r = Some (mscale (finv angstrom) (Phi s r))) /\
        (forall r s, ~ In r (map snd l) -> block_of m' s r = block_of m s r).
    Proof.
      induction l as [|[pg nr] l IH]; intros m HL HG.
      - exists m. split; [reflexivity|]. split; [|reflexivity]. intros r s [Hr|[]]. now apply HG.
      - inversion HL as [|? ? H0 HL']; subst. cbn in H0.
        destruct H0 as (NI & W & per & img & same & s0 & g & A1 & A2 & A3 & A4 & A5 & A6 & A7 & A8 & (Li & Ni & Hi & HC)).
        assert (Hg : g <> nr) by (intros ->; contradiction).
        destruct (derive_rows_ok (cart_op L norms W) nr g A8 Hg img 0 m) as (m1 & E1 & V1 & U1 & _); [cbn; lia|exact HC|exact Hi|intros; now apply HG|].
        assert (G1 : forall r s, In r require -> In s st -> block_of m1 s r = Some (mscale (finv angstrom) (Phi s r))).
        { intros r s Hr Hs. rewrite U1 by (intros ->; contradiction). now apply HG. }
        destruct (IH m1 HL' G1) as (m' & E & V & U). exists m'. split; [|split].
        + cbn [derive_loop]. rewrite (py_nth_ok _ _ _ A1). cbn [bind]. rewrite (py_nth_ok _ _ _ A2). cbn [bind]. rewrite (py_nth_ok _ _ _ A3). cbn [bind].
          destruct (f_dec (det (cart_op L norms W)) f0) as [Z|_]; [contradiction|].
          rewrite (py_nth_ok _ _ _ A4). cbn [bind]. rewrite (py_nth_ok _ _ _ A5). cbn [bind]. rewrite (py_nth_ok _ _ _ A6). cbn [bind]. rewrite E1. exact E.
        + intros r s Hr Hs. destruct (in_dec Nat.eq_dec r (map snd l)) as [I|NI']; [apply V; auto|].
          destruct (in_dec Nat.eq_dec r require) as [I|NI'']; [apply V; auto|].
          destruct Hr as [Hr|[<-|Hr]]; [contradiction| |contradiction]. cbn [snd] in *. rewrite U by exact NI'.
          apply In_nth_error in Hs. destruct Hs as (k & Hk). apply (V1 k); [rewrite Li; apply nth_error_Some; congruence|exact Hk].
        + intros r s Hr. cbn [map snd] in Hr. rewrite U by (intros Hc; apply Hr; right; exact Hc). apply U1. intros ->. apply Hr. left; reflexivity.
    Qed.
  End R.
End FF.
