(** Property theorems: space-group operations and image atoms (C42, C43, C60).  Model: Sym.v. *)
From Coq Require Import String ZArith QArith Qcanon Bool Lia Lqa Psatz Arith Permutation setoid_ring.Field List.
From Verif Require Import Base Field Force Sym Order SymFacts PropsLattice.
Import ListNotations.
Local Open Scope list_scope.
Local Open Scope nat_scope.

Section SymP.
  Context {A : Type} {F : Fld A} {N : Num A F} {NL : NumLaws A F N}.
  Add Field fld_sym : f_theory.

  (** * Specification *)
  Definition ivec (n1 n2 n3 : Z) : v3 A := V3 (fofZ n1) (fofZ n2) (fofZ n3).
  (** Cartesian vector from direct position x to direct position y shifted by n cells *)
  Definition gap (L : m3 A) (y x n : v3 A) : v3 A := vmul (vsub (vsub y x) n) L.
  Definition within (e : A) (v : v3 A) : Prop := le (fabs (vx v)) e /\ le (fabs (vy v)) e /\ le (fabs (vz v)) e.
  (** y is the position x up to a lattice translation, each Cartesian component within 1e-4 *)
  Definition coincide (L : m3 A) (y x : v3 A) : Prop := exists n1 n2 n3, within (fdiv (fofZ 100) (fofZ (10 ^ 6))) (gap L y x (ivec n1 n2 n3)).
  (** the atoms at positions [tr] of the structure *)
  Definition selection (atoms : list (atom A)) (tr : list nat) (sel : list (atom A)) : Prop :=
    Forall2 (fun k a => nth_error atoms k = Some a) tr sel.
  (** different selected atoms of one type, periodic images included, are more than sqrt(12) * 1e-4 apart *)
  Definition far_apart (L : m3 A) (sel : list (atom A)) : Prop :=
    forall i j t x y n1 n2 n3, i <> j -> nth_error sel i = Some (t, x) -> nth_error sel j = Some (t, y) ->
      ~ le (vdot (gap L x y (ivec n1 n2 n3)) (gap L x y (ivec n1 n2 n3))) (fdiv (fofZ 12) (fofZ (10 ^ 8))).
  (** position of direct position x after the operation (W, w) *)
  Definition image (p q : nat) (W : mat2) (w x : v3 A) : v3 A := vadd (mvmul (embed p q W) x) w.

  (** * Lemmas *)
  Lemma tol_ne k : (0 <= k)%Z -> (fofZ (10 ^ k) : A) <> f0.
  Proof. intros Hk E. apply fofZ_inj0 in E. pose proof (Z.pow_pos_nonneg 10 k ltac:(lia) Hk). lia. Qed.
  Lemma same_place_coincide L (y x : v3 A) : same_place L y x = true -> coincide L y x.
  Proof.
    unfold same_place, small. rewrite !andb_true_iff. intros ((H1 & H2) & H3). exists (frint (vx (vsub y x))), (frint (vy (vsub y x))), (frint (vz (vsub y x))).
    assert (E : gap L y x (ivec (frint (vx (vsub y x))) (frint (vy (vsub y x))) (frint (vz (vsub y x)))) =
                mvmul (transpose L) (vsub (vsub y x) (vmap (fun t => fofZ (frint t)) (vsub y x)))).
    { unfold gap, ivec, vmap. generalize (vsub y x). intros v. generalize (fofZ (frint (vx v)) : A) (fofZ (frint (vy v)) : A) (fofZ (frint (vz v)) : A). intros n1 n2 n3.
      clear. vring_gen. }
    rewrite E. repeat split; assumption.
  Qed.
  Lemma exact_same_place L (y x : v3 A) n1 n2 n3 : y = vadd x (ivec n1 n2 n3) -> same_place L y x = true.
  Proof.
    intros ->. unfold same_place. 
    assert (E : vsub (vadd x (ivec n1 n2 n3)) x = ivec n1 n2 n3) by (clear; unfold ivec; generalize (fofZ n1 : A) (fofZ n2 : A) (fofZ n3 : A); intros; vring_gen).
    rewrite E. unfold vmap, ivec. cbn [vx vy vz]. rewrite !frint_Z.
    assert (Z : mvmul (transpose L) (vsub (V3 (fofZ n1) (fofZ n2) (fofZ n3)) (V3 (fofZ n1) (fofZ n2) (fofZ n3))) = v3z) by (generalize (fofZ n1 : A) (fofZ n2 : A) (fofZ n3 : A); clear; intros; vring_gen).
    rewrite Z. unfold small, v3z. cbn [vx vy vz].
    assert (K : fleb (fabs (f0 : A)) (dec6 100) = true).
    { unfold fabs. rewrite le_refl. unfold dec6. apply div_pos; [rewrite <- fofZ_0; apply fofZ_le; lia|reflexivity]. }
    rewrite K. reflexivity.
  Qed.
  Lemma gap_tol (u v : v3 A) : within (fdiv (fofZ 100) (fofZ (10 ^ 6))) u -> within (fdiv (fofZ 100) (fofZ (10 ^ 6))) v ->
    le (vdot (vsub u v) (vsub u v)) (fdiv (fofZ 12) (fofZ (10 ^ 8))).
  Proof.
    intros (U1 & U2 & U3) (V1 & V2 & V3'). set (e := fdiv (fofZ 100) (fofZ (10 ^ 6)) : A) in *.
    assert (E : fdiv (fofZ 12) (fofZ (10 ^ 8)) = fadd (fadd (fmul (fadd e e) (fadd e e)) (fmul (fadd e e) (fadd e e))) (fmul (fadd e e) (fadd e e))).
    { unfold e. change (10 ^ 8)%Z with (100 * 10 ^ 6)%Z. change (10 ^ 6)%Z with (100 * (100 * 100))%Z. rewrite !fofZ_mul.
      assert (N1 : (fofZ 100 : A) <> f0) by (intros K; apply fofZ_inj0 in K; lia).
      replace (fofZ 12 : A) with (fadd (fadd (fmul (fadd f1 f1) (fadd f1 f1)) (fmul (fadd f1 f1) (fadd f1 f1))) (fmul (fadd f1 f1) (fadd f1 f1))).
      - field. repeat split; assumption.
      - change 12%Z with ((1 + 1) * (1 + 1) + (1 + 1) * (1 + 1) + (1 + 1) * (1 + 1))%Z. rewrite !fofZ_add, !fofZ_mul, !fofZ_add, !fofZ_1. reflexivity. }
    rewrite E. clearbody e. unfold vdot, vsub. cbn [vx vy vz].
    repeat apply le_plus; apply sq_le; now apply fabs_sub.
  Qed.
  Lemma coincide_unique L sel : far_apart L sel -> forall ty y, length (matches L sel ty y) <= 1.
  Proof.
    intros HF ty y. destruct (matches L sel ty y) as [|j [|k l]] eqn:E; cbn; try lia. exfalso.
    pose proof (matches_NoDup L sel ty y) as ND. rewrite E in ND. inversion ND as [|? ? N1 _]; subst.
    assert (Hj : In j (matches L sel ty y)) by (rewrite E; now left). assert (Hk : In k (matches L sel ty y)) by (rewrite E; right; now left).
    apply matches_In in Hj as (x & Sx & Px). apply matches_In in Hk as (x' & Sx' & Px').
    apply same_place_coincide in Px as (a1 & a2 & a3 & Ha). apply same_place_coincide in Px' as (b1 & b2 & b3 & Hb).
    assert (Ne : j <> k) by (intros ->; apply N1; now left).
    apply (HF j k ty x x' (b1 - a1)%Z (b2 - a2)%Z (b3 - a3)%Z Ne Sx Sx').
    assert (EG : gap L x x' (ivec (b1 - a1) (b2 - a2) (b3 - a3)) = vsub (gap L y x' (ivec b1 b2 b3)) (gap L y x (ivec a1 a2 a3))).
    { unfold gap, ivec. rewrite !fofZ_sub. generalize (fofZ a1 : A) (fofZ a2 : A) (fofZ a3 : A) (fofZ b1 : A) (fofZ b2 : A) (fofZ b3 : A). clear. intros. vring_gen. }
    rewrite EG. now apply gap_tol.
  Qed.
  Lemma selection_mapM atoms tr sel : selection atoms tr sel -> mapM (py_nth atoms) tr = Ok sel.
  Proof.
    unfold selection. induction 1 as [|k a tr sel H1 H2 IH]; [reflexivity|]. cbn [mapM]. unfold py_nth at 1. rewrite H1. cbn [of_option bind]. rewrite IH. reflexivity.
  Qed.
  Lemma space_op_map L p q r atoms tr sel W w same : In (w, same) (op_maps (space_op L p q r atoms tr sel W)) ->
    In w (w_candidates r atoms tr (embed p q W)) /\ In same (accepted L sel (map (fun '(ty, x) => (ty, image p q W w x)) sel)).
  Proof.
    unfold space_op. cbn [op_maps]. rewrite in_flat_map. intros (w' & Hw & H). apply in_map_iff in H as (s & E & Hs). injection E as -> ->. split; [exact Hw|exact Hs].
  Qed.

  (** * C42 *)
  Theorem accepted_operations_map_atoms : forall L p q r atoms tr sel ops g,
    selection atoms tr sel -> far_apart L sel -> search_point_group L (p, q, r) atoms tr = Ok (ops, g) ->
    forall o w same, In o ops -> In (w, same) (op_maps o) ->
      length same = length sel /\
      forall i t x, nth_error sel i = Some (t, x) ->
        exists j x', nth_error same i = Some j /\ nth_error sel j = Some (t, x') /\ coincide L (image p q (op_W o) w x) x'.
  Proof.
    intros L p q r atoms tr sel ops g HS HF H o w same Ho Hm.
    destruct (search_ops_In _ _ _ _ _ _ _ _ _ H Ho) as (sel' & W & Hs & _ & -> & _). rewrite (selection_mapM _ _ _ HS) in Hs. injection Hs as <-.
    apply space_op_map in Hm as (_ & Hm). apply accepted_In in Hm; [|apply coincide_unique; exact HF|now rewrite map_length].
    pose proof (Forall2_len Hm) as HL. rewrite map_length in HL. split; [now symmetry|].
    intros i t x Hi. assert (Hy : nth_error (map (fun '(ty, x) => (ty, image p q W w x)) sel) i = Some (t, image p q W w x)) by exact (map_nth_error (fun '(ty, x) => (ty, image p q W w x)) i sel Hi).
    clear HL. revert i Hi Hy. remember (map (fun '(ty, x) => (ty, image p q W w x)) sel) as ys. clear Heqys. intros i _ Hy. revert i Hy.
    induction Hm as [|a j ys same HM Hm IH]; intros i Hy; [destruct i; discriminate|].
    destruct i as [|i]; [|exact (IH i Hy)]. cbn in Hy. injection Hy as ->. cbn [fst snd] in HM.
    assert (Hj : In j (matches L sel t (image p q W w x))) by (rewrite HM; now left). apply matches_In in Hj as (x' & S1 & S2).
    exists j, x'. split; [reflexivity|]. split; [exact S1|]. cbn [op_W space_op]. now apply same_place_coincide.
  Qed.

  (** An isometric operation permutes the selected atoms. *)
  Theorem isometric_operations_permute_atoms : forall L p q r atoms tr sel ops g,
    In (p, q, r) [(0, 1, 2); (0, 2, 1); (1, 2, 0)] ->
    selection atoms tr sel -> far_apart L sel -> search_point_group L (p, q, r) atoms tr = Ok (ops, g) ->
    forall o w same, In o ops -> In (w, same) (op_maps o) ->
      (forall v, vdot (vmul (mvmul (embed p q (op_W o)) v) L) (vmul (mvmul (embed p q (op_W o)) v) L) = vdot (vmul v L) (vmul v L)) ->
      Permutation same (seq 0 (length sel)).
  Proof.
    intros L p q r atoms tr sel ops g HP HS HF H o w same Ho Hm Hiso.
    destruct (accepted_operations_map_atoms L p q r atoms tr sel ops g HS HF H o w same Ho Hm) as (HL & HV).
    destruct (search_ops_In _ _ _ _ _ _ _ _ _ H Ho) as (sel' & W & _ & HW & -> & _). cbn [op_W space_op] in *. clear Hm Ho H.
    apply in_lattice_ops in HW as (HW & _). destruct W as [a b c d]. apply (proj1 candidates_exact) in HW as (_ & _ & _ & _ & HD).
    assert (ND : NoDup same).
    { apply (NoDup_nth_error same). intros i i' Hi E.
      destruct (nth_error sel i) as [[t x]|] eqn:Ei; [|apply nth_error_None in Ei; lia].
      destruct (HV i t x Ei) as (j & xj & Sj & Pj & (n1 & n2 & n3 & G1)).
      destruct (Nat.eq_dec i i') as [|Ne]; [assumption|exfalso].
      assert (Hi' : i' < length sel) by (rewrite <- HL; apply nth_error_Some; rewrite <- E, Sj; discriminate).
      destruct (nth_error sel i') as [[t' x']|] eqn:Ei'; [|apply nth_error_None in Ei'; lia].
      destruct (HV i' t' x' Ei') as (j' & xj' & Sj' & Pj' & (m1 & m2 & m3' & G2)).
      assert (j' = j) by congruence. subst j'. assert (xj' = xj) by congruence. assert (t' = t) by congruence. subst xj' t'.
      pose proof (gap_tol _ _ G1 G2) as GT.
      set (k1 := (n1 - m1)%Z). set (k2 := (n2 - m2)%Z). set (k3 := (n3 - m3')%Z).
      (* integer preimage of (k1, k2, k3) *)
      assert (PRE : exists l1 l2 l3, mvmul (embed p q (M2 a b c d)) (ivec l1 l2 l3) = ivec k1 k2 k3).
      { clearbody k1 k2 k3. clear - HP HD. cbn [In] in HP.
        assert (UN : forall s t : Z, exists u v, (a * u + b * v = s /\ c * u + d * v = t)%Z).
        { intros s t. destruct HD as [HD|HD].
          - exists (d * s - b * t)%Z, (a * t - c * s)%Z. split; [transitivity ((a * d - b * c) * s)%Z|transitivity ((a * d - b * c) * t)%Z]; (ring || (rewrite HD; ring)).
          - exists (b * t - d * s)%Z, (c * s - a * t)%Z. split; [transitivity (- (a * d - b * c) * s)%Z|transitivity (- (a * d - b * c) * t)%Z]; (ring || (rewrite HD; ring)). }
        assert (FZ : forall u v s x y : Z, (x * u + y * v = s)%Z -> fadd (fmul (fofZ x) (fofZ u)) (fmul (fofZ y) (fofZ v)) = (fofZ s : A)).
        { intros u v s x y <-. now rewrite fofZ_add, !fofZ_mul. }
        destruct HP as [E|[E|[E|[]]]]; injection E as <- <- <-.
        - destruct (UN k1 k2) as (u & v & U1 & U2). exists u, v, k3. unfold embed, ivec, mvmul, vdot. cbn [Nat.eqb andb r1 r2 r3 vx vy vz m11 m12 m21 m22].
          apply v3_ext; cbn [vx vy vz]; [rewrite <- (FZ _ _ _ _ _ U1)|rewrite <- (FZ _ _ _ _ _ U2)|]; ring.
        - destruct (UN k1 k3) as (u & v & U1 & U2). exists u, k2, v. unfold embed, ivec, mvmul, vdot. cbn [Nat.eqb andb r1 r2 r3 vx vy vz m11 m12 m21 m22].
          apply v3_ext; cbn [vx vy vz]; [rewrite <- (FZ _ _ _ _ _ U1)| |rewrite <- (FZ _ _ _ _ _ U2)]; ring.
        - destruct (UN k2 k3) as (u & v & U1 & U2). exists k1, u, v. unfold embed, ivec, mvmul, vdot. cbn [Nat.eqb andb r1 r2 r3 vx vy vz m11 m12 m21 m22].
          apply v3_ext; cbn [vx vy vz]; [|rewrite <- (FZ _ _ _ _ _ U1)|rewrite <- (FZ _ _ _ _ _ U2)]; ring. }
      destruct PRE as (l1 & l2 & l3 & PRE).
      apply (HF i i' t x x' l1 l2 l3 Ne Ei Ei').
      assert (EG : vdot (gap L x x' (ivec l1 l2 l3)) (gap L x x' (ivec l1 l2 l3)) =
                   vdot (vsub (gap L (image p q (M2 a b c d) w x) xj (ivec n1 n2 n3)) (gap L (image p q (M2 a b c d) w x') xj (ivec m1 m2 m3')))
                        (vsub (gap L (image p q (M2 a b c d) w x) xj (ivec n1 n2 n3)) (gap L (image p q (M2 a b c d) w x') xj (ivec m1 m2 m3')))).
      { unfold gap at 1 2. rewrite <- (Hiso (vsub (vsub x x') (ivec l1 l2 l3))).
        assert (EV : vmul (mvmul (embed p q (M2 a b c d)) (vsub (vsub x x') (ivec l1 l2 l3))) L =
                     vsub (gap L (image p q (M2 a b c d) w x) xj (ivec n1 n2 n3)) (gap L (image p q (M2 a b c d) w x') xj (ivec m1 m2 m3'))).
        { assert (E1 : mvmul (embed p q (M2 a b c d)) (vsub (vsub x x') (ivec l1 l2 l3)) = vsub (vsub (mvmul (embed p q (M2 a b c d)) x) (mvmul (embed p q (M2 a b c d)) x')) (ivec k1 k2 k3)).
          { rewrite <- PRE. generalize (embed (A := A) p q (M2 a b c d)) (ivec l1 l2 l3). clear. intros M v. vring_gen. }
          rewrite E1. unfold gap, image, ivec, k1, k2, k3. rewrite !fofZ_sub. generalize (embed (A := A) p q (M2 a b c d)).
          generalize (fofZ n1 : A) (fofZ n2 : A) (fofZ n3 : A) (fofZ m1 : A) (fofZ m2 : A) (fofZ m3' : A). clear. intros i1 i2 i3 j1 j2 j3 M.
          destruct M as [R1 R2 R3], L as [L1 L2 L3]. destruct R1, R2, R3, L1, L2, L3, x, x', xj, w. apply v3_ext;
          cbv beta iota zeta delta [Field.vx Field.vy Field.vz Field.r1 Field.r2 Field.r3 vadd vsub vscale vdot vmul mvmul]; ring. }
        rewrite EV. reflexivity. }
      rewrite EG. exact GT. }
    apply NoDup_Permutation_bis; [exact ND|rewrite seq_length; lia|].
    intros j Hj. apply In_nth_error in Hj as (i & Hi).
    assert (Hlt : i < length sel) by (rewrite <- HL; apply nth_error_Some; congruence).
    destruct (nth_error sel i) as [[t x]|] eqn:Ei; [|apply nth_error_None in Ei; lia].
    destruct (HV i t x Ei) as (j' & x' & E1 & E2 & _). assert (j' = j) by congruence. subst j'. apply in_seq. assert (j < length sel) by (apply nth_error_Some; congruence). lia.
  Qed.

  (** An operation that maps the selected atoms exactly, with a translation among the
      candidates (in particular none), is found. *)
  Theorem candidate_symmetries_found : forall L p q r atoms tr sel ops g W w,
    selection atoms tr sel -> tr <> [] -> far_apart L sel -> search_point_group L (p, q, r) atoms tr = Ok (ops, g) ->
    In W (lattice_ops L p q) -> In w (w_candidates r atoms tr (embed p q W)) ->
    (forall i t x, nth_error sel i = Some (t, x) -> exists j x' n1 n2 n3, nth_error sel j = Some (t, x') /\ image p q W w x = vadd x' (ivec n1 n2 n3)) ->
    exists o same, In o ops /\ op_W o = W /\ In (w, same) (op_maps o).
  Proof.
    intros L p q r atoms tr sel ops g W w HS Hne HF H HW Hw HE.
    pose proof (coincide_unique L sel HF) as HU.
    assert (HJ : exists js, Forall2 (fun a j => matches L sel (fst a) (snd a) = [j]) (map (fun '(ty, x) => (ty, image p q W w x)) sel) js).
    { assert (G : forall l, (forall i t x, nth_error l i = Some (t, x) -> exists j x' n1 n2 n3, nth_error sel j = Some (t, x') /\ image p q W w x = vadd x' (ivec n1 n2 n3)) ->
         exists js, Forall2 (fun a j => matches L sel (fst a) (snd a) = [j]) (map (fun '(ty, x) => (ty, image p q W w x)) l) js).
      { induction l as [|[t x] l IH]; intros Hl; [exists []; constructor|]. destruct IH as (js & IH); [intros i; exact (Hl (S i))|].
        destruct (Hl 0 t x eq_refl) as (j & x' & n1 & n2 & n3 & E1 & E2). exists (j :: js). constructor; [|exact IH]. cbn [fst snd].
        assert (Hj : In j (matches L sel t (image p q W w x))) by (apply matches_In; exists x'; split; [exact E1|]; now apply exact_same_place with n1 n2 n3).
        specialize (HU t (image p q W w x)). destruct (matches L sel t (image p q W w x)) as [|k [|? ?]]; cbn [length In] in HU, Hj; [destruct Hj| |exfalso; lia]. destruct Hj as [<-|[]]. reflexivity. }
      exact (G sel HE). }
    destruct HJ as (js & HJ). apply accepted_total in HJ; [| |now rewrite map_length].
    - exists (space_op L p q r atoms tr sel W), js.
      assert (HI : In (w, js) (op_maps (space_op L p q r atoms tr sel W))).
      { rewrite space_op_maps. apply in_flat_map. exists w. split; [exact Hw|]. apply in_map_iff. exists js. split; [reflexivity|exact HJ]. }
      split; [|split; [reflexivity|exact HI]]. apply (search_ops_intro L p q r atoms tr sel ops g W H (selection_mapM _ _ _ HS) HW). intros E. rewrite E in HI. destruct HI.
    - destruct HS as [|k a tr' sel' H1 H2]; [congruence|discriminate].
  Qed.
  Theorem symmorphic_symmetries_found : forall L p q r atoms tr sel ops g W,
    selection atoms tr sel -> tr <> [] -> far_apart L sel -> search_point_group L (p, q, r) atoms tr = Ok (ops, g) ->
    In W (lattice_ops L p q) ->
    (forall i t x, nth_error sel i = Some (t, x) -> exists j x' n1 n2 n3, nth_error sel j = Some (t, x') /\ mvmul (embed p q W) x = vadd x' (ivec n1 n2 n3)) ->
    exists o same, In o ops /\ op_W o = W /\ In (v3z, same) (op_maps o).
  Proof.
    intros L p q r atoms tr sel ops g W HS Hne HF H HW HE. apply (candidate_symmetries_found L p q r atoms tr sel ops g W v3z); try assumption; [now left|].
    intros i t x Hi. unfold image. rewrite vadd_0_r. exact (HE i t x Hi).
  Qed.

  (** * C43 *)
  (** What the loop knows after having treated atoms 0 .. m-1. *)
  Definition image_inv (ops : list (op A)) (m : nat) (pgi req nreq : list nat) : Prop :=
    Permutation (req ++ nreq) (seq 0 m) /\ length pgi = length nreq /\
    (forall k i, In (k, i) (combine pgi nreq) -> exists o mp j, nth_error ops k = Some o /\ first_map o = Ok mp /\ nth_error mp i = Some j /\ In j req /\ j < i) /\
    (forall i, In i req -> forall o mp j, In o ops -> first_map o = Ok mp -> nth_error mp i = Some j -> In j req -> i <= j).
  Lemma find_image_spec (ops : list (op A)) : forall k ind req f, find_image ops k ind req = Ok f ->
    match f with
    | Some n => exists o mp j, k <= n /\ nth_error ops (n - k) = Some o /\ first_map o = Ok mp /\ nth_error mp ind = Some j /\ In j req
    | None => forall o mp j, In o ops -> first_map o = Ok mp -> nth_error mp ind = Some j -> ~ In j req
    end.
  Proof.
    induction ops as [|o ops IH]; intros k ind req f H; cbn [find_image] in H; [injection H as <-; intros o mp j []|].
    apply bind_ok in H as (mp & Hm & H). apply bind_ok in H as (j & Hj & H). unfold py_nth in Hj.
    destruct (nth_error mp ind) as [j'|] eqn:Ej; [|discriminate]. cbn in Hj. injection Hj as ->.
    destruct (existsb (Nat.eqb j) req) eqn:Ex.
    - injection H as <-. exists o, mp, j. rewrite Nat.sub_diag. split; [lia|]. split; [reflexivity|]. split; [exact Hm|]. split; [exact Ej|]. apply existsb_exists in Ex as (y & Hy & E). apply Nat.eqb_eq in E. now subst y.
    - apply IH in H. destruct f as [n|].
      + destruct H as (o' & mp' & j' & H1 & H2 & H3). exists o', mp', j'. split; [lia|]. split; [|exact H3]. replace (n - k) with (S (n - S k)) by lia. exact H2.
      + intros o' mp' j' [<-|Ho] Hm' Hj' Hin; [|exact (H o' mp' j' Ho Hm' Hj' Hin)]. assert (mp' = mp) by congruence. subst mp'. assert (j' = j) by congruence. subst j'.
        assert (T : existsb (Nat.eqb j) req = true) by (apply existsb_exists; exists j; split; [exact Hin|apply Nat.eqb_refl]). congruence.
  Qed.
  Lemma combine_app_one (l l' : list nat) a b k i : length l = length l' -> In (k, i) (combine (l ++ [a]) (l' ++ [b])) -> In (k, i) (combine l l') \/ (k = a /\ i = b).
  Proof.
    revert l'. induction l as [|x l IH]; intros [|y l'] HL H; try discriminate.
    - cbn in H. destruct H as [E|[]]. injection E as <- <-. now right.
    - cbn in H. destruct H as [E|H]; [left; left; exact E|]. injection HL as HL. destruct (IH l' HL H) as [K|K]; [left; now right|now right].
  Qed.
  Lemma image_loop_inv (ops : list (op A)) : forall n m pgi req nreq pgi' req' nreq', image_inv ops m pgi req nreq ->
    image_loop ops (seq m n) pgi req nreq = Ok (pgi', req', nreq') -> image_inv ops (m + n) pgi' req' nreq'.
  Proof.
    induction n as [|n IH]; intros m pgi req nreq pgi' req' nreq' (P & HL & HD & HR) H; cbn [seq image_loop] in H.
    - injection H as <- <- <-. rewrite Nat.add_0_r. repeat split; assumption.
    - assert (BD : forall j, In j req -> j < m).
      { intros j Hj. assert (HI : In j (seq 0 m)) by (apply (Permutation_in _ P); apply in_or_app; now left). apply in_seq in HI. lia. }
      assert (NEW : (forall o mp j, In o ops -> first_map o = Ok mp -> nth_error mp m = Some j -> ~ In j req) -> image_inv ops (S m) pgi (req ++ [m]) nreq).
      { intros HN. split; [|split; [exact HL|split]].
        - rewrite seq_S. cbn [Nat.add]. rewrite <- P. rewrite <- !app_assoc. apply Permutation_app_head. apply Permutation_app_comm.
        - intros k i Hki. destruct (HD k i Hki) as (o & mp & j & A1 & A2 & A3 & A4 & A5). exists o, mp, j. repeat split; try assumption. apply in_or_app; now left.
        - intros i Hi o mp j Ho Hm Hj Hin. apply in_app_or in Hi. apply in_app_or in Hin.
          destruct Hi as [Hi|[<-|[]]]; destruct Hin as [Hin|[<-|[]]]; [exact (HR i Hi o mp j Ho Hm Hj Hin)| | |lia].
          + specialize (BD i Hi). lia.
          + exfalso. exact (HN o mp j Ho Hm Hj Hin). }
      replace (m + S n) with (S m + n) by lia. destruct req as [|r0 req0].
      + apply (IH (S m) _ _ _ _ _ _ (NEW ltac:(intros; intros []))). exact H.
      + apply bind_ok in H as (f & Hf & H). apply find_image_spec in Hf. destruct f as [k|].
        * apply (IH (S m) _ _ _ _ _ _) in H; [exact H|]. destruct Hf as (o & mp & j & _ & F2 & F3 & F4 & F5). rewrite Nat.sub_0_r in F2.
          split; [|split; [rewrite !app_length; cbn; lia|split; [|exact HR]]].
          -- rewrite seq_S. cbn [Nat.add]. rewrite <- P. rewrite <- !app_assoc. reflexivity.
          -- intros k' i Hki. apply combine_app_one in Hki; [|exact HL]. destruct Hki as [Hki|(-> & ->)]; [exact (HD k' i Hki)|]. exists o, mp, j. repeat split; try assumption. now apply BD.
        * apply (IH (S m) _ _ _ _ _ _ (NEW Hf)). exact H.
  Qed.

  (** Required and derived atoms split the selection; the recorded operation carries each derived atom to an
      earlier required one; no operation carries a required atom to an earlier required one. *)
  Theorem image_atoms_partition : forall (ops : list (op A)) n pgi req nreq,
    search_image_atom ops n = Ok (pgi, req, nreq) ->
    Permutation (req ++ nreq) (seq 0 n) /\ length pgi = length nreq /\
    (forall k i, In (k, i) (combine pgi nreq) -> exists o mp j, nth_error ops k = Some o /\ first_map o = Ok mp /\ nth_error mp i = Some j /\ In j req /\ j < i) /\
    (forall i, In i req -> forall o mp j, In o ops -> first_map o = Ok mp -> nth_error mp i = Some j -> In j req -> i <= j).
  Proof.
    intros ops n pgi req nreq H. apply (image_loop_inv ops n 0 [] [] []) in H; [exact H|].
    split; [constructor|]. split; [reflexivity|]. split; [intros k i []|intros i []].
  Qed.

  (** The search cannot fail after a successful search_point_group. *)
  Theorem image_atoms_total : forall L p q r atoms tr sel ops g,
    selection atoms tr sel -> far_apart L sel -> search_point_group L (p, q, r) atoms tr = Ok (ops, g) ->
    exists pgi req nreq, search_image_atom ops (length tr) = Ok (pgi, req, nreq).
  Proof.
    intros L p q r atoms tr sel ops g HS HF H.
    assert (HM : forall o, In o ops -> exists mp, first_map o = Ok mp /\ length mp = length tr).
    { intros o Ho. destruct (search_ops_In _ _ _ _ _ _ _ _ _ H Ho) as (_ & _ & _ & _ & _ & Hne & _). destruct (op_maps o) as [|[w same] l] eqn:E; [congruence|].
      exists same. unfold first_map. rewrite E. split; [reflexivity|].
      destruct (accepted_operations_map_atoms L p q r atoms tr sel ops g HS HF H o w same Ho) as (HL & _); [rewrite E; now left|]. rewrite HL. symmetry. exact (Forall2_len HS). }
    assert (FI : forall l k i req, (forall o, In o l -> In o ops) -> i < length tr -> exists f, find_image l k i req = Ok f).
    { induction l as [|o l IH]; intros k i req Hl Hi; cbn [find_image]; [eauto|]. destruct (HM o (Hl o (or_introl eq_refl))) as (mp & E & HL). rewrite E. cbn [bind].
      unfold py_nth. destruct (nth_error mp i) as [j|] eqn:Ej; [|apply nth_error_None in Ej; lia]. cbn [of_option bind]. destruct (existsb _ _); [eauto|]. apply IH; [|exact Hi]. intros o' Ho'. apply Hl. now right. }
    assert (G : forall inds pgi req nreq, Forall (fun i => i < length tr) inds -> exists a b c, image_loop ops inds pgi req nreq = Ok (a, b, c)).
    { induction inds as [|i inds IH]; intros pgi req nreq HI; cbn [image_loop]; [eauto|]. inversion HI as [|? ? H1 H2]; subst. destruct req as [|r0 req]; [now apply IH|].
      destruct (FI ops 0 i (r0 :: req) (fun o h => h) H1) as (f & E). rewrite E. cbn [bind]. destruct f; now apply IH. }
    apply G. apply Forall_forall. intros i Hi. apply in_seq in Hi. lia.
  Qed.
End SymP.
Print Assumptions accepted_operations_map_atoms.
Print Assumptions isometric_operations_permute_atoms.
Print Assumptions candidate_symmetries_found.
Print Assumptions symmorphic_symmetries_found.
Print Assumptions image_atoms_partition.
Print Assumptions image_atoms_total.

(** * Concrete crystals *)
Definition qq (a : Z) (b : positive) : Qc := Q2Qc (a # b).
(** A square cell of 4 Angstrom, 15 Angstrom high. *)
Definition square : m3 Qc := M3 (V3 (qq 4 1) (qq 0 1) (qq 0 1)) (V3 (qq 0 1) (qq 4 1) (qq 0 1)) (V3 (qq 0 1) (qq 0 1) (qq 15 1)).
Definition at_ (s : string) (x y z : Qc) : atom Qc := (s, V3 x y z).
Definition found (r : result (list (op Qc) * string)) : option (list (mat2 * list (list nat)) * string) :=
  match r with Ok (ops, g) => Some (map (fun o => (op_W o, map snd (op_maps o))) ops, g) | Err _ => None end.
Definition glide : list (atom Qc) := [at_ "C" (qq 1 10) (qq 1 5) (qq 1 2); at_ "C" (qq (-1) 10) (qq 7 10) (qq 1 2)].
Definition rows : list (atom Qc) := [at_ "C" (qq 1 4) (qq 1 4) (qq 1 2); at_ "C" (qq 1 4) (qq 1 2) (qq 1 2); at_ "C" (qq 1 4) (qq 3 4) (qq 1 2)].

Lemma this_add (a b : Qc) : (this (a + b)%Qc == this a + this b)%Q.
Proof. unfold Qcplus, Q2Qc. cbn [this]. apply Qred_correct. Qed.
Lemma this_mul (a b : Qc) : (this (a * b)%Qc == this a * this b)%Q.
Proof. unfold Qcmult, Q2Qc. cbn [this]. apply Qred_correct. Qed.
Lemma this_sub (a b : Qc) : (this (a - b)%Qc == this a - this b)%Q.
Proof. unfold Qcminus. rewrite this_add. unfold Qcopp, Q2Qc. cbn [this]. rewrite Qred_correct. reflexivity. Qed.
Lemma this_Q2Qc q : (this (Q2Qc q) == q)%Q.
Proof. cbn [this Q2Qc]. apply Qred_correct. Qed.
Lemma fifth_far (s : Qc) (n : Z) : s = qq 1 5 \/ s = qq (-1) 5 -> ((1 # 25) <= this (s - Q2Qc (inject_Z n)) * this (s - Q2Qc (inject_Z n)))%Q.
Proof.
  intros Hs. rewrite this_sub, this_Q2Qc. assert (Es : (this s == 1 # 5 \/ this s == - (1 # 5))%Q) by (destruct Hs as [ -> | -> ]; [left|right]; reflexivity).
  generalize dependent (this s). clear. intros s Es. 
  assert (CZ : (n <= -1 \/ n = 0 \/ 1 <= n)%Z) by lia. destruct CZ as [C|[ -> |C]].
  - assert (CQ : (inject_Z n <= - 1)%Q) by (change (-1)%Q with (inject_Z (-1)); rewrite <- Zle_Qle; exact C). generalize dependent (inject_Z n). intros; destruct Es as [Es|Es]; rewrite Es; nra.
  - destruct Es as [ -> | -> ]; vm_compute; discriminate.
  - assert (CQ : (1 <= inject_Z n)%Q) by (change 1%Q with (inject_Z 1); rewrite <- Zle_Qle; exact C). generalize dependent (inject_Z n). intros; destruct Es as [Es|Es]; rewrite Es; nra.
Qed.
Lemma far_dot (X Y Z f t : Qc) : (this t == 12 # 100000000)%Q -> (this f == 4)%Q -> ((1 # 25) <= this X * this X)%Q -> Qcleb (f * X * (f * X) + Y * Y + Z * Z)%Qc t = true -> False.
Proof.
  intros Ht Hf HX HL. apply Qcleb_le in HL. unfold Qcle in HL. rewrite !this_add, !this_mul, Ht, Hf in HL. generalize dependent (this X). generalize dependent (this Y). generalize dependent (this Z).
  clear. intros z y x HX HL. nra.
Qed.
Lemma gap_square x1 x2 x3 y1 y2 y3 n1 n2 n3 : gap square (V3 x1 x2 x3) (V3 y1 y2 y3) (V3 n1 n2 n3) =
  V3 (qq 4 1 * (x1 - y1 - n1))%Qc (qq 4 1 * (x2 - y2 - n2))%Qc (qq 15 1 * (x3 - y3 - n3))%Qc.
Proof.
  unfold square. assert (Z0 : qq 0 1 = 0%Qc) by (apply Qc_is_canon; vm_compute; reflexivity). rewrite Z0. generalize (qq 4 1) (qq 15 1). intros a c.
  unfold gap, vmul, vadd, vsub, vscale. cbn. f_equal; ring.
Qed.
Lemma fofZ_Qc z : fofZ z = Q2Qc (inject_Z z). Proof. reflexivity. Qed.
Lemma tol_Qc : (this (fdiv (fofZ 12) (fofZ (10 ^ 8)) : Qc) == 12 # 100000000)%Q. Proof. vm_compute. reflexivity. Qed.
Lemma vdot_Qc a1 a2 a3 b1 b2 b3 : vdot (V3 a1 a2 a3) (V3 b1 b2 b3) = (a1 * b1 + a2 * b2 + a3 * b3)%Qc.
Proof. reflexivity. Qed.
Lemma glide_pair x1 x2 x3 y1 y2 y3 n1 n2 n3 : (x1 - y1 = qq 1 5 \/ x1 - y1 = qq (-1) 5)%Qc ->
  ~ le (vdot (gap square (V3 x1 x2 x3) (V3 y1 y2 y3) (ivec n1 n2 n3)) (gap square (V3 x1 x2 x3) (V3 y1 y2 y3) (ivec n1 n2 n3))) (fdiv (fofZ 12) (fofZ (10 ^ 8))).
Proof.
  intros Hs HL. pose proof (fifth_far _ n1 Hs) as HX. unfold ivec in HL. rewrite !gap_square in HL. rewrite vdot_Qc in HL. rewrite fofZ_Qc in HL.
  apply (far_dot _ _ _ _ _ tol_Qc (eq_refl : this (qq 4 1) == 4)%Q HX HL).
Qed.
Lemma glide_far_apart : far_apart square glide.
Proof.
  intros i j t x y n1 n2 n3 Hij Ei Ej. destruct i as [|[|i]], j as [|[|j]]; try congruence; try (destruct i; discriminate); try (destruct j; discriminate); cbn in Ei, Ej; injection Ei as <- <-; injection Ej as <-; apply glide_pair.
  - left. apply Qc_is_canon. vm_compute. reflexivity.
  - right. apply Qc_is_canon. vm_compute. reflexivity.
Qed.
Lemma glide_selected : selection glide [0; 1] glide.
Proof. unfold selection, glide. repeat constructor. Qed.

(** The search on a square lattice with one atom finds the group 4mm. *)
Example square_found : found (search_point_group square (0, 1, 2) [at_ "Cu" (qq 0 1) (qq 0 1) (qq 1 2)] [0]) =
  Some (map (fun W => (W, [[0]])) [M2 0 1 1 0; M2 0 1 (-1) 0; M2 0 (-1) 1 0; M2 0 (-1) (-1) 0; M2 1 0 0 1; M2 1 0 0 (-1); M2 (-1) 0 0 1; M2 (-1) 0 0 (-1)]%Z, "4mm"%string).
Proof. vm_compute. reflexivity. Qed.

(** Not every symmetry is found: the structure with a glide line below (plane group pg/p2mg setting) has the
    twofold rotation x -> -x + (0, 9/10, 0), but the search reports the group "m" without it: the
    translation is computed from the enumeration index instead of the atom index. *)
Theorem twofold_symmetry_missed : exists (L : m3 Qc) (atoms : list (atom Qc)) (tr : list nat) ops w,
  far_apart L atoms /\ selection atoms tr atoms /\
  search_point_group L (0, 1, 2) atoms tr = Ok (ops, "m"%string) /\
  In (M2 (-1) 0 0 (-1)) (lattice_ops L 0 1) /\ vz w = f0 /\
  (forall i t x, nth_error atoms i = Some (t, x) -> exists j x' n1 n2 n3, nth_error atoms j = Some (t, x') /\ image 0 1 (M2 (-1) 0 0 (-1)) w x = vadd x' (ivec n1 n2 n3)) /\
  ~ exists o, In o ops /\ op_W o = M2 (-1) 0 0 (-1).
Proof.
  destruct (search_point_group square (0, 1, 2) glide [0; 1]) as [[ops g]|e] eqn:E; [|vm_compute in E; discriminate].
  exists square, glide, [0; 1], ops, (V3 (qq 0 1) (qq 9 10) (qq 0 1)).
  assert (FD : found (search_point_group square (0, 1, 2) glide [0; 1]) = Some ([(M2 1 0 0 1, [[0; 1]]); (M2 1 0 0 (-1), [[0; 1]])], "m"%string)) by (vm_compute; reflexivity).
  rewrite E in FD. cbn [found] in FD. injection FD as FD ->.
  split; [exact glide_far_apart|]. split; [exact glide_selected|]. split; [exact E|]. split; [|split; [reflexivity|split]].
  - apply in_lattice_ops. split; [apply (proj1 candidates_exact); lia|vm_compute; reflexivity].
  - intros i t x Hi. destruct i as [|[|i]]; [| |destruct i; discriminate]; cbn in Hi; injection Hi as <- <-.
    + exists 1, (V3 (qq (-1) 10) (qq 7 10) (qq 1 2)), 0%Z, 0%Z, 0%Z. split; [reflexivity|]. apply v3_ext; apply Qc_is_canon; vm_compute; reflexivity.
    + exists 0, (V3 (qq 1 10) (qq 1 5) (qq 1 2)), 0%Z, 0%Z, 0%Z. split; [reflexivity|]. apply v3_ext; apply Qc_is_canon; vm_compute; reflexivity.
  - intros (o & Ho & HW). assert (K : In (op_W o) (map fst (map (fun o => (op_W o, map snd (op_maps o))) ops))) by (rewrite map_map; apply in_map_iff; exists o; split; [reflexivity|exact Ho]).
    rewrite FD, HW in K. cbn in K. destruct K as [K|[K|[]]]; discriminate.
Qed.
Print Assumptions twofold_symmetry_missed.

(** The condition on distances is needed: with two atoms at one place and two others, an operation is
    reported although it moves an atom to no atom. *)
Theorem coincident_atoms_refuted : exists (L : m3 Qc) (atoms : list (atom Qc)) (tr : list nat) ops g o w same,
  selection atoms tr atoms /\ search_point_group L (0, 1, 2) atoms tr = Ok (ops, g) /\ In o ops /\ In (w, same) (op_maps o) /\
  exists t x, In (t, x) atoms /\ forall j x', nth_error atoms j = Some (t, x') -> same_place L (image 0 1 (op_W o) w x) x' = false.
Proof.
  set (atoms := [at_ "A" (qq 0 1) (qq 0 1) (qq 1 2); at_ "A" (qq 0 1) (qq 0 1) (qq 1 2); at_ "B" (qq 1 10) (qq 1 5) (qq 1 2); at_ "C" (qq 1 10) (qq 1 5) (qq 1 4)]).
  set (W := M2 (-1) 0 0 (-1)).
  destruct (search_point_group square (0, 1, 2) atoms [0; 1; 2; 3]) as [[ops g]|e] eqn:E; [|vm_compute in E; discriminate].
  assert (HI : In (v3z, [0; 1; 0; 1]) (op_maps (space_op square 0 1 2 atoms [0; 1; 2; 3] atoms W))).
  { rewrite space_op_maps. apply in_flat_map. exists v3z. split; [now left|]. apply in_map_iff. exists [0; 1; 0; 1]. split; [reflexivity|]. vm_compute. now left. }
  exists square, atoms, [0; 1; 2; 3], ops, g, (space_op square 0 1 2 atoms [0; 1; 2; 3] atoms W), v3z, [0; 1; 0; 1].
  assert (HS : selection atoms [0; 1; 2; 3] atoms) by (unfold selection, atoms; repeat constructor).
  split; [exact HS|]. split; [exact E|]. split; [|split; [exact HI|]].
  - apply (search_ops_intro _ _ _ _ _ _ _ _ _ _ E (selection_mapM _ _ _ HS)).
    + apply in_lattice_ops. split; [apply (proj1 candidates_exact); lia|vm_compute; reflexivity].
    + intros K. rewrite K in HI. destruct HI.
  - exists "B"%string, (V3 (qq 1 10) (qq 1 5) (qq 1 2)). split; [right; right; left; exact eq_refl|].
    intros j x' Hj. unfold atoms, at_ in Hj. destruct j as [|[|[|[|j]]]]; cbn [nth_error] in Hj.
    + assert (K : "A"%string = "B"%string) by congruence. discriminate K.
    + assert (K : "A"%string = "B"%string) by congruence. discriminate K.
    + assert (K : x' = V3 (qq 1 10) (qq 1 5) (qq 1 2)) by congruence. subst x'. vm_compute. reflexivity.
    + assert (K : "C"%string = "B"%string) by congruence. discriminate K.
    + destruct j; discriminate.
Qed.
Print Assumptions coincident_atoms_refuted.

(** * C60 *)
(** Whenever the look-up table does not know the group, the pre-process aborts instead of working without symmetry. *)
Theorem unknown_point_group_aborts : forall (pbc : list Z) (L : m3 Qc) atoms tr pqr,
  plane pbc = Some pqr -> search_point_group L pqr atoms tr = Err ECannotSearchPointGroup ->
  pre_symmetry true pbc L atoms tr = Err EAttr.
Proof. intros pbc L atoms tr pqr HP H. unfold pre_symmetry. cbn [negb]. rewrite HP, H. reflexivity. Qed.
Print Assumptions unknown_point_group_aborts.
(** Such crystals exist: three equal atoms in a row. *)
Theorem fallback_without_symmetry_refuted : exists (L : m3 Qc) (atoms : list (atom Qc)) (tr : list nat),
  search_point_group L (0, 1, 2) atoms tr = Err ECannotSearchPointGroup /\ pre_symmetry true [1; 1; 0]%Z L atoms tr = Err EAttr.
Proof. exists square, rows, [0; 1; 2]. split; vm_compute; reflexivity. Qed.
Print Assumptions fallback_without_symmetry_refuted.
(** Without the flag, or with a number of periodic directions other than two, symmetry is not used. *)
Theorem symmetry_off : forall flag (pbc : list Z) (L : m3 Qc) atoms tr,
  length pbc = 3 -> flag = false \/ length (filter (fun z => negb (Z.eqb z 0)) pbc) <> 2 -> pre_symmetry flag pbc L atoms tr = Ok None.
Proof.
  intros flag pbc L atoms tr HL H. unfold pre_symmetry. destruct flag; [|reflexivity]. destruct H as [H|H]; [discriminate|]. cbn [negb].
  destruct pbc as [|a [|b [|c [|d l]]]]; try discriminate. unfold plane. cbn [map filter] in *.
  destruct (negb (a =? 0)%Z), (negb (b =? 0)%Z), (negb (c =? 0)%Z); cbn in H; try reflexivity; congruence.
Qed.
Print Assumptions symmetry_off.

(** * Witnesses *)
Example glide_witness : exists ops g o w same, selection glide [0; 1] glide /\ far_apart square glide /\ search_point_group square (0, 1, 2) glide [0; 1] = Ok (ops, g) /\
  In o ops /\ In (w, same) (op_maps o) /\ op_W o = M2 1 0 0 (-1) /\
  (forall v, vdot (vmul (mvmul (embed 0 1 (op_W o)) v) square) (vmul (mvmul (embed 0 1 (op_W o)) v) square) = vdot (vmul v square) (vmul v square)).
Proof.
  destruct (search_point_group square (0, 1, 2) glide [0; 1]) as [[ops g]|e] eqn:E; [|vm_compute in E; discriminate].
  assert (NE : op_maps (space_op square 0 1 2 glide [0; 1] glide (M2 1 0 0 (-1))) <> []) by (vm_compute; discriminate).
  destruct (op_maps (space_op square 0 1 2 glide [0; 1] glide (M2 1 0 0 (-1)))) as [|[w same] l] eqn:EM; [congruence|].
  exists ops, g, (space_op square 0 1 2 glide [0; 1] glide (M2 1 0 0 (-1))), w, same.
  split; [exact glide_selected|]. split; [exact glide_far_apart|]. split; [reflexivity|]. split; [|split; [rewrite EM; now left|split; [reflexivity|]]].
  - apply (search_ops_intro _ _ _ _ _ _ _ _ _ _ E (selection_mapM _ _ _ glide_selected)).
    + apply in_lattice_ops. split; [apply (proj1 candidates_exact); lia|vm_compute; reflexivity].
    + rewrite EM. discriminate.
  - intros v. assert (EE : embed 0 1 (op_W (space_op square 0 1 2 glide [0; 1] glide (M2 1 0 0 (-1)))) = (M3 (V3 1 0 0) (V3 0 (-(1)) 0) (V3 0 0 1))%Qc).
    { unfold space_op. cbn [op_W]. unfold embed. cbn [Nat.eqb andb]. f_equal; apply v3_ext; apply Qc_is_canon; vm_compute; reflexivity. }
    rewrite EE. unfold square. assert (Z0 : qq 0 1 = 0%Qc) by (apply Qc_is_canon; vm_compute; reflexivity). rewrite Z0. generalize (qq 4 1) (qq 15 1). intros a c.
    destruct v as [v1 v2 v3']. unfold vdot, vmul, mvmul, vadd, vscale, vdot. cbn. ring.
Qed.
Example image_witness : let atoms := [at_ "C" (qq 1 4) (qq 1 4) (qq 1 2); at_ "C" (qq 3 4) (qq 3 4) (qq 1 2)] in
  match search_point_group square (0, 1, 2) atoms [0; 1] with
  | Ok (ops, g) => match search_image_atom ops 2 with Ok (pgi, req, nreq) => (g, pgi, req, nreq) = ("4mm"%string, [3], [0], [1]) | Err _ => False end
  | Err _ => False
  end.
Proof. vm_compute. reflexivity. Qed.
