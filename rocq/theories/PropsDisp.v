(** Property theorems: independent displacement directions (C44).  Model: Sym.v. *)
From Coq Require Import String ZArith Bool Lia Lra Psatz Arith Reals List.
From Verif Require Import Base Field Force ForceFacts PropsForce Sym Order SymFacts PropsLattice.
Import ListNotations.
Local Open Scope list_scope.
Local Open Scope nat_scope.

(** * Specification *)
(** The slab geometry: periodic vectors a, b in the xy plane, c along z. *)
Definition slab (L : m3 R) : Prop := vz (r1 L) = 0%R /\ vz (r2 L) = 0%R /\ vx (r3 L) = 0%R /\ vy (r3 L) = 0%R /\ det L <> 0%R.
(** lengths of the lattice vectors (numpy.linalg.norm) *)
Definition lengths (L : m3 R) : v3 R := V3 (sqrt (len2 (r1 L))) (sqrt (len2 (r2 L))) (sqrt (len2 (r3 L))).
(** W preserves the planar lattice and does not mix lattice vectors of different length *)
Definition proper_op (L : m3 R) (W : mat2) : Prop :=
  lattice_symmetry L 0 1 W /\ (len2 (r1 L) = len2 (r2 L) \/ (m12 W = 0%Z /\ m21 W = 0%Z)).
Definition isq2 : R := (1 / sqrt 2)%R.

(** * Lemmas *)
Lemma isq2_sq : (isq2 * isq2 = 1 / 2)%R.
Proof. unfold isq2. assert (H : (sqrt 2 * sqrt 2 = 2)%R) by (apply sqrt_def; lra). assert (P : (0 < sqrt 2)%R) by (apply sqrt_lt_R0; lra). 
  replace (1 / sqrt 2 * (1 / sqrt 2))%R with (1 / (sqrt 2 * sqrt 2))%R by (field; lra). rewrite H. reflexivity. Qed.
Lemma isq2_pos : (0 < isq2)%R.
Proof. unfold isq2. apply Rdiv_lt_0_compat; [lra|apply sqrt_lt_R0; lra]. Qed.

Lemma proper_mul L A B : proper_op L A -> proper_op L B -> proper_op L (mul2 A B).
Proof.
  intros (HA & NA) (HB & NB). split.
  - intros x y. rewrite <- (HB x y), <- (HA (m11 B * x + m12 B * y)%Z (m21 B * x + m22 B * y)%Z). unfold mul2. cbn [m11 m12 m21 m22]. f_equal; f_equal; ring.
  - destruct NA as [NA|(A1 & A2)]; [now left|]. destruct NB as [NB|(B1 & B2)]; [now left|]. right. unfold mul2. cbn [m11 m12 m21 m22]. rewrite A1, A2, B1, B2. split; ring.
Qed.
Lemma proper_id L : proper_op L id2.
Proof. split; [|right; split; reflexivity]. intros x y. unfold id2. cbn [m11 m12 m21 m22]. f_equal; f_equal; lia. Qed.
Lemma powers_from_proper L W : proper_op L W -> forall fuel tmp l, proper_op L tmp -> powers_from fuel W tmp = Some l -> Forall (proper_op L) l.
Proof.
  intros HW. induction fuel as [|f IH]; intros tmp l HT H; cbn [powers_from] in H; destruct (mat2_eqb tmp id2); try (injection H as <-; constructor); try discriminate.
  destruct (powers_from f W (mul2 tmp W)) as [l'|] eqn:E; [|discriminate]. injection H as <-. constructor; [exact HT|]. apply (IH _ _ (proper_mul L _ _ HT HW) E).
Qed.
Lemma powers_proper L W fuel l : proper_op L W -> powers fuel W = Some l -> Forall (proper_op L) l.
Proof.
  intros HW H. unfold powers in H. destruct (powers_from fuel W W) as [l'|] eqn:E; [|discriminate]. injection H as <-. constructor; [apply proper_id|]. exact (powers_from_proper L W HW fuel W l' HW E).
Qed.

Lemma sq2_pos (x y : R) : (x = 0 -> y = 0 -> False)%R -> (0 < x * x + y * y)%R.
Proof. intros H. destruct (Req_dec x 0) as [X|X]; [|nra]. destruct (Req_dec y 0) as [Y|Y]; [|nra]. exfalso. auto. Qed.
Lemma len2_pos (v : v3 R) : (0 <= len2 v)%R.
Proof. destruct v as [a b c]. unfold len2. rewrite vdot_R. nra. Qed.
Lemma embed01 a b c d : embed 0 1 (M2 a b c d) = M3 (V3 (IZR a) (IZR b) 0%R) (V3 (IZR c) (IZR d) 0%R) (V3 0%R 0%R 1%R).
Proof. reflexivity. Qed.
Lemma embed_id2 : embed 0 1 id2 = M3 (V3 1%R 0%R 0%R) (V3 0%R 1%R 0%R) (V3 0%R 0%R 1%R).
Proof. reflexivity. Qed.
Lemma det_R a1 a2 a3 b1 b2 b3 c1 c2 c3 : det (M3 (V3 a1 a2 a3) (V3 b1 b2 b3) (V3 c1 c2 c3)) = (a1 * (b2 * c3 - b3 * c2) + a2 * (b3 * c1 - b1 * c3) + a3 * (b1 * c2 - b2 * c1))%R.
Proof. reflexivity. Qed.
(** The Cartesian form of a proper operation fixes heights and keeps lengths. *)
Lemma proper_cart L W : slab L -> proper_op L W ->
  represents L (embed 0 1 W) (cart_op L (lengths L) (embed 0 1 W)) /\
  forall v, (exists x, v = vmul x L) /\ vz (mvmul (cart_op L (lengths L) (embed 0 1 W)) v) = vz v /\
            vdot (mvmul (cart_op L (lengths L) (embed 0 1 W)) v) (mvmul (cart_op L (lengths L) (embed 0 1 W)) v) = vdot v v.
Proof.
  intros (Z1 & Z2 & Z3 & Z4 & HD) (HS & HN). destruct L as [[a1 a2 a3] [b1 b2 b3] [c1 c2 c3]]. cbn [r1 r2 r3 vx vy vz] in *. subst a3 b3 c1 c2.
  assert (DD : ((a1 * b2 - a2 * b1) * c3 <> 0)%R).
  { intros E. apply HD. rewrite det_R. transitivity ((a1 * b2 - a2 * b1) * c3)%R; [ring|exact E]. }
  assert (C3 : (c3 <> 0)%R) by nra. assert (AB : (a1 * b2 - a2 * b1 <> 0)%R) by nra.
  set (L := M3 (V3 a1 a2 0%R) (V3 b1 b2 0%R) (V3 0%R 0%R c3)) in *. destruct W as [a b c d]. cbn [m12 m21] in HN.
  assert (LA : (0 < len2 (r1 L))%R).
  { unfold L, len2. cbn [r1]. rewrite vdot_R. assert (K : (0 < a1 * a1 + a2 * a2)%R) by (apply sq2_pos; intros X Y; apply AB; rewrite X, Y; ring). lra. }
  assert (LB : (0 < len2 (r2 L))%R).
  { unfold L, len2. cbn [r2]. rewrite vdot_R. assert (K : (0 < b1 * b1 + b2 * b2)%R) by (apply sq2_pos; intros X Y; apply AB; rewrite X, Y; ring). lra. }
  assert (LC : (0 < len2 (r3 L))%R) by (unfold L, len2; cbn [r3]; rewrite vdot_R; nra).
  assert (REP : represents L (embed 0 1 (M2 a b c d)) (cart_op L (lengths L) (embed 0 1 (M2 a b c d)))).
  { rewrite embed01. pose proof (cartesian_operation_correct_on_equal_lengths (F := Fld_R) L (lengths L) (IZR a) (IZR b) (IZR c) (IZR d)) as K. cbv zeta in K. apply K; clear K; [exact HD| | | |].
    - apply Rgt_not_eq, sqrt_lt_R0. exact LA.
    - apply Rgt_not_eq, sqrt_lt_R0. exact LB.
    - apply Rgt_not_eq, sqrt_lt_R0. exact LC.
    - destruct HN as [HN|(E1 & E2)]; [left; unfold lengths; cbn [vx vy]; f_equal; exact HN|right; subst b c; split; exact eq_refl]. }
  pose proof (sym_metric L 0 1 (M2 a b c d) _ _ _ eq_refl eq_refl eq_refl HS) as SM. rewrite rotate_form in SM. unfold form, len2 in SM. unfold L in SM. cbn [axis r1 r2 r3] in SM. rewrite !vdot_R in SM. injection SM as S1 S2 S3.
  assert (MT : mmul (mmul (transpose (embed 0 1 (M2 a b c d))) (mmul L (transpose L))) (embed 0 1 (M2 a b c d)) = mmul L (transpose L)).
  { rewrite embed01. revert S1 S2 S3. generalize (IZR a) (IZR b) (IZR c) (IZR d). clear. intros k1 k2 k3 k4 S1 S2 S3. unfold L.
    repeat first [apply m3_ext | apply v3_ext]; cbv beta iota zeta delta [mmul transpose vmul vadd vscale vdot r1 r2 r3 vx vy vz fadd fmul Fld_R];
      first [ring | (etransitivity; [|etransitivity; [exact S1|]]; ring) | (etransitivity; [|etransitivity; [exact S2|]]; ring) | (etransitivity; [|etransitivity; [exact S3|]]; ring)]. }
  split; [exact REP|]. intros v.
  assert (EX : exists x, v = vmul x L).
  { destruct v as [v1 v2 v3']. exists (V3 ((v1 * b2 - v2 * b1) / (a1 * b2 - a2 * b1)) ((a1 * v2 - a2 * v1) / (a1 * b2 - a2 * b1)) (v3' / c3))%R.
    unfold L, vmul, vadd, vscale. cbn. f_equal; field; auto. }
  split; [exact EX|]. split; [|exact (represented_operation_is_isometry L _ _ HD REP MT v v)].
  destruct EX as (x & ->). rewrite (REP x). rewrite embed01. destruct x as [x1 x2 x3]. unfold L, vmul, mvmul, vadd, vscale, vdot. cbn. ring.
Qed.

(** Vectors at height 1/sqrt 2 on the circle of radius 1/sqrt 2. *)
Definition ring_vec (v : v3 R) : Prop := vz v = isq2 /\ (vx v * vx v + vy v * vy v = 1 / 2)%R.
Lemma seed_ring : ring_vec (seed isq2).
Proof. split; [reflexivity|]. unfold seed. cbn [vx vy]. change (@f0 R Fld_R) with 0%R. rewrite isq2_sq. ring. Qed.
Lemma image_ring L W v : slab L -> proper_op L W -> ring_vec v -> ring_vec (mvmul (cart_op L (lengths L) (embed 0 1 W)) v).
Proof.
  intros HL HW (V1 & V2). destruct (proj2 (proper_cart L W HL HW) v) as (_ & P1 & P2). revert P1 P2. generalize (mvmul (cart_op L (lengths L) (embed 0 1 W)) v). intros u P1 P2.
  split; [congruence|]. destruct u as [u1 u2 u3], v as [v1 v2 v3']. rewrite !vdot_R in P2. cbn [vx vy vz] in *. subst u3. lra.
Qed.
Lemma ring_independent u v w : ring_vec u -> ring_vec v -> ring_vec w -> u <> v -> u <> w -> v <> w -> det (M3 u v w) <> 0%R.
Proof.
  destruct u as [x1 y1 z1], v as [x2 y2 z2], w as [x3 y3 z3]. unfold ring_vec. cbn [vx vy vz]. intros (-> & C1) (-> & C2) (-> & C3) N1 N2 N3 E. rewrite det_R in E.
  set (d1 := (x2 - x1)%R). set (d2 := (y2 - y1)%R). set (e1 := (x3 - x1)%R). set (e2 := (y3 - y1)%R).
  assert (CR : (d1 * e2 - d2 * e1 = 0)%R).
  { apply Rmult_eq_reg_l with isq2; [|pose proof isq2_pos; lra]. rewrite Rmult_0_r, <- E. unfold d1, d2, e1, e2. ring. }
  assert (D0 : (0 < d1 * d1 + d2 * d2)%R).
  { apply sq2_pos. intros X Y. apply N1. unfold d1, d2 in *. f_equal; lra. }
  assert (E0 : (0 < e1 * e1 + e2 * e2)%R).
  { apply sq2_pos. intros X Y. apply N2. unfold e1, e2 in *. f_equal; lra. }
  assert (Q1 : (2 * (x1 * d1 + y1 * d2) + (d1 * d1 + d2 * d2) = 0)%R) by (unfold d1, d2; lra).
  assert (Q2 : (2 * (x1 * e1 + y1 * e2) + (e1 * e1 + e2 * e2) = 0)%R) by (unfold e1, e2; lra).
  set (k := (d1 * e1 + d2 * e2)%R). set (D := (d1 * d1 + d2 * d2)%R) in *.
  assert (F1 : (e1 * D = k * d1)%R) by (transitivity (k * d1 - d2 * (d1 * e2 - d2 * e1))%R; [unfold D, k; ring|rewrite CR; ring]).
  assert (F2 : (e2 * D = k * d2)%R) by (transitivity (k * d2 + d1 * (d1 * e2 - d2 * e1))%R; [unfold D, k; ring|rewrite CR; ring]).
  assert (KK : (e1 = k / D * d1 /\ e2 = k / D * d2)%R) by (split; apply Rmult_eq_reg_r with D; try lra; [rewrite F1|rewrite F2]; field; lra).
  destruct KK as (G1 & G2). generalize dependent (k / D)%R. intros t G1 G2.
  assert (T0 : (t * (t - 1) * D = 0)%R).
  { assert (e1 * e1 + e2 * e2 = t * t * D)%R by (rewrite G1, G2; unfold D; ring). assert (x1 * e1 + y1 * e2 = t * (x1 * d1 + y1 * d2))%R by (rewrite G1, G2; ring). clear - Q1 Q2 H H0. fold D in Q1. nra. }
  apply Rmult_integral in T0. destruct T0 as [T0|T0]; [|lra]. apply Rmult_integral in T0. destruct T0 as [T0|T0].
  - rewrite G1, G2, T0 in E0. lra.
  - assert (t = 1)%R by lra. subst t. apply N3. unfold d1, d2, e1, e2 in *. f_equal; lra.
Qed.

Lemma parallel_R u v : parallel u v = false <-> (1 / 1000000 <= vdot u u * vdot v v - vdot u v * vdot u v)%R.
Proof.
  unfold parallel, fltb. rewrite dec6_val. change (@fleb R _ Num_R) with (fun x y : R => if Rle_dec x y then true else false). cbv beta. cbn [fsub fmul Fld_R].
  destruct (Rle_dec _ _) as [H|H]; cbn [negb]; split; intros H'; try assumption; try reflexivity; [discriminate|contradiction].
Qed.
Lemma parallel_refl v : parallel v v = true.
Proof. destruct (parallel v v) eqn:E; [reflexivity|]. apply parallel_R in E. lra. Qed.

(** The selection loop: what is kept. *)
Lemma pick_spec (g : mat2 -> v3 R) : forall rest seen kept, Forall (fun wv => snd wv = g (fst wv)) rest ->
  incl (map g kept) seen -> 1 <= length kept <= 3 -> ForallOrdPairs (fun u v => parallel v u = false) (map g kept) ->
  let ks := pick seen kept rest in
  1 <= length ks <= 3 /\ ForallOrdPairs (fun u v => parallel v u = false) (map g ks) /\ incl ks (kept ++ map fst rest) /\ exists more, ks = kept ++ more.
Proof.
  induction rest as [|[W v] rest IH]; intros seen kept HR HI HL HF; cbn [pick]; cbn zeta.
  - split; [exact HL|]. split; [exact HF|]. split; [intros x Hx; apply in_or_app; now left|]. exists []. now rewrite app_nil_r.
  - inversion HR as [|? ? H1 H2]; subst. cbn [fst snd] in H1. destruct (existsb (parallel v) seen) eqn:Ex.
    + destruct (IH (seen ++ [v]) kept H2 (incl_appl _ HI) HL HF) as (A1 & A2 & A3 & A4). split; [exact A1|]. split; [exact A2|]. split; [|exact A4]. intros x Hx. apply A3 in Hx. apply in_app_or in Hx. apply in_or_app. destruct Hx; [now left|right; now right].
    + destruct (length kept <? 3) eqn:El.
      * apply Nat.ltb_lt in El. destruct (IH (seen ++ [v]) (kept ++ [W]) H2) as (A1 & A2 & A3 & more & A4).
        -- rewrite map_app. cbn. intros x Hx. apply in_app_or in Hx. apply in_or_app. destruct Hx as [Hx|[<-|[]]]; [left; now apply HI|right; left; exact H1].
        -- rewrite app_length. cbn. lia.
        -- rewrite map_app. cbn. assert (FV : Forall (fun u => parallel v u = false) (map g kept)).
           { apply Forall_forall. intros u Hu. apply HI in Hu. destruct (parallel v u) eqn:E; [|reflexivity]. exfalso. assert (T : existsb (parallel v) seen = true) by (apply existsb_exists; exists u; split; [exact Hu|exact E]). congruence. }
           rewrite <- H1. clear - HF FV. induction HF as [|u us Hu HF IH]; cbn; [repeat constructor|]. inversion FV; subst. constructor; [apply Forall_app; split; [exact Hu|constructor; [assumption|constructor]]|]. apply IH. assumption.
        -- split; [exact A1|]. split; [exact A2|]. split; [intros x Hx; apply A3 in Hx; rewrite <- app_assoc in Hx; exact Hx|]. exists (W :: more). rewrite A4, <- app_assoc. reflexivity.
      * split; [exact HL|]. split; [exact HF|]. split; [intros x Hx; apply in_or_app; now left|]. exists []. now rewrite app_nil_r.
Qed.

(** What the search for one atom returns. *)
Lemma independent_one_spec L fuel ops p q self idx mats single :
  independent_one L (lengths L) isq2 fuel ops p q self = Ok (idx, mats, single) ->
  exists ks, mats = map (fun W => cart_op L (lengths L) (embed p q W)) ks /\ single = map (fun M => mvmul M (seed isq2)) mats /\ Forall2 (fun W i => find_op W 0 ops = Ok i) ks idx /\ nth_error ks 0 = Some id2 /\
    1 <= length ks <= 3 /\ ForallOrdPairs (fun u v => parallel v u = false) single /\
    (forall W, In W ks -> exists k o l, In k self /\ nth_error ops k = Some o /\ powers fuel (op_W o) = Some l /\ In W l).
Proof.
  intros H. unfold independent_one in H. apply bind_ok in H as (ls & Hls & H).
  set (g := fun W => mvmul (cart_op L (lengths L) (embed p q W)) (seed isq2)) in *.
  destruct (concat ls) as [|W0 Ws] eqn:EC; cbn [map] in H; [discriminate|]. apply bind_ok in H as (idx' & Hi & H). injection H as <- <- <-.
  destruct (pick_spec g (map (fun W => (W, g W)) Ws) [g W0] [W0]) as (A1 & A2 & A3 & more & A4).
  { apply Forall_forall. intros x Hx. apply in_map_iff in Hx as (W & <- & _). reflexivity. }
  { cbn. apply incl_refl. }
  { cbn. lia. }
  { cbn. repeat constructor. }
  cbn zeta in *. eexists. split; [reflexivity|]. split; [rewrite map_map; reflexivity|]. split; [exact (proj1 (mapM_ok_Forall2 _ _ _) Hi)|].
  split.
  { change (nth_error (pick [g W0] [W0] (map (fun W => (W, g W)) Ws)) 0 = Some id2). rewrite A4. cbn [app nth_error]. f_equal. apply mapM_ok_Forall2 in Hls. destruct Hls as [|k l ks ls Hk Hls]; [discriminate|]. apply bind_ok in Hk as (o & _ & Hk).
    unfold powers in Hk. destruct (powers_from fuel (op_W o) (op_W o)) as [l'|]; [cbn in Hk; injection Hk as <-|discriminate]. cbn in EC. congruence. }
  split; [exact A1|]. split; [exact A2|].
  intros W HW. apply A3 in HW. rewrite map_map in HW. cbn [fst app] in HW. rewrite map_id in HW. rewrite <- EC in HW. apply in_concat in HW as (l & Hl & HW).
  apply mapM_ok_Forall2 in Hls. clear - Hls Hl HW. induction Hls as [|k l' ks ls Hk Hls IH]; [destruct Hl|]. destruct Hl as [<-|Hl].
  - apply bind_ok in Hk as (o & Ho & Hk). exists k, o, l'. split; [now left|]. unfold py_nth in Ho. destruct (nth_error ops k) as [o'|]; [cbn in Ho; injection Ho as ->|discriminate].
    split; [reflexivity|]. destruct (powers fuel (op_W o)) as [l2|]; [cbn in Hk; injection Hk as ->|discriminate]. now split.
  - destruct (IH Hl) as (k' & o & l2 & B1 & B2). exists k', o, l2. split; [now right|exact B2].
Qed.

(** * C44 *)
Theorem displacements_independent : forall (L : m3 R) fuel (ops : list (op R)) self idx mats single,
  slab L -> Forall (fun o => proper_op L (op_W o)) ops ->
  independent_one L (lengths L) isq2 fuel ops 0 1 self = Ok (idx, mats, single) ->
  exists e1 e2 e3, single ++ additional isq2 single = [e1; e2; e3] /\ det (M3 e1 e2 e3) <> 0%R.
Proof.
  intros L fuel ops self idx mats single HL HO H. apply independent_one_spec in H as (ks & -> & -> & _ & H0 & HB & HF & HK). rewrite map_map in *.
  set (g := fun W => mvmul (cart_op L (lengths L) (embed 0 1 W)) (seed isq2)) in *.
  assert (RG : forall W, In W ks -> ring_vec (g W)).
  { intros W HW. destruct (HK W HW) as (k & o & l & _ & Ho & Hp & Hl). rewrite Forall_forall in HO. specialize (HO o (nth_error_In _ _ Ho)). pose proof (powers_proper L _ _ _ HO Hp) as HP. rewrite Forall_forall in HP.
    exact (image_ring L W (seed isq2) HL (HP W Hl) seed_ring). }
  assert (ND : forall u v, parallel v u = false -> u <> v) by (intros u v Hp ->; rewrite parallel_refl in Hp; discriminate).
  assert (G0 : g id2 = seed isq2).
  { destruct (proper_cart L id2 HL (proper_id L)) as (REP & P). destruct (P (seed isq2)) as ((x & Ex) & _). unfold g. rewrite Ex, (REP x). f_equal. rewrite embed_id2. destruct x as [x1 x2 x3]. unfold mvmul. cbn [r1 r2 r3]. rewrite !vdot_R. f_equal; ring. }
  pose proof isq2_sq as SQ. pose proof isq2_pos as SP. clearbody g.
  destruct ks as [|W1 [|W2 [|W3 [|W4 ks]]]]; cbn [length] in HB; try lia; clear HB HK HO; cbn [nth_error] in H0; injection H0 as ->; cbn [map] in *.
  - unfold additional. cbn [length app additional_candidates]. eexists _, _, _. split; [reflexivity|]. rewrite G0. unfold seed. change (@f0 R Fld_R) with 0%R. rewrite det_R. nra.
  - pose proof (RG W2 (or_intror (or_introl eq_refl))) as RW. pose proof (RG id2 (or_introl eq_refl)) as R0. rewrite G0 in *. inversion HF as [|? ? F1 _]; subst. inversion F1 as [|? ? P12 _]; subst. clear F1 HF.
    unfold additional. cbn [length additional_candidates filter]. change (@f0 R Fld_R) with 0%R. 
    set (c1 := V3 0%R isq2 isq2). set (c2 := V3 isq2 isq2 0%R). cbn [existsb]. rewrite !orb_false_r.
    assert (N01 : parallel c1 (seed isq2) = false).
    { apply parallel_R. unfold c1, seed. change (@f0 R Fld_R) with 0%R. rewrite !vdot_R. nra. }
    assert (N02 : parallel c2 (seed isq2) = false).
    { apply parallel_R. unfold c2, seed. change (@f0 R Fld_R) with 0%R. rewrite !vdot_R. nra. }
    rewrite N01, N02. cbn [orb]. destruct (parallel c1 (g W2)) eqn:E1.
    + (* the second image is close to (0,1,1)/sqrt 2 *)
      destruct (g W2) as [x y z]. destruct RW as (Rz & Rc). cbn [vx vy vz] in Rz, Rc. subst z.
      assert (Y : (1 / 2 <= y)%R).
      { destruct (Rle_dec (1 / 2) y) as [|N]; [assumption|exfalso]. assert (T : parallel c1 (V3 x y isq2) = false); [|congruence].
        apply parallel_R. unfold c1. rewrite !vdot_R.
        assert (HB : (isq2 < 3 / 4)%R) by nra. set (p := (isq2 * y)%R). assert (P1 : (p <= 3 / 8)%R) by (unfold p; nra).
        assert (P2 : (p * p <= 1 / 4)%R). { replace (p * p)%R with (1 / 2 * (y * y))%R by (unfold p; rewrite <- SQ; ring). nra. }
        assert (P3 : (- (1 / 2) <= p)%R) by nra.
        replace ((0 * 0 + isq2 * isq2 + isq2 * isq2) * (x * x + y * y + isq2 * isq2) - (0 * x + isq2 * y + isq2 * isq2) * (0 * x + isq2 * y + isq2 * isq2))%R
          with ((0 + 1 / 2 + 1 / 2) * (1 / 2 + 1 / 2) - (p + 1 / 2) * (p + 1 / 2))%R by (rewrite SQ, Rc; unfold p; ring). nra. }
      assert (X : (x <= 1 / 2)%R) by nra.
      assert (E2 : parallel c2 (V3 x y isq2) = false).
      { apply parallel_R. unfold c2. rewrite !vdot_R. set (q := (x + y)%R). assert (Q : (q * q <= 1)%R) by (unfold q; nra).
        assert (T1 : ((isq2 * isq2 + isq2 * isq2 + 0 * 0) * (x * x + y * y + isq2 * isq2) = 1)%R) by (rewrite SQ, Rc; lra).
        assert (T2 : ((isq2 * x + isq2 * y + 0 * isq2) * (isq2 * x + isq2 * y + 0 * isq2) = 1 / 2 * (q * q))%R) by (rewrite <- SQ; unfold q; ring).
        rewrite T1, T2. lra. }
      rewrite E2. cbn [negb app]. eexists _, _, _. split; [reflexivity|]. unfold seed, c2. change (@f0 R Fld_R) with 0%R. rewrite det_R.
      replace (isq2 * (y * 0 - isq2 * isq2) + 0 * (isq2 * isq2 - x * 0) + isq2 * (x * isq2 - y * isq2))%R with (isq2 * isq2 * (x - y - isq2))%R by ring.
      intros K. apply Rmult_integral in K. destruct K; lra.
    + cbn [negb app]. eexists _, _, _. split; [reflexivity|]. apply ring_independent; [exact R0|exact RW| |apply ND; exact P12| |].
      * unfold c1, ring_vec. cbn [vx vy vz]. split; [reflexivity|]. lra.
      * apply ND. unfold parallel in N01 |- *. exact N01.
      * apply ND. exact E1.
  - unfold additional. cbn [length app]. eexists _, _, _. split; [reflexivity|].
    inversion HF as [|? ? F1 HF']; subst. inversion F1 as [|? ? P12 F1']; subst. inversion F1' as [|? ? P13 _]; subst. inversion HF' as [|? ? F2 _]; subst. inversion F2 as [|? ? P23 _]; subst.
    apply ring_independent; try (apply RG; cbn; tauto); apply ND; assumption.
Qed.
Print Assumptions displacements_independent.

(** In the other orientations this fails.  With periodic directions a and c (in the xz plane, b along y) the images all lie in that
    plane: whenever three are chosen they are dependent and the inverse does not exist. *)
Lemma xz_image_flat a1 a3 b2 c1 c3 n1 n2 n3 W x z :
  vy (mvmul (cart_op (M3 (V3 a1 0 a3) (V3 0 b2 0) (V3 c1 0 c3)) (V3 n1 n2 n3) (embed 0 2 W)) (V3 x 0 z))%R = 0%R.
Proof.
  destruct W as [a b c d]. change (embed 0 2 (M2 a b c d)) with (M3 (V3 (IZR a) 0%R (IZR b)) (V3 0%R 1%R 0%R) (V3 (IZR c) 0%R (IZR d))). generalize (IZR a) (IZR b) (IZR c) (IZR d). clear. intros k1 k2 k3 k4.
  unfold cart_op, to_cart, minv_raw. cbv beta iota zeta delta [adj mmul mvmul mscale transpose vmul vadd vscale vdot vcross det r1 r2 r3 vx vy vz fadd fmul fsub finv fdiv f1 Fld_R]. ring.
Qed.
Theorem displacements_dependent_in_xz : forall (L : m3 R) fuel (ops : list (op R)) self idx mats e1 e2 e3,
  vy (r1 L) = 0%R -> vy (r3 L) = 0%R -> vx (r2 L) = 0%R -> vz (r2 L) = 0%R ->
  independent_one L (lengths L) isq2 fuel ops 0 2 self = Ok (idx, mats, [e1; e2; e3]) -> det (M3 e1 e2 e3) = 0%R.
Proof.
  intros L fuel ops self idx mats e1 e2 e3 H1 H2 H3 H4 H. apply independent_one_spec in H as (ks & -> & HS & _). rewrite map_map in HS.
  destruct L as [[a1 a2 a3] [b1 b2 b3] [c1 c2 c3]]. cbn [r1 r2 r3 vx vy vz] in H1, H2, H3, H4. subst a2 c2 b1 b3.
  assert (Y : forall e, In e [e1; e2; e3] -> vy e = 0%R).
  { intros e He. rewrite HS in He. apply in_map_iff in He as (W & <- & _). exact (xz_image_flat a1 a3 b2 c1 c3 _ _ _ W isq2 isq2). }
  pose proof (Y e1 (or_introl eq_refl)) as Y1. pose proof (Y e2 (or_intror (or_introl eq_refl))) as Y2. pose proof (Y e3 (or_intror (or_intror (or_introl eq_refl)))) as Y3.
  destruct e1 as [x1 y1 z1], e2 as [x2 y2 z2], e3 as [x3 y3 z3]. cbn [vy] in Y1, Y2, Y3. subst. rewrite det_R. ring.
Qed.
Print Assumptions displacements_dependent_in_xz.

Lemma pick_skip seen kept W (v : v3 R) r : existsb (parallel v) seen = true -> pick seen kept ((W, v) :: r) = pick (seen ++ [v]) kept r.
Proof. intros H. cbn [pick]. rewrite H. reflexivity. Qed.
Lemma pick_keep seen kept W (v : v3 R) r : existsb (parallel v) seen = false -> length kept < 3 -> pick seen kept ((W, v) :: r) = pick (seen ++ [v]) (kept ++ [W]) r.
Proof. intros H HL. cbn [pick]. rewrite H. apply Nat.ltb_lt in HL. rewrite HL. reflexivity. Qed.
Lemma cart_value (L : m3 R) (W : m3 R) (v x : v3 R) : det L <> 0%R -> (0 < len2 (r1 L))%R -> (0 < len2 (r2 L))%R -> (0 < len2 (r3 L))%R ->
  (forall i j, i < 3 -> j < 3 -> entry W i j = 0%R \/ component (lengths L) i = component (lengths L) j) ->
  v = vmul x L -> mvmul (cart_op L (lengths L) W) v = vmul (mvmul W x) L.
Proof.
  intros HD P1 P2 P3 HW ->. revert x. change (represents L W (cart_op L (lengths L) W)).
  apply (proj2 (cartesian_operation_correct_iff L (lengths L) W HD ltac:(apply Rgt_not_eq, sqrt_lt_R0; exact P1) ltac:(apply Rgt_not_eq, sqrt_lt_R0; exact P2) ltac:(apply Rgt_not_eq, sqrt_lt_R0; exact P3))). exact HW.
Qed.

(** Such a choice exists: a threefold axis. *)
Theorem three_coplanar_images : exists (L : m3 R) (ops : list (op R)) idx mats e1 e2 e3,
  vy (r1 L) = 0%R /\ vy (r3 L) = 0%R /\ vx (r2 L) = 0%R /\ vz (r2 L) = 0%R /\ det L <> 0%R /\
  Forall (fun o => lattice_symmetry L 0 2 (op_W o)) ops /\
  independent_one L (lengths L) isq2 6 ops 0 2 [0; 1; 2] = Ok (idx, mats, [e1; e2; e3]) /\ det (M3 e1 e2 e3) = 0%R.
Proof.
  set (s := sqrt 3). assert (S3 : (s * s = 3)%R) by (apply sqrt_def; lra). assert (SP : (0 < s)%R) by (apply sqrt_lt_R0; lra).
  set (L := M3 (V3 4%R 0%R 0%R) (V3 0%R 15%R 0%R) (V3 (-2)%R 0%R (2 * s)%R)).
  set (W := M2 0 (-1) 1 (-1)). set (W2 := M2 (-1) 1 (-1) 0).
  set (ops := [mkOp id2 []; mkOp W []; mkOp W2 []] : list (op R)).
  assert (HD : det L <> 0%R) by (unfold L; rewrite det_R; nra).
  assert (E1 : len2 (r1 L) = 16%R) by (unfold L, len2; cbn [r1]; rewrite vdot_R; ring).
  assert (E2 : len2 (r2 L) = 225%R) by (unfold L, len2; cbn [r2]; rewrite vdot_R; ring).
  assert (E3 : len2 (r3 L) = 16%R) by (unfold L, len2; cbn [r3]; rewrite vdot_R; nra).
  set (x := V3 (isq2 / 4 * (1 + s / 3))%R 0%R (isq2 / 6 * s)%R).
  assert (EX : seed isq2 = vmul x L).
  { unfold seed, x, L, vmul, vadd, vscale. cbn [vx vy vz r1 r2 r3]. cbn [fadd fmul f0 Fld_R]. apply v3_ext; cbn [vx vy vz]; [field|field|].
    transitivity (isq2 / 3 * (s * s))%R; [rewrite S3; field|field]. }
  assert (VAL : forall a b c d, mvmul (cart_op L (lengths L) (embed 0 2 (M2 a b c d))) (seed isq2) = vmul (mvmul (embed 0 2 (M2 a b c d)) x) L).
  { intros a b c d. apply cart_value; [exact HD|rewrite E1; lra|rewrite E2; lra|rewrite E3; lra| |exact EX].
    intros i j Hi Hj. unfold lengths. rewrite E1, E2, E3. destruct i as [|[|[|i]]]; [| | |lia]; (destruct j as [|[|[|j]]]; [| | |lia]); first [right; reflexivity|left; reflexivity]. }
  set (h := isq2) in *. assert (HH : (h * h = 1 / 2)%R) by apply isq2_sq.
  set (v1 := V3 (h * (- (1 / 2) - s / 2))%R 0%R (h * (s / 2 - 1 / 2))%R). set (v2 := V3 (h * (s / 2 - 1 / 2))%R 0%R (h * (- (s / 2) - 1 / 2))%R).
  assert (V0 : mvmul (cart_op L (lengths L) (embed 0 2 id2)) (seed h) = seed h).
  { unfold id2. rewrite VAL, EX. f_equal. unfold x, mvmul, embed, vdot. cbn [Nat.eqb andb r1 r2 r3 vx vy vz m11 m12 m21 m22]. cbn [fadd fmul f0 f1 fofZ Fld_R]. apply v3_ext; cbn [vx vy vz]; ring. }
  assert (SQ9 : forall k, (k * s * s = 3 * k)%R) by (intros; rewrite Rmult_assoc, S3; ring).
  assert (V1 : mvmul (cart_op L (lengths L) (embed 0 2 W)) (seed h) = v1).
  { unfold W. rewrite VAL. unfold x, mvmul, embed, vdot, L, vmul, vadd, vscale, v1. cbn [Nat.eqb andb r1 r2 r3 vx vy vz m11 m12 m21 m22]. cbn [fadd fmul f0 f1 fofZ Fld_R].
    apply v3_ext; cbn [vx vy vz]; [field|field|]. transitivity (h / 2 * s + h / 6 * (s * s) - h / 3 * (s * s))%R; [field|rewrite S3; field]. }
  assert (V2 : mvmul (cart_op L (lengths L) (embed 0 2 W2)) (seed h) = v2).
  { unfold W2. rewrite VAL. unfold x, mvmul, embed, vdot, L, vmul, vadd, vscale, v2. cbn [Nat.eqb andb r1 r2 r3 vx vy vz m11 m12 m21 m22]. cbn [fadd fmul f0 f1 fofZ Fld_R].
    apply v3_ext; cbn [vx vy vz]; [field|field|]. transitivity (- (h / 2) * s - h / 6 * (s * s))%R; [field|rewrite S3; field]. }
  assert (DOT : forall a b c d, parallel (V3 (h * a) 0 (h * b))%R (V3 (h * c) 0 (h * d))%R = false <-> (1 / 1000000 <= 1 / 4 * ((a * d - b * c) * (a * d - b * c)))%R).
  { intros a b c d. rewrite parallel_R, !vdot_R.
    replace ((h * a * (h * a) + 0 * 0 + h * b * (h * b)) * (h * c * (h * c) + 0 * 0 + h * d * (h * d)) - (h * a * (h * c) + 0 * 0 + h * b * (h * d)) * (h * a * (h * c) + 0 * 0 + h * b * (h * d)))%R
      with ((h * h) * (h * h) * ((a * d - b * c) * (a * d - b * c)))%R by ring. rewrite HH. split; lra. }
  assert (SE : seed h = V3 (h * 1)%R 0%R (h * 1)%R) by (unfold seed; rewrite Rmult_1_r; reflexivity).
  assert (P10 : parallel v1 (seed h) = false) by (rewrite SE; unfold v1; apply DOT; nra).
  assert (P20 : parallel v2 (seed h) = false) by (rewrite SE; unfold v2; apply DOT; nra).
  assert (P21 : parallel v2 v1 = false) by (unfold v1, v2; apply DOT; nra).
  pose proof (parallel_refl (seed h)) as P00. pose proof (parallel_refl v1) as P11. pose proof (parallel_refl v2) as P22.
  assert (EI : exists mats, independent_one L (lengths L) h 6 ops 0 2 [0; 1; 2] = Ok ([0; 1; 2], mats, [seed h; v1; v2])).
  { unfold independent_one.
    replace (mapM (fun k => let! o := py_nth ops k in of_option EUninit (powers 6 (op_W o))) [0; 1; 2]) with (Ok [[id2]; [id2; W; W2]; [id2; W2; W]] : result (list (list mat2))) by reflexivity.
    cbn [bind concat app map]. rewrite V0, V1, V2.
    do 6 (first [rewrite pick_skip by (cbn [existsb app]; rewrite ?P00, ?P10, ?P20, ?P21, ?P11, ?P22; cbn [orb]; rewrite ?orb_true_r; reflexivity)
               | rewrite pick_keep by first [cbn [existsb app]; rewrite ?P00, ?P10, ?P20, ?P21, ?P11, ?P22; reflexivity | cbn; lia]]).
    cbn [pick app map]. rewrite V0, V1, V2.
    replace (mapM (fun W => find_op W 0 ops) [id2; W; W2]) with (Ok [0; 1; 2] : result (list nat)) by reflexivity. cbn [bind]. eexists. reflexivity. }
  destruct EI as (mats & EI). exists L, ops, [0; 1; 2], mats, (seed h), v1, v2.
  split; [reflexivity|]. split; [reflexivity|]. split; [reflexivity|]. split; [reflexivity|]. split; [exact HD|]. split; [|split; [exact EI|]].
  - assert (SYM : forall a b c d : Z, (a * a - a * c + c * c = 1 -> b * b - b * d + d * d = 1 -> 2 * a * b - a * d - b * c + 2 * c * d = -1 -> lattice_symmetry L 0 2 (M2 a b c d))%Z).
    { intros a b c d K1 K2 K3 u w. rewrite !len2_comb. cbn [axis m11 m12 m21 m22].
      change (vdot (r1 L) (r1 L)) with (len2 (r1 L)). change (vdot (r3 L) (r3 L)) with (len2 (r3 L)). rewrite E1, E3.
      assert (E13 : vdot (r1 L) (r3 L) = (-8)%R) by (unfold L; cbn [r1 r3]; rewrite vdot_R; ring). rewrite E13. 
      rewrite <- ?mult_IZR, <- ?plus_IZR, <- ?mult_IZR, <- ?plus_IZR. f_equal.
      transitivity (16 * ((a * a - a * c + c * c) * (u * u) + (2 * a * b - a * d - b * c + 2 * c * d) * (u * w) + (b * b - b * d + d * d) * (w * w)))%Z; [ring|rewrite K1, K2, K3; ring]. }
    repeat constructor; apply SYM; reflexivity.
  - unfold seed, v1, v2. change (@f0 R Fld_R) with 0%R. rewrite det_R. ring.
Qed.
Print Assumptions three_coplanar_images.

(** With periodic directions b and c (in the yz plane) a diagonal mirror yields two images whose
    difference is the additional direction (0,1,1)/sqrt 2. *)
Theorem displacements_dependent_in_yz : exists (L : m3 R) (ops : list (op R)) idx mats single e1 e2 e3,
  vx (r2 L) = 0%R /\ vx (r3 L) = 0%R /\ vy (r1 L) = 0%R /\ vz (r1 L) = 0%R /\ det L <> 0%R /\
  Forall (fun o => lattice_symmetry L 1 2 (op_W o)) ops /\
  independent_one L (lengths L) isq2 6 ops 1 2 [0; 1] = Ok (idx, mats, single) /\
  single ++ additional isq2 single = [e1; e2; e3] /\ det (M3 e1 e2 e3) = 0%R.
Proof.
  set (L := M3 (V3 15%R 0%R 0%R) (V3 0%R 4%R 0%R) (V3 0%R 0%R 4%R)). set (W := M2 0 (-1) (-1) 0).
  set (ops := [mkOp id2 []; mkOp W []] : list (op R)).
  assert (HD : det L <> 0%R) by (unfold L; rewrite det_R; nra).
  assert (E1 : len2 (r1 L) = 225%R) by (unfold L, len2; cbn [r1]; rewrite vdot_R; ring).
  assert (E2 : len2 (r2 L) = 16%R) by (unfold L, len2; cbn [r2]; rewrite vdot_R; ring).
  assert (E3 : len2 (r3 L) = 16%R) by (unfold L, len2; cbn [r3]; rewrite vdot_R; ring).
  set (x := V3 (isq2 / 15)%R 0%R (isq2 / 4)%R).
  assert (EX : seed isq2 = vmul x L).
  { unfold seed, x, L, vmul, vadd, vscale. cbn [vx vy vz r1 r2 r3]. cbn [fadd fmul f0 Fld_R]. apply v3_ext; cbn [vx vy vz]; field. }
  assert (VAL : forall a b c d, mvmul (cart_op L (lengths L) (embed 1 2 (M2 a b c d))) (seed isq2) = vmul (mvmul (embed 1 2 (M2 a b c d)) x) L).
  { intros a b c d. apply cart_value; [exact HD|rewrite E1; lra|rewrite E2; lra|rewrite E3; lra| |exact EX].
    intros i j Hi Hj. unfold lengths. rewrite E1, E2, E3. destruct i as [|[|[|i]]]; [| | |lia]; (destruct j as [|[|[|j]]]; [| | |lia]); first [right; reflexivity|left; reflexivity]. }
  set (h := isq2) in *. assert (HH : (h * h = 1 / 2)%R) by apply isq2_sq.
  set (v1 := V3 h (- h)%R 0%R).
  assert (V0 : mvmul (cart_op L (lengths L) (embed 1 2 id2)) (seed h) = seed h).
  { unfold id2. rewrite VAL, EX. f_equal. unfold x, mvmul, embed, vdot. cbn [Nat.eqb andb r1 r2 r3 vx vy vz m11 m12 m21 m22]. cbn [fadd fmul f0 f1 fofZ Fld_R]. apply v3_ext; cbn [vx vy vz]; ring. }
  assert (V1 : mvmul (cart_op L (lengths L) (embed 1 2 W)) (seed h) = v1).
  { unfold W. rewrite VAL. unfold x, mvmul, embed, vdot, L, vmul, vadd, vscale, v1. cbn [Nat.eqb andb r1 r2 r3 vx vy vz m11 m12 m21 m22]. cbn [fadd fmul f0 f1 fofZ Fld_R]. apply v3_ext; cbn [vx vy vz]; field. }
  assert (P10 : parallel v1 (seed h) = false) by (apply parallel_R; unfold v1, seed; change (@f0 R Fld_R) with 0%R; rewrite !vdot_R; nra).
  assert (C0 : parallel (V3 0%R h h) (seed h) = false) by (apply parallel_R; unfold seed; change (@f0 R Fld_R) with 0%R; rewrite !vdot_R; nra).
  assert (C1 : parallel (V3 0%R h h) v1 = false) by (apply parallel_R; unfold v1; rewrite !vdot_R; nra).
  pose proof (parallel_refl (seed h)) as P00.
  assert (EI : exists mats, independent_one L (lengths L) h 6 ops 1 2 [0; 1] = Ok ([0; 1], mats, [seed h; v1])).
  { unfold independent_one.
    replace (mapM (fun k => let! o := py_nth ops k in of_option EUninit (powers 6 (op_W o))) [0; 1]) with (Ok [[id2]; [id2; W]] : result (list (list mat2))) by reflexivity.
    cbn [bind concat app map]. rewrite V0, V1.
    do 2 (first [rewrite pick_skip by (cbn [existsb app]; rewrite ?P00, ?P10; cbn [orb]; rewrite ?orb_true_r; reflexivity)
               | rewrite pick_keep by first [cbn [existsb app]; rewrite ?P00, ?P10; reflexivity | cbn; lia]]).
    cbn [pick app map]. rewrite V0, V1.
    replace (mapM (fun W => find_op W 0 ops) [id2; W]) with (Ok [0; 1] : result (list nat)) by reflexivity. cbn [bind]. eexists. reflexivity. }
  destruct EI as (mats & EI). exists L, ops, [0; 1], mats, [seed h; v1], (seed h), v1, (V3 0%R h h).
  split; [reflexivity|]. split; [reflexivity|]. split; [reflexivity|]. split; [reflexivity|]. split; [exact HD|]. split; [|split; [exact EI|split]].
  - repeat constructor; intros u w; rewrite !len2_comb; cbn [axis m11 m12 m21 m22 op_W id2 W]; unfold L; cbn [r1 r2 r3]; rewrite !vdot_R, !plus_IZR, !mult_IZR; ring.
  - unfold additional. cbn [length additional_candidates filter existsb]. change (@f0 R Fld_R) with 0%R. rewrite C0, C1. reflexivity.
  - unfold seed, v1. change (@f0 R Fld_R) with 0%R. rewrite det_R. ring.
Qed.
Print Assumptions displacements_dependent_in_yz.

(** * Witness: a square cell with its mirror x -> -x meets the hypotheses of displacements_independent *)
Example slab_witness : let L := M3 (V3 4%R 0%R 0%R) (V3 0%R 4%R 0%R) (V3 0%R 0%R 15%R) in
  slab L /\ Forall (fun o => proper_op L (op_W o)) [mkOp id2 []; mkOp (M2 0 (-1) 1 0) []; mkOp (M2 (-1) 0 0 1) ([] : list (v3 R * list nat))].
Proof.
  cbn zeta. split.
  - unfold slab. cbn [r1 r2 r3 vx vy vz]. repeat split. rewrite det_R. lra.
  - assert (S : forall W, In W [id2; M2 0 (-1) 1 0; M2 (-1) 0 0 1] ->
      proper_op (M3 (V3 4%R 0%R 0%R) (V3 0%R 4%R 0%R) (V3 0%R 0%R 15%R)) W).
    { intros W HW. split.
      - intros u w. rewrite !len2_comb. destruct HW as [<-|[<-|[<-|[]]]]; cbn [axis m11 m12 m21 m22 id2 r1 r2 r3];
          rewrite !vdot_R, !plus_IZR, !mult_IZR; ring.
      - left. unfold len2. cbn [r1 r2]. rewrite !vdot_R. ring. }
    apply Forall_forall. intros o Ho. apply S. cbn [In] in *. destruct Ho as [<-|[<-|[<-|[]]]]; cbn [op_W]; tauto.
Qed.
