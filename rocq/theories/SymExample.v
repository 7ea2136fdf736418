(** A concrete run with symmetry that meets the hypotheses of PropsSymRun.symmetry_run_exact:
    a rectangular slab with two equal atoms exchanged by the two-fold axis, 2 x 2 x 1
    supercell: one atom is displaced, the other one is derived. *)
From Coq Require Import String ZArith QArith Qcanon Qreals Bool Lia Lra Psatz Arith Reals Permutation setoid_ring.Field List.
From Verif Require Import Base Field Args Cell Super SuperFacts Displace DisplaceFacts PropsCell Force ForceFacts Sym Order SymFacts PropsLattice PropsForce PropsSym PropsSuperSym PropsDisp SymRun SymTransfer PropsSymRun.
Import ListNotations.
Local Open Scope list_scope.
Local Open Scope nat_scope.

Definition sy_latQ : m3 Qc := M3 (V3 (qq 3 1) (qq 0 1) (qq 0 1)) (V3 (qq 0 1) (qq 4 1) (qq 0 1)) (V3 (qq 0 1) (qq 0 1) (qq 15 1)).
Definition sy_atomsQ : list (atom Qc) := [at_ "C" (qq 1 10) (qq 1 5) (qq 1 2); at_ "C" (qq (-1) 10) (qq (-1) 5) (qq 1 2)].
Definition sy_lat : m3 R := M3 (V3 3 0 0)%R (V3 0 4 0)%R (V3 0 0 15)%R.
Definition sy_pos : list (v3 R) := [V3 (3/10) (4/5) (15/2); V3 (-3/10) (-4/5) (15/2)]%R.
Definition sy_cell : cell R := mkCell (Some sy_lat) (Some ["C"; "C"]%string) (Some [2]%Z) true (Some Cartesian) (Some sy_pos) (Some [0; 1]%Z) (Some [0; 0; 0; 1; 1; 1]%Z) None.
Definition sy_args : args := mkArgs (Some (Q2Qc (1#50))) (Some [2; 2; 1]%Z) (Some [1; 1; 0]%Z).
Definition sy_atoms : list (atom R) := [("C"%string, V3 (1/10) (1/5) (1/2)); ("C"%string, V3 (-1/10) (-1/5) (1/2))]%R.
Definition sy_ops : list (op R) := [mkOp (M2 1 0 0 1) [(v3z, [0; 1])]; mkOp (M2 (-1) 0 0 (-1)) [(v3z, [1; 0])]].
(** each atom is bound to its place and repelled by every other atom of the supercell *)
Definition sy_Phi (s t : nat) : m3 R := mscale (if Nat.eqb s t then 7%R else (-1)%R) m3id.

Lemma sy_searchQ : search_point_group sy_latQ (0, 1, 2) sy_atomsQ [0; 1] = Ok ([mkOp (M2 1 0 0 1) [(v3z, [0; 1])]; mkOp (M2 (-1) 0 0 (-1)) [(v3z, [1; 0])]], "2"%string).
Proof. vm_compute. reflexivity. Qed.
Lemma qr_qq a b : qr (qq a b) = (IZR a / IZR (Zpos b))%R.
Proof. unfold qr, qq, Q2Qc. cbn [this]. rewrite Q2R_red. reflexivity. Qed.
Lemma sy_search : search_point_group sy_lat (0, 1, 2) sy_atoms [0; 1] = Ok (sy_ops, "2"%string).
Proof.
  pose proof (search_transfer qr hom_qr _ _ _ _ _ _ sy_searchQ) as E.
  assert (E1 : hm qr sy_latQ = sy_lat).
  { unfold sy_latQ, sy_lat, hm, hv. cbn [r1 r2 r3 vx vy vz]. rewrite !qr_qq. f_equal; f_equal; field. }
  assert (E2 : map (ha qr) sy_atomsQ = sy_atoms).
  { unfold sy_atomsQ, sy_atoms, at_, ha, hv. cbn [map fst snd vx vy vz]. rewrite !qr_qq. reflexivity. }
  rewrite E1, E2 in E. rewrite E. unfold ho, hw. cbn [map op_W op_maps fst snd]. rewrite !(hv_z qr hom_qr). reflexivity.
Qed.
Lemma sy_det : det sy_lat = 180%R. Proof. unfold sy_lat. rewrite det_R. ring. Qed.
Lemma sy_atoms_of : atoms_of sy_cell = Ok sy_atoms.
Proof.
  unfold atoms_of, sy_cell. cbn [c_type of_option bind]. unfold get_atom_direct. cbn [c_cart c_lat]. destruct (f_dec (det sy_lat) f0) as [K|_].
  { exfalso. rewrite sy_det in K. change (180 = 0)%R in K. lra. }
  cbn [bind]. unfold minv_raw. rewrite sy_det. unfold sy_pos, sy_atoms, sy_lat. cbn [map combine].
  assert (E : forall a b c : R, (vmul (V3 a b c) (mscale (finv 180) (adj (M3 (V3 3 0 0) (V3 0 4 0) (V3 0 0 15)))) = V3 (a / 3) (b / 4) (c / 15))%R).
  { intros a b c. unfold vmul, vadd, vscale, mscale, adj, transpose, vcross. cbn [r1 r2 r3 vx vy vz vscale]. cbn. f_equal; field. }
  rewrite !E. f_equal. f_equal; [f_equal; f_equal; field|f_equal; f_equal; f_equal; field].
Qed.
Lemma sy_selected : selected sy_cell = Ok sy_atoms.
Proof. unfold selected. rewrite sy_atoms_of. reflexivity. Qed.
Lemma sy_slab : slab sy_lat.
Proof. unfold slab. rewrite sy_det. cbn. repeat split; lra. Qed.
Lemma le_Rle (x y : R) : le x y -> (x <= y)%R.
Proof. unfold le, fleb, Num_R. destruct (Rle_dec x y); [auto|discriminate]. Qed.
Lemma sq_ge1 n : n <> 0%Z -> (1 <= IZR n ^ 2)%R.
Proof. intros H. assert (K : (1 <= n * n)%Z) by nia. apply IZR_le in K. rewrite mult_IZR in K. nra. Qed.
Lemma fifth n : (1 / 25 <= (1 / 5 - IZR n) ^ 2)%R.
Proof.
  destruct (Z_le_gt_dec n 0) as [K|K].
  - apply IZR_le in K. nra.
  - assert (K' : (1 <= n)%Z) by lia. apply IZR_le in K'. nra.
Qed.
Lemma sy_apart : crystal_apart sy_lat sy_atoms.
Proof.
  assert (G : forall x1 x2 x3 y1 y2 y3 n1 n2 n3, (vdot (gap sy_lat (V3 x1 x2 x3) (V3 y1 y2 y3) (ivec n1 n2 n3)) (gap sy_lat (V3 x1 x2 x3) (V3 y1 y2 y3) (ivec n1 n2 n3)) =
    (9 * (x1 - y1 - IZR n1) ^ 2 + 16 * (x2 - y2 - IZR n2) ^ 2 + 225 * (x3 - y3 - IZR n3) ^ 2))%R).
  { intros. unfold gap, ivec, sy_lat, vmul, vsub, vadd, vscale, vdot. cbn. ring. }
  assert (T : fdiv (fofZ 12) (fofZ (10 ^ 8)) = (12 / 100000000)%R) by reflexivity.
  assert (P : forall a b c : R, (0 <= a ^ 2 /\ 0 <= b ^ 2 /\ 0 <= c ^ 2)%R) by (intros a b c; repeat split; apply pow2_ge_0).
  assert (S0 : forall (x1 x2 x3 : R) n1 n2 n3, (n1, n2, n3) <> (0, 0, 0)%Z -> (9 * (x1 - x1 - IZR n1) ^ 2 + 16 * (x2 - x2 - IZR n2) ^ 2 + 225 * (x3 - x3 - IZR n3) ^ 2 <= 12 / 100000000)%R -> False).
  { intros x1 x2 x3 n1 n2 n3 Hne HL. replace (x1 - x1 - IZR n1)%R with (- IZR n1)%R in HL by ring. replace (x2 - x2 - IZR n2)%R with (- IZR n2)%R in HL by ring. replace (x3 - x3 - IZR n3)%R with (- IZR n3)%R in HL by ring.
    replace ((- IZR n1) ^ 2)%R with (IZR n1 ^ 2)%R in HL by ring. replace ((- IZR n2) ^ 2)%R with (IZR n2 ^ 2)%R in HL by ring. replace ((- IZR n3) ^ 2)%R with (IZR n3 ^ 2)%R in HL by ring.
    destruct (P (IZR n1) (IZR n2) (IZR n3)) as (P1 & P2 & P3). assert (D : n1 <> 0%Z \/ n2 <> 0%Z \/ n3 <> 0%Z).
    { destruct (Z.eq_dec n1 0), (Z.eq_dec n2 0), (Z.eq_dec n3 0); auto. subst. congruence. }
    destruct D as [D|[D|D]]; apply sq_ge1 in D; lra. }
  intros i j t x y n1 n2 n3 Hne Hi Hj HL. apply le_Rle in HL. rewrite T in HL. unfold sy_atoms in *.
  destruct i as [|[|i]]; [| |destruct i; discriminate]; (destruct j as [|[|j]]; [| |destruct j; discriminate]); cbn in Hi, Hj; injection Hi as <- <-; injection Hj as <-; rewrite G in HL.
  - destruct Hne as [K|Hne]; [congruence|]. eapply S0; eassumption.
  - destruct (P (1 / 5 - IZR n1) (1/5 - -1/5 - IZR n2) (1/2 - 1/2 - IZR n3))%R as (_ & P2 & P3). pose proof (fifth n1) as K. replace (1 / 10 - -1 / 10 - IZR n1)%R with (1/5 - IZR n1)%R in HL by field. lra.
  - destruct (P (1 / 5 - IZR n1) (-1/5 - 1/5 - IZR n2) (1/2 - 1/2 - IZR n3))%R as (_ & P2 & P3). pose proof (fifth (- n1)) as K. rewrite opp_IZR in K. replace ((-1 / 10 - 1 / 10 - IZR n1) ^ 2)%R with ((1/5 - - IZR n1) ^ 2)%R in HL by field. lra.
  - destruct Hne as [K|Hne]; [congruence|]. eapply S0; eassumption.
Qed.
Lemma sy_primitive : primitive sy_atoms.
Proof.
  intros tau HT. destruct tau as [a b c].
  destruct (HT 0 _ _ eq_refl) as (j & u & n1 & n2 & n3 & Hj & E). unfold sy_atoms in Hj. unfold ivec, vadd in E. cbn in E. destruct j as [|[|j]]; [| |destruct j; discriminate]; cbn in Hj; injection Hj as <-; cbn [vx vy vz] in E; injection E as E1 E2 E3.
  - exists n1, n2, n3. unfold ivec. cbn. f_equal; lra.
  - destruct (HT 1 _ _ eq_refl) as (j & u & m1 & m2 & m3 & Hj & E). unfold ivec, vadd in E. cbn in E. destruct j as [|[|j]]; [| |destruct j; discriminate]; cbn in Hj; injection Hj as <-; cbn [vx vy vz] in E; injection E as F1 F2 F3.
    + exfalso. assert (K : (IZR (5 * n1) = IZR (2 + 5 * m1))%R) by (rewrite plus_IZR, !mult_IZR; lra). apply eq_IZR in K. lia.
    + exists m1, m2, m3. unfold ivec. cbn. f_equal; lra.
Qed.
Lemma sy_exact : exact_search sy_lat sy_atoms [0; 1] sy_atoms.
Proof.
  intros ops g E o Ho. rewrite sy_search in E. injection E as <- <-. unfold sy_ops in Ho. split.
  - unfold proper_op, lattice_symmetry. destruct Ho as [<-|[<-|[]]]; cbn [op_W m11 m12 m21 m22]; (split; [intros x y|right; split; reflexivity]).
    + f_equal. f_equal; lia.
    + replace (-1 * x + 0 * y)%Z with (- x)%Z by ring. replace (0 * x + -1 * y)%Z with (- y)%Z by ring. unfold sy_lat, len2, comb, axis, vdot, vadd, vscale. cbn [r1 r2 r3 vx vy vz]. change (@fofZ R Fld_R) with IZR. rewrite !opp_IZR. cbn. ring.
  - intros w same rest EM. destruct Ho as [<-|[<-|[]]]; cbn [op_W op_maps] in *; injection EM as <- <- <-; (split; [reflexivity|]); intros i t u Hi; unfold sy_atoms in *;
      (destruct i as [|[|i]]; [| |destruct i; discriminate]); cbn in Hi; injection Hi as <- <-; do 5 eexists; (split; [reflexivity|]; split; [reflexivity|]).
    all: unfold image; rewrite embed01; unfold mvmul, vadd, vdot, ivec, v3z; cbn [r1 r2 r3 vx vy vz]; instantiate (1 := 0%Z); instantiate (1 := 0%Z); instantiate (1 := 0%Z); cbn; f_equal; field.
Qed.
Lemma sy_complete : complete sy_cell sy_lat ["C"; "C"]%string [2]%Z Cartesian sy_pos. Proof. repeat split; reflexivity. Qed.
Lemma sy_valid : valid_args sy_args (Z.of_nat 2) (Z.of_nat 2) (Z.of_nat 1) 1 1 0. Proof. split; [reflexivity|]. split; [reflexivity|]. repeat split; intros; lia. Qed.
Section Scalar.
Context {A : Type} {F : Fld A}.
Add Field fld_scalar : f_theory.
(** such forces are invariant: a symmetry carries each atom to itself or to another one *)
Lemma scalar_invariant (x y : A) SL (ssel : list (atom A)) st : NoDup st -> length st = length ssel ->
  invariant_forces SL ssel st (fun s t => mscale (if Nat.eqb s t then x else y) m3id).
Proof.
  intros ND LS M tau perm _ (HP & _) a b a' b' s s' t t' Ha Hb Hs Hs' Ht Ht'.
  assert (E : Nat.eqb s t = Nat.eqb s' t').
  { destruct (Nat.eqb_spec s t) as [->|N1]; destruct (Nat.eqb_spec s' t') as [->|N2]; try reflexivity; exfalso.
    - apply N2. assert (a = b). { apply (proj1 (NoDup_nth_error st) ND a b); [apply nth_error_Some; congruence|congruence]. } subst b. assert (a' = b') by congruence. subst b'. congruence.
    - apply N1. assert (a' = b') by (apply (proj1 (NoDup_nth_error st) ND a' b'); [apply nth_error_Some; congruence|congruence]). subst b'.
      assert (NP : NoDup perm) by (apply (Permutation_NoDup (Permutation_sym HP)), seq_NoDup). assert (a = b) by (apply (proj1 (NoDup_nth_error perm) NP a b); [apply nth_error_Some; congruence|congruence]). subst b. congruence. }
  rewrite E. generalize (if Nat.eqb s' t' then x else y). intros c. clear. destruct M as [[x1 x2 x3] [y1 y2 y3] [z1 z2 z3]]. vring_gen.
Qed.
End Scalar.
Lemma sy_invariant SL (ssel : list (atom R)) st : NoDup st -> length st = length ssel -> invariant_forces SL ssel st sy_Phi.
Proof. exact (scalar_invariant 7%R (-1)%R SL ssel st). Qed.
Example symmetry_run_witness : exists s ts ssel cur sd,
  complete sy_cell sy_lat ["C"; "C"]%string [2]%Z Cartesian sy_pos /\ valid_args sy_args (Z.of_nat 2) (Z.of_nat 2) (Z.of_nat 1) 1 1 0 /\
  c_true sy_cell = Some [0; 1]%Z /\ NoDup [0; 1]%Z /\ atoms_of sy_cell = Ok sy_atoms /\ selected sy_cell = Ok sy_atoms /\
  slab sy_lat /\ crystal_apart sy_lat sy_atoms /\ primitive sy_atoms /\ exact_search sy_lat sy_atoms (map Z.to_nat [0; 1]%Z) sy_atoms /\
  build_super sy_cell sy_args = Ok s /\ c_lat s = Some (super_lattice 2 2 1 sy_lat) /\ c_true s = Some ts /\ selected s = Ok ssel /\ c_cart s = Some cur /\
  cell_symmetry 12 (lengths sy_lat) isq2 (0, 1, 2) sy_cell s = Ok sd /\ sd_require sd = [0] /\ sd_not_require sd = [1] /\
  harmonic cur (spring_law cur sy_Phi) sy_Phi /\ invariant_forces (super_lattice 2 2 1 sy_lat) ssel (map Z.to_nat ts) sy_Phi.
Proof.
  assert (HS : selection sy_atoms (map Z.to_nat [0; 1]%Z) sy_atoms) by (unfold selection, sy_atoms; repeat constructor).
  destruct (built_supercell_is_enlarged sy_cell sy_args _ _ _ _ _ 2 2 1 1 1 0%Z [0; 1]%Z sy_atoms sy_atoms sy_complete sy_valid ltac:(lia) ltac:(lia) ltac:(lia) eq_refl ltac:(repeat constructor; lia) sy_atoms_of HS)
    as (s & ts & satoms & ssel & B1 & B2 & B3 & B4 & B5 & B6 & B7).
  pose proof (selected_of s satoms ts ssel B4 B2 B5) as B8.
  destruct (built_supercell_is_ready sy_cell sy_args _ _ _ _ _ [0; 1]%Z 2 2 1 1 1 0%Z sy_complete eq_refl sy_valid ltac:(lia) ltac:(lia) ltac:(lia)) as (s1 & cur & R1 & HR). assert (s1 = s) by congruence. subst s1.
  destruct (supercell_images_of_search 2 2 1 sy_lat 0 1 2 sy_atoms [0; 1] sy_atoms ssel sy_ops "2"%string ltac:(lia) ltac:(lia) ltac:(lia) ltac:(left; reflexivity) eq_refl HS sy_apart sy_search B6) as (ss & HSS & _).
  { intros o w same rest Ho EM. exact (proj2 (sy_exact _ _ sy_search o Ho) w same rest EM). }
  assert (EI : independent_one sy_lat (lengths sy_lat) isq2 12 sy_ops 0 1 [0] = Ok ([0], [cart_op sy_lat (lengths sy_lat) (embed 0 1 id2)], [mvmul (cart_op sy_lat (lengths sy_lat) (embed 0 1 id2)) (seed isq2)])) by reflexivity.
  exists s, ts, ssel, cur. eexists. split; [exact sy_complete|]. split; [exact sy_valid|]. split; [reflexivity|]. split; [repeat constructor; cbn; intuition discriminate|]. split; [exact sy_atoms_of|]. split; [exact sy_selected|].
  split; [exact sy_slab|]. split; [exact sy_apart|]. split; [exact sy_primitive|]. split; [exact sy_exact|]. split; [exact B1|]. split; [exact B3|]. split; [exact B2|]. split; [exact B8|]. split; [exact (rd_cart _ _ _ _ _ HR)|].
  split; [|split; [|split; [|split; [apply every_spring_law_is_harmonic|apply sy_invariant]]]].
  - unfold cell_symmetry. rewrite sy_atoms_of, B3, B4, B8. cbn [sy_cell c_lat c_true of_option bind]. rewrite B7. change (length sy_atoms * (2 * 2 * 1) / length sy_atoms) with (2 * 2 * 1).
    unfold symmetry_search. change (map Z.to_nat [0; 1]%Z) with [0; 1]. rewrite sy_search. cbn [bind]. change (search_image_atom sy_ops (length [0; 1])) with (Ok ([1], [0], [1])). cbn [bind]. rewrite HSS. cbn [bind].
    change (mapM (self_ops sy_ops) [0]) with (Ok [[0]]). cbn [bind mapM]. rewrite EI. cbn [bind]. reflexivity.
  - reflexivity.
  - reflexivity.
  - assert (ET : ts = map Z.of_nat (seq 0 8)).
    { unfold build_super in B1. apply bind_ok in B1 as (s0 & _ & B1). destruct (supercell_selection_correct sy_cell s0 sy_args [0; 1]%Z 2 2 1 1 1 0%Z sy_valid eq_refl) as (s2 & ts2 & X1 & _ & X2 & _ & _ & _ & _ & X3 & X4 & _).
      assert (s2 = s) by congruence. subst s2. assert (ts2 = ts) by congruence. subst ts2.
      pose proof (X4 0 0%Z 0 eq_refl ltac:(lia)) as Y0. pose proof (X4 0 0%Z 1 eq_refl ltac:(lia)) as Y1. pose proof (X4 0 0%Z 2 eq_refl ltac:(lia)) as Y2. pose proof (X4 0 0%Z 3 eq_refl ltac:(lia)) as Y3.
      pose proof (X4 1 1%Z 0 eq_refl ltac:(lia)) as Y4. pose proof (X4 1 1%Z 1 eq_refl ltac:(lia)) as Y5. pose proof (X4 1 1%Z 2 eq_refl ltac:(lia)) as Y6. pose proof (X4 1 1%Z 3 eq_refl ltac:(lia)) as Y7.
      cbn in X3. do 8 (destruct ts as [|? ts]; [discriminate X3|]). destruct ts as [|? ts]; [|discriminate X3]. cbn in Y0, Y1, Y2, Y3, Y4, Y5, Y6, Y7. cbn. congruence. }
    rewrite ET. cbn. repeat constructor; cbn; intuition discriminate.
  - pose proof (Forall2_len B5) as X. exact X.
Qed.
