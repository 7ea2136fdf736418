(** The cell must be primitive: in a centred cell a run with symmetry can return wrong force
    constants (C72).  Model: SymRun.v. *)
From Coq Require Import String ZArith QArith Qcanon Bool Lia Arith Permutation setoid_ring.Field List.
From Verif Require Import Base Field Args Cell Super SuperFacts Displace DisplaceFacts PropsCell Force ForceFacts Sym Order SymFacts PropsForce PropsSym PropsSuperSym SymRun PropsSymRun SymExample.
Import ListNotations.
Local Open Scope list_scope.
Local Open Scope nat_scope.
Definition np_lat : m3 Qc := M3 (V3 (qq 8 1) (qq 0 1) (qq 0 1)) (V3 (qq 0 1) (qq 8 1) (qq 0 1)) (V3 (qq 0 1) (qq 0 1) (qq 20 1)).
Definition pt (a b : Z) : v3 Qc := V3 (qq a 2) (qq b 2) (qq 10 1).
Definition np_pos : list (v3 Qc) := [pt 4 4; pt 12 12; pt 6 5; pt 3 6; pt 2 3; pt 5 2; pt 14 13; pt 11 14; pt 10 11; pt 13 10].
Definition np_types : list string := ["Na"; "Na"; "Cl"; "Cl"; "Cl"; "Cl"; "Cl"; "Cl"; "Cl"; "Cl"]%string.
Definition np_all : list Z := [0; 1; 2; 3; 4; 5; 6; 7; 8; 9]%Z.
Definition np_cell : cell Qc := mkCell (Some np_lat) (Some np_types) (Some [2; 8]%Z) true (Some Cartesian) (Some np_pos) (Some np_all) (Some (flat_map (fun z => [z; z; z]) np_all)) None.
Definition np_args : args := mkArgs (Some (Q2Qc (1#50))) (Some [1; 1; 1]%Z) (Some [1; 1; 0]%Z).
Definition np_hs := qq 7071067811865475 10000000000000000.
Definition np_norms := V3 (qq 8 1) (qq 8 1) (qq 20 1).
Definition np_Phi (s t : nat) : m3 Qc := mscale (if Nat.eqb s t then qq 7 1 else qq (-1) 1) m3id.
Definition np_super := build_super np_cell np_args.
Definition np_sd := let! s := np_super in cell_symmetry 12 np_norms np_hs (0,1,2) np_cell s.

(** direct positions: (a/16, b/16, 1/2) *)
Definition np_num : list (string * (Z * Z)) := combine np_types [(4, 4); (12, 12); (6, 5); (3, 6); (2, 3); (5, 2); (14, 13); (11, 14); (10, 11); (13, 10)]%Z.
Definition np_atoms : list (atom Qc) := map (fun '(t, (a, b)) => (t, V3 (qq a 16) (qq b 16) (qq 1 2))) np_num.
Definition vnum (v : v3 Qc) : Q * Q * Q := (this (vx v), this (vy v), this (vz v)).
Definition anum (a : atom Qc) : string * (Q * Q * Q) := (fst a, vnum (snd a)).
Lemma vnum_inj u v : vnum u = vnum v -> u = v.
Proof. destruct u, v. unfold vnum. cbn. intros E. injection E as E1 E2 E3. f_equal; apply Qc_is_canon; congruence. Qed.
Lemma anum_inj l l' : map anum l = map anum l' -> l = l'.
Proof.
  revert l'. induction l as [|[t u] l IH]; intros [|[t' u'] l'] E; try discriminate; [reflexivity|]. cbn [map] in E. injection E as -> E1 E2 E3 E4. f_equal; [|now apply IH]. f_equal. apply vnum_inj. unfold vnum. congruence.
Qed.
Definition rnum (r : result (list (atom Qc))) : option (list (string * (Q * Q * Q))) := match r with Ok l => Some (map anum l) | Err _ => None end.
Lemma rnum_inj r l : rnum r = Some (map anum l) -> r = Ok l.
Proof. destruct r; [|discriminate]. cbn. intros E. injection E as E. f_equal. now apply anum_inj. Qed.
Lemma np_atoms_of : atoms_of np_cell = Ok np_atoms.
Proof. apply rnum_inj. vm_compute. reflexivity. Qed.
Lemma np_selected : selected np_cell = Ok np_atoms.
Proof. apply rnum_inj. vm_compute. reflexivity. Qed.

Lemma qq_div a b : qq a b = fdiv (fofZ a) (fofZ (Zpos b)) :> Qc.
Proof.
  assert (E : fmul (qq a b) (fofZ (Zpos b)) = fofZ a :> Qc).
  { apply Qc_is_canon. unfold qq, fmul, fofZ, Fld_Qc, Qcmult, Q2Qc. cbn [this]. rewrite !Qred_correct. unfold Qeq, Qmult, inject_Z. cbn. lia. }
  rewrite <- E. cbn. field. intros K. assert (Z.pos b = 0%Z) by (apply (fofZ_inj0 (A := Qc)); exact K). discriminate.
Qed.
Lemma np_gap a b c d n1 n2 n3 g : g = gap np_lat (V3 (qq a 16) (qq b 16) (qq 1 2)) (V3 (qq c 16) (qq d 16) (qq 1 2)) (ivec n1 n2 n3) ->
  fmul (fofZ 4) (vdot g g) = fofZ ((a - c - 16 * n1) * (a - c - 16 * n1) + (b - d - 16 * n2) * (b - d - 16 * n2) + 1600 * (n3 * n3)) :> Qc.
Proof.
  intros ->. unfold np_lat. rewrite !qq_div. rewrite !fofZ_1, !fofZ_0.
  change 1600%Z with (2 * 2 * 2 * 2 * 2 * 2 * 5 * 5)%Z. change 16%Z with (2 * 2 * 2 * 2)%Z. change 8%Z with (2 * 2 * 2)%Z. change 20%Z with (2 * 2 * 5)%Z. change 4%Z with (2 * 2)%Z.
  unfold Z.sub. rewrite !fofZ_add, !fofZ_mul, !fofZ_add, !fofZ_opp, !fofZ_mul.
  assert (T : (fofZ 2 : Qc) <> f0) by (apply fofZ_ne; discriminate). unfold ivec.
  generalize dependent (fofZ 2 : Qc). generalize (fofZ 5 : Qc) (fofZ a : Qc) (fofZ b : Qc) (fofZ c : Qc) (fofZ d : Qc) (fofZ n1 : Qc) (fofZ n2 : Qc) (fofZ n3 : Qc). clear. intros.
  unfold gap, vdot, vmul, vsub, vadd, vscale. cbn. field. split; [discriminate|exact T].
Qed.
Lemma sq_pos_sum p q r : (p <> 0 \/ q <> 0 \/ r <> 0)%Z -> (1 <= p * p + q * q + 1600 * (r * r))%Z.
Proof. intros H. pose proof (Z.square_nonneg p). pose proof (Z.square_nonneg q). pose proof (Z.square_nonneg r). destruct H as [H|[H|H]]; nia. Qed.
Lemma np_apart : crystal_apart np_lat np_atoms.
Proof.
  intros i j t x y n1 n2 n3 Hne Hi Hj HL. unfold np_atoms in Hi, Hj. rewrite nth_error_map in Hi, Hj.
  destruct (nth_error np_num i) as [[ti [a b]]|] eqn:Ei; [|discriminate]. destruct (nth_error np_num j) as [[tj [c d]]|] eqn:Ej; [|discriminate]. cbn [option_map] in Hi, Hj. injection Hi as <- <-. injection Hj as Ht <-.
  pose proof (np_gap a b c d n1 n2 n3 _ eq_refl) as EG. set (g := gap _ _ _ _) in *.
  assert (P : (1 <= (a - c - 16 * n1) * (a - c - 16 * n1) + (b - d - 16 * n2) * (b - d - 16 * n2) + 1600 * (n3 * n3))%Z).
  { destruct (Z.eq_dec (a - c - 16 * n1) 0) as [E1|N]; [|apply sq_pos_sum; auto]. destruct (Z.eq_dec (b - d - 16 * n2) 0) as [E2|N]; [|apply sq_pos_sum; auto]. destruct (Z.eq_dec n3 0) as [E3|N]; [|apply sq_pos_sum; auto]. exfalso. subst n3.
    assert (K : i = j /\ n1 = 0%Z /\ n2 = 0%Z); [|destruct K as (-> & -> & ->); destruct Hne; congruence].
    clear - Ei Ej E1 E2. unfold np_num, np_types in *. cbn [combine] in *.
    do 10 (destruct i as [|i]; [cbn in Ei; injection Ei as <- <- <-; do 10 (destruct j as [|j]; [cbn in Ej; injection Ej as <- <- <-; lia|]); destruct j; discriminate|]). destruct i; discriminate. }
  apply (fofZ_le (A := Qc)) in P. rewrite <- EG in P. generalize dependent (vdot g g). intros w HL _ P.
  assert (K : le (fmul (fofZ 4) w) (fmul (fofZ 4) (fdiv (fofZ 12) (fofZ (10 ^ 8))))).
  { apply le_sub. apply le_sub in HL. generalize dependent (fdiv (fofZ 12) (fofZ (10 ^ 8)) : Qc). intros e HL. replace (fsub (fmul (fofZ 4) e) (fmul (fofZ 4) w)) with (fmul (fofZ 4) (fsub e w)) by (cbn; ring).
    apply le_mul; [reflexivity|exact HL]. }
  pose proof (le_trans _ _ _ P K) as T. vm_compute in T. discriminate.
Qed.

(** * Exactness of the accepted operations, checked by computation *)
Definition vrint (v : v3 Qc) : Z * Z * Z := (frint (vx v), frint (vy v), frint (vz v)).
Definition exact_b (W : mat2) (w : v3 Qc) (same : list nat) (sel : list (atom Qc)) : bool :=
  Nat.eqb (length same) (length sel) && forallb (fun '(i, (t, u)) =>
    match nth_error same i with
    | Some j => match nth_error sel j with
      | Some (t', u') => String.eqb t' t && (let y := image 0 1 W w u in let '(n1, n2, n3) := vrint (vsub y u') in
          let z := vadd u' (ivec n1 n2 n3) in Qc_eq_bool (vx y) (vx z) && Qc_eq_bool (vy y) (vy z) && Qc_eq_bool (vz y) (vz z))
      | None => false end
    | None => false end) (enumerate sel).
Lemma exact_b_ok W w same sel : exact_b W w same sel = true -> exact_operation 0 1 W w same sel.
Proof.
  unfold exact_b. intros H. apply andb_prop in H as (H1 & H2). apply Nat.eqb_eq in H1. split; [exact H1|]. intros i t u Hi. rewrite forallb_forall in H2.
  specialize (H2 (i, (t, u))). rewrite enumerate_In in H2. specialize (H2 Hi). cbn beta iota in H2.
  destruct (nth_error same i) as [j|]; [|discriminate]. destruct (nth_error sel j) as [[t' u']|] eqn:Ej; [|discriminate]. apply andb_prop in H2 as (E1 & H2). apply String.eqb_eq in E1. subst t'.
  destruct (vrint _) as [[n1 n2] n3]. apply andb_prop in H2 as (H2 & H3). apply andb_prop in H2 as (H2 & H4). apply Qc_eq_bool_correct in H2, H3, H4.
  exists j, u', n1, n2, n3. split; [reflexivity|]. split; [exact Ej|]. apply v3_ext; assumption.
Qed.
Definition all_exact (r : result (list (op Qc) * string)) (sel : list (atom Qc)) : bool :=
  match r with Ok (ops, _) => forallb (fun o => forallb (fun m => exact_b (op_W o) (fst m) (snd m) sel) (op_maps o)) ops | Err _ => true end.
Lemma np_exact ops g : search_point_group np_lat (0, 1, 2) np_atoms (map Z.to_nat np_all) = Ok (ops, g) ->
  forall o w same rest, In o ops -> op_maps o = (w, same) :: rest -> exact_operation 0 1 (op_W o) w same np_atoms.
Proof.
  intros H o w same rest Ho EM. assert (X : all_exact (search_point_group np_lat (0, 1, 2) np_atoms (map Z.to_nat np_all)) np_atoms = true) by (vm_compute; reflexivity).
  rewrite H in X. cbn [all_exact] in X. rewrite forallb_forall in X. specialize (X o Ho). rewrite forallb_forall in X. apply exact_b_ok. apply (X (w, same)). rewrite EM. now left.
Qed.

Definition np_run : option (option (list Z) * option (option err * option Q)) :=
  match build_super np_cell np_args with
  | Ok s => Some (c_true s,
      match c_cart s, selected s, c_lat s with
      | Some cur, Ok _, Some _ =>
          match preprocess_sym 12 np_norms np_hs (0, 1, 2) np_cell s np_args (Some (qq 1 50)) with
          | Ok (s', files) => let r := postprocess_sym (dft (spring_law cur np_Phi)) 12 np_norms np_hs (0, 1, 2) np_cell s (qq 1 50) empty_mat files in Some (snd r, option_map this (fst r 0 0))
          | Err _ => None
          end
      | _, _, _ => None
      end)
  | Err _ => None
  end.
Lemma np_run_value : np_run = Some (Some np_all, Some (None, Some (30000000000 # 1)%Q)).
Proof. vm_compute. reflexivity. Qed.
Lemma np_not_primitive : ~ primitive np_atoms.
Proof.
  intros H. destruct (H (V3 (qq 1 2) (qq 1 2) (qq 0 1))) as (m1 & m2 & m3 & E).
  - set (j := fun i => nth i [1; 0; 6; 7; 8; 9; 2; 3; 4; 5] 0).
    assert (X : exact_b id2 (V3 (qq 1 2) (qq 1 2) (qq 0 1)) (map j (seq 0 10)) np_atoms = true) by (vm_compute; reflexivity). apply exact_b_ok in X as (_ & X).
    intros i t u Hi. destruct (X i t u Hi) as (k & u' & n1 & n2 & n3 & _ & Hk & E). exists k, u', n1, n2, n3. split; [exact Hk|]. rewrite <- E. unfold image. f_equal.
    destruct u as [x y z]. unfold id2, embed, mvmul, vdot. cbn [Nat.eqb andb m11 m12 m21 m22 r1 r2 r3 vx vy vz]. rewrite !fofZ_0, !fofZ_1. clear. cbn. apply v3_ext; cbn [vx vy vz]; ring.
  - assert (K : (fofZ 1 : Qc) = fofZ (2 * m1)) by (rewrite fofZ_mul; change (fofZ m1 : Qc) with (vx (ivec (A := Qc) m1 m2 m3)); rewrite <- E; apply Qc_is_canon; vm_compute; reflexivity).
    assert (K2 : (fofZ (1 - 2 * m1) : Qc) = f0) by (rewrite fofZ_sub, K; cbn; ring). apply fofZ_inj0 in K2. lia.
Qed.
(** ** C72: primitive cells only.  The structure below satisfies every hypothesis of
    symmetry_run_exact except that the cell is centred (hs is the double nearest to 1/sqrt 2);
    the run succeeds and returns 3 instead of 7 for the force constant of atom 0 along x. *)
Theorem nonprimitive_cell_wrong : exists (u s : cell Qc) ar L atoms tr hs norms d law PhiS SL ts ssel cur s' files m',
  valid_args ar 1 1 1 1 1 0 /\ c_lat u = Some L /\ c_true u = Some tr /\ atoms_of u = Ok atoms /\ selected u = Ok atoms /\ NoDup tr /\
  vdot (r1 L) (r1 L) = fmul (vx norms) (vx norms) /\ vdot (r2 L) (r2 L) = fmul (vy norms) (vy norms) /\ vdot (r3 L) (r3 L) = fmul (vz norms) (vz norms) /\
  crystal_apart L atoms /\ ~ primitive atoms /\
  (forall ops g, search_point_group L (0, 1, 2) atoms (map Z.to_nat tr) = Ok (ops, g) -> forall o w same rest, In o ops -> op_maps o = (w, same) :: rest -> exact_operation 0 1 (op_W o) w same atoms) /\
  build_super u ar = Ok s /\ c_lat s = Some SL /\ c_true s = Some ts /\ selected s = Ok ssel /\ c_cart s = Some cur /\
  harmonic cur law PhiS /\ invariant_forces SL ssel (map Z.to_nat ts) PhiS /\
  preprocess_sym 12 norms hs (0, 1, 2) u s ar (Some d) = Ok (s', files) /\
  postprocess_sym (dft law) 12 norms hs (0, 1, 2) u s d empty_mat files = (m', None) /\
  entry (PhiS 0 0) 0 0 = fofZ 7 /\ m' 0 0 = Some (fdiv (fofZ 3) (fdiv f1 (fofZ (10 ^ 10)))).
Proof.
  pose proof np_run_value as RV. unfold np_run in RV. destruct (build_super np_cell np_args) as [s|e] eqn:ES; [|discriminate]. injection RV as RT RV.
  destruct (c_cart s) as [cur|] eqn:EC; [|discriminate]. destruct (selected s) as [ssel|e] eqn:ESel; [|discriminate]. destruct (c_lat s) as [SL|] eqn:EL; [|discriminate].
  destruct (preprocess_sym 12 np_norms np_hs (0, 1, 2) np_cell s np_args (Some (qq 1 50))) as [[s' files]|e] eqn:EP; [|discriminate].
  destruct (postprocess_sym (dft (spring_law cur np_Phi)) 12 np_norms np_hs (0, 1, 2) np_cell s (qq 1 50) empty_mat files) as [m' e] eqn:EM. cbn [fst snd] in RV. injection RV as -> R0.
  exists np_cell, s, np_args, np_lat, np_atoms, np_all, np_hs, np_norms, (qq 1 50), (spring_law cur np_Phi), np_Phi, SL, np_all, ssel, cur, s', files, m'.
  split; [split; [reflexivity|]; split; [reflexivity|]; repeat split; intros; lia|]. split; [reflexivity|]. split; [reflexivity|]. split; [exact np_atoms_of|]. split; [exact np_selected|].
  split; [unfold np_all; repeat constructor; cbn; intuition discriminate|].
  split; [apply Qc_is_canon; vm_compute; reflexivity|]. split; [apply Qc_is_canon; vm_compute; reflexivity|]. split; [apply Qc_is_canon; vm_compute; reflexivity|].
  split; [exact np_apart|]. split; [exact np_not_primitive|]. split; [exact np_exact|]. split; [exact ES|]. split; [exact EL|]. split; [exact RT|]. split; [exact ESel|]. split; [exact EC|].
  split; [apply every_spring_law_is_harmonic|]. split.
  { apply scalar_invariant; [cbn; repeat constructor; cbn; intuition discriminate|]. unfold selected in ESel. apply bind_ok in ESel as (at' & _ & ESel). rewrite RT in ESel. cbn [of_option bind] in ESel. apply mapM_ok_Forall2 in ESel.
    rewrite map_length. exact (Forall2_len ESel). }
  split; [exact EP|]. split; [exact EM|]. split; [apply Qc_is_canon; vm_compute; reflexivity|].
  destruct (m' 0 0) as [x|]; [|discriminate]. cbn [option_map] in R0. injection R0 as R0. f_equal. apply Qc_is_canon. rewrite R0. vm_compute. reflexivity.
Qed.
Print Assumptions nonprimitive_cell_wrong.
