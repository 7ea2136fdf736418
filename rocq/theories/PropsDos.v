(** Density of states: C47, C48. *)
From Coquelicot Require Import Coquelicot.
From Coq Require Import Reals Lra ZArith QArith Qreduction Qreals Qcanon Bool Lia Arith List Sorted Permutation.
From Verif Require Import Base Field Phonon Thermal Band Dos PropsThermal PropsTetra DosFacts PropsKPoints.
Import ListNotations.
Local Open Scope list_scope.
Local Open Scope nat_scope.

(** * Specification *)
(** [well_formed p]: as many sets of modes as k-points and one frequency per degree of freedom.
    [normalised p]: every row of the mode matrix has norm one.  (Both in DosFacts.v.) *)
(** The process holds a regular mesh of n1 x n2 x n3 k-points; directions with p = 0 are not
    periodic and have one point with coordinate 0.  o1, o2, o3: shift of the mesh. *)
Definition axis (p : Z) (n : nat) (o : R) (i : nat) : R := if Z.eqb p 0 then 0%R else ((INR i + o) / INR n)%R.
Definition mesh (p : proc) (p1 p2 p3 : Z) (n1 n2 n3 : nat) (o1 o2 o3 : R) : Prop :=
  p_pbc p = [p1; p2; p3] /\ p_auto p = [Z.of_nat n1; Z.of_nat n2; Z.of_nat n3] /\
  (p1 = 0%Z -> n1 = 1) /\ (p2 = 0%Z -> n2 = 1) /\ (p3 = 0%Z -> n3 = 1) /\
  length (p_k p) = n1 * n2 * n3 /\
  forall i j k, i < n1 -> j < n2 -> k < n3 ->
    nth_error (p_k p) ((i * n2 + j) * n3 + k) = Some (V3 (axis p1 n1 o1 i) (axis p2 n2 o2 j) (axis p3 n3 o3 k)).
Definition resolved (p : Z) (n : nat) : Prop := p <> 0%Z -> 2 <= n.
(** the frequencies found on the mesh *)
Definition mesh_freqs (p : proc) : list R := concat (map fst (p_modes p)).
Definition within (a b : R) (p : proc) : Prop := Forall (fun m => Forall (fun w => a <= w <= b)%R (fst m)) (p_modes p).
(** a DOS object that has not been evaluated yet *)
Definition fresh (d : dos) : Prop := d_sigma d = 0%R /\ length (d_pdos d) = length (d_freq d) /\ forall c m, In c (d_pdos d) -> c m = Some 0%R.
(** The linear method puts T(f) into the total DOS at every frequency f that is asked for.
    (In three dimensions, at every f that is not exactly one of the mesh frequencies.) *)
Definition total_dos_is (p : proc) (T : R -> R) (exact : bool) : Prop :=
  forall d, fresh d -> exists d', dos_set p d = Ok d' /\ d_freq d' = d_freq d /\ length (d_tdos d') = length (d_freq d) /\
    forall i, i < length (d_freq d) -> (exact = true \/ ~ In (nth i (d_freq d) 0%R) (mesh_freqs p)) ->
      nth i (d_tdos d') None = Some (T (nth i (d_freq d) 0%R)).

(** * Proofs *)
Lemma fresh_nth d i m : fresh d -> nth i (d_pdos d) (fun _ => num 0) m = num 0.
Proof.
  intros (_ & _ & H). destruct (Nat.lt_ge_cases i (length (d_pdos d))) as [L|L].
  - apply H. apply nth_In. exact L.
  - rewrite nth_overflow by exact L. reflexivity.
Qed.
Lemma freq_in_mesh p b i : well_formed p -> i < length (p_modes p) -> b < p_n p -> In (freq_at p b i) (mesh_freqs p).
Proof.
  intros [_ W] Hi Hb. unfold mesh_freqs. apply in_concat. rewrite Forall_forall in W.
  assert (M : In (mode_at p i) (p_modes p)) by (apply nth_In; exact Hi).
  exists (fst (mode_at p i)). split; [apply in_map; exact M|]. apply nth_In. rewrite (W _ M). exact Hb.
Qed.
Lemma all_regular p cells f exact_ : well_formed p -> good_cells p cells -> (exact_ = true -> Forall (fun ix => length ix <= 3) cells) ->
  (exact_ = true \/ ~ In f (mesh_freqs p)) -> forall x, In x (pairs p cells) -> regular f (corners p x).
Proof.
  intros W G E H x Hx. destruct (pairs_in _ _ _ G Hx) as (Hb & L & Hi). destruct H as [H|H].
  - apply regular_low. unfold corners. rewrite map_length. specialize (E H). rewrite Forall_forall in E.
    destruct x as [b ix]. apply in_prod_iff in Hx. specialize (E ix (proj2 Hx)). cbn [snd] in *. lia.
  - apply regular_off; [unfold corners; rewrite map_length; exact L|]. intros I. apply H. unfold corners in I. apply in_map_iff in I.
    destruct I as (i & <- & Hi'). apply freq_in_mesh; try assumption. rewrite Forall_forall in Hi. apply Hi. exact Hi'.
Qed.
Lemma totals_nth p cols i : i < length cols -> nth i (totals p cols) None = osum (p_n p) (nth i cols (fun _ => num 0)).
Proof. intros H. unfold totals. rewrite (nth_indep _ None (osum (p_n p) (fun _ => num 0))) by (now rewrite map_length). apply map_nth. Qed.
(** one call of the linear method *)
Lemma linear_total p vol cells ex : well_formed p -> normalised p -> good_cells p cells -> (ex = true -> Forall (fun ix => length ix <= 3) cells) ->
  (forall d, fresh d -> dos_set p d = (let! cols := tetra p vol cells (d_freq d) (d_pdos d) in Ok (mkDos (d_sigma d) (d_freq d) cols (totals p cols)))) ->
  total_dos_is p (total_at p vol cells) ex.
Proof.
  intros W N G E H d F. rewrite (H d F). destruct (tetra_ok p vol cells W G (d_freq d) (d_pdos d)) as (cols & Ec & Lc & Q); [exact (proj1 (proj2 F))|].
  rewrite Ec. cbn [bind]. eexists. split; [reflexivity|]. cbn [d_freq d_tdos]. split; [reflexivity|]. split; [unfold totals; rewrite map_length; exact Lc|].
  intros i Hi X. rewrite totals_nth by lia.
  rewrite (osum_ext _ _ (increment p vol cells (nth i (d_freq d) 0%R))).
  - apply increment_total; try assumption. apply (all_regular p cells _ ex); assumption.
  - intros m _. rewrite Q by exact Hi. rewrite fresh_nth by exact F. apply oadd_0l.
Qed.

(** ** the simplices *)
Lemma cells1_good p n1 : 1 <= n1 -> length (p_modes p) = n1 -> good_cells p (cells1 n1) /\ Forall (fun ix => length ix <= 3) (cells1 n1) /\ length (cells1 n1) = n1.
Proof.
  intros H L. unfold cells1, good_cells. split; [|split].
  - apply Forall_forall. intros ix Hx. apply in_map_iff in Hx. destruct Hx as (i & <- & Hi). apply in_seq in Hi. cbn [length]. split; [lia|].
    pose proof (Nat.mod_upper_bound (i + 1) n1 ltac:(lia)). repeat constructor; lia.
  - apply Forall_forall. intros ix Hx. apply in_map_iff in Hx. destruct Hx as (i & <- & Hi). cbn. lia.
  - now rewrite map_length, seq_length.
Qed.
Lemma flat_map_len {A B} (g : A -> list B) c l : (forall x, In x l -> length (g x) = c) -> length (flat_map g l) = c * length l.
Proof. induction l as [|x l IH]; intros H; cbn [flat_map length]; [lia|]. rewrite app_length, (H x), IH by (try (now left); intros; apply H; now right). lia. Qed.
Lemma cells2_good p n1 n2 : 1 <= n1 -> 1 <= n2 -> length (p_modes p) = n1 * n2 ->
  good_cells p (cells2 n1 n2) /\ Forall (fun ix => length ix <= 3) (cells2 n1 n2) /\ length (cells2 n1 n2) = 2 * (n1 * n2).
Proof.
  intros H1 H2 L.
  assert (A : Forall (fun ix => length ix = 3 /\ Forall (fun i => i < length (p_modes p)) ix) (cells2 n1 n2)).
  { unfold cells2. apply Forall_flat_map, Forall_forall. intros i Hi. apply in_seq in Hi. apply Forall_flat_map, Forall_forall. intros j Hj. apply in_seq in Hj.
    pose proof (Nat.mod_upper_bound (i + 1) n1 ltac:(lia)). pose proof (Nat.mod_upper_bound (j + 1) n2 ltac:(lia)).
    repeat (apply Forall_cons || apply Forall_nil); (split; [reflexivity|]); rewrite L; repeat (apply Forall_cons || apply Forall_nil); nia. }
  split; [|split].
  - unfold good_cells. eapply Forall_impl; [|exact A]. cbn. intros ix (E & F). split; [lia|exact F].
  - eapply Forall_impl; [|exact A]. cbn. intros ix (E & F). lia.
  - unfold cells2. rewrite (flat_map_len _ (2 * n2)); [rewrite seq_length; nia|]. intros i _. rewrite (flat_map_len _ 2); [now rewrite seq_length|]. reflexivity.
Qed.
Lemma cells3_good p n1 n2 n3 : 1 <= n1 -> 1 <= n2 -> 1 <= n3 -> length (p_modes p) = n1 * n2 * n3 ->
  good_cells p (cells3 n1 n2 n3) /\ length (cells3 n1 n2 n3) = 6 * (n1 * n2 * n3).
Proof.
  intros H1 H2 H3 L.
  assert (A : Forall (fun ix => length ix = 4 /\ Forall (fun i => i < length (p_modes p)) ix) (cells3 n1 n2 n3)).
  { unfold cells3. apply Forall_flat_map, Forall_forall. intros i Hi. apply in_seq in Hi. apply Forall_flat_map, Forall_forall. intros j Hj. apply in_seq in Hj.
    apply Forall_flat_map, Forall_forall. intros k Hk. apply in_seq in Hk.
    pose proof (Nat.mod_upper_bound (i + 1) n1 ltac:(lia)). pose proof (Nat.mod_upper_bound (j + 1) n2 ltac:(lia)). pose proof (Nat.mod_upper_bound (k + 1) n3 ltac:(lia)).
    assert (B : forall a b c, a < n1 -> b < n2 -> c < n3 -> a * n2 * n3 + b * n3 + c < length (p_modes p)).
    { intros a b c Ha Hb Hc. rewrite L. assert (a * n2 + b < n1 * n2) by nia. nia. }
    repeat (apply Forall_cons || apply Forall_nil); (split; [reflexivity|]); repeat (apply Forall_cons || apply Forall_nil); apply B; lia. }
  split.
  - unfold good_cells. eapply Forall_impl; [|exact A]. cbn. intros ix (E & F). split; [lia|exact F].
  - unfold cells3. rewrite (flat_map_len _ (6 * n3 * n2)); [rewrite seq_length; nia|]. intros i _. rewrite (flat_map_len _ (6 * n3)); [rewrite seq_length; nia|].
    intros j _. rewrite (flat_map_len _ 6); [now rewrite seq_length|]. reflexivity.
Qed.

(** ** the simplex volume *)
Lemma ind_pbc_eq p1 p2 p3 : ind_pbc [p1; p2; p3] = ind_of (negb (p1 =? 0)%Z) (negb (p2 =? 0)%Z) (negb (p3 =? 0)%Z).
Proof. unfold ind_pbc. cbn [length seq combine filter snd]. destruct (p1 =? 0)%Z, (p2 =? 0)%Z, (p3 =? 0)%Z; reflexivity. Qed.
Lemma mesh_at p p1 p2 p3 n1 n2 n3 o1 o2 o3 i j k x : mesh p p1 p2 p3 n1 n2 n3 o1 o2 o3 -> i < n1 -> j < n2 -> k < n3 -> x = (i * n2 + j) * n3 + k ->
  py_nth (p_k p) x = Ok (V3 (axis p1 n1 o1 i) (axis p2 n2 o2 j) (axis p3 n3 o3 k)).
Proof. intros (_ & _ & _ & _ & _ & _ & M) Hi Hj Hk ->. unfold py_nth. rewrite (M i j k Hi Hj Hk). reflexivity. Qed.
Lemma count_ok p a n : py_nth (p_auto p) a = Ok (Z.of_nat n) -> 1 <= n -> count p a = Ok n.
Proof. intros H L. unfold count. rewrite H. cbn [bind]. destruct (Z.leb_spec (Z.of_nat n) 0); [lia|]. now rewrite Nat2Z.id. Qed.
Lemma inr_pos n : 1 <= n -> (0 < INR n)%R.
Proof. intros H. apply lt_0_INR. lia. Qed.
Lemma axis_p p n o i : p <> 0%Z -> axis p n o i = ((INR i + o) / INR n)%R.
Proof. intros H. unfold axis. destruct (Z.eqb_spec p 0); [contradiction|reflexivity]. Qed.
Lemma axis_0 n o i : axis 0 n o i = 0%R. Proof. reflexivity. Qed.
Lemma vsubR (a b c d e f : R) : vsub (V3 a b c) (V3 d e f) = V3 (a - d)%R (b - e)%R (c - f)%R. Proof. reflexivity. Qed.
Lemma vdotR (a b c d e f : R) : vdot (V3 a b c) (V3 d e f) = (a * d + b * e + c * f)%R. Proof. reflexivity. Qed.
Lemma vcrossR (a b c d e f : R) : vcross (V3 a b c) (V3 d e f) = V3 (b * f - c * e)%R (c * d - a * f)%R (a * e - b * d)%R. Proof. reflexivity. Qed.
Lemma sqrt_sq x y : (0 <= y)%R -> (x = y * y)%R -> sqrt x = y.
Proof. intros H ->. apply sqrt_square. exact H. Qed.
Lemma step1 (n : nat) (o : R) : 1 <= n -> ((INR 1 + o) / INR n - (INR 0 + o) / INR n = / INR n)%R.
Proof. intros H. pose proof (inr_pos n H). cbn [INR]. field. lra. Qed.

Definition periodic_count (p1 p2 p3 : Z) : nat := length (ind_of (negb (p1 =? 0)%Z) (negb (p2 =? 0)%Z) (negb (p3 =? 0)%Z)).
(** the simplices of the mesh *)
Definition simplices (p1 p2 p3 : Z) (n1 n2 n3 : nat) : list (list nat) :=
  match periodic_count p1 p2 p3 with 1 => cells1 (n1 * n2 * n3) | 2 => if (p1 =? 0)%Z then cells2 n2 n3 else if (p2 =? 0)%Z then cells2 n1 n3 else cells2 n1 n2 | _ => cells3 n1 n2 n3 end.

Lemma setup1_ok p p1 p2 p3 n1 n2 n3 o1 o2 o3 : mesh p p1 p2 p3 n1 n2 n3 o1 o2 o3 -> periodic_count p1 p2 p3 = 1 ->
  resolved p1 n1 -> resolved p2 n2 -> resolved p3 n3 ->
  exists a, ind_pbc (p_pbc p) = [a] /\ setup1 p a = Ok (/ INR (n1 * n2 * n3), cells1 (n1 * n2 * n3))%R.
Proof.
  intros M C R1 R2 R3. pose proof M as (HP & HA & Z1 & Z2 & Z3 & _). rewrite HP, ind_pbc_eq. unfold periodic_count in C.
  destruct (Z.eqb_spec p1 0) as [E1|E1], (Z.eqb_spec p2 0) as [E2|E2], (Z.eqb_spec p3 0) as [E3|E3]; cbn in C; try lia; cbn [negb ind_of app].
  all: try (specialize (Z1 E1)); try (specialize (Z2 E2)); try (specialize (Z3 E3)); try (specialize (R1 E1)); try (specialize (R2 E2)); try (specialize (R3 E3)).
  - exists 2. split; [reflexivity|]. unfold setup1. rewrite (count_ok p 2 n3) by (rewrite ?HA; try reflexivity; lia). cbn [bind].
    rewrite Nat.mod_small by lia.
    rewrite (mesh_at _ _ _ _ _ _ _ _ _ _ 0 0 1 _ M), (mesh_at _ _ _ _ _ _ _ _ _ _ 0 0 0 _ M) by lia. cbn [bind]. rewrite vsubR, vdotR.
    subst p1 p2 n1 n2. rewrite !Nat.mul_1_l, !axis_0, !axis_p, step1 by (assumption || lia). f_equal. f_equal.
    pose proof (inr_pos n3 ltac:(lia)). apply sqrt_sq; [left; apply Rinv_0_lt_compat; assumption|ring].
  - exists 1. split; [reflexivity|]. unfold setup1. rewrite (count_ok p 1 n2) by (rewrite ?HA; try reflexivity; lia). cbn [bind].
    rewrite Nat.mod_small by lia.
    rewrite (mesh_at _ _ _ _ _ _ _ _ _ _ 0 1 0 _ M), (mesh_at _ _ _ _ _ _ _ _ _ _ 0 0 0 _ M) by lia. cbn [bind]. rewrite vsubR, vdotR.
    subst p1 p3 n1 n3. rewrite !Nat.mul_1_l, !Nat.mul_1_r, !axis_0, !axis_p, step1 by (assumption || lia). f_equal. f_equal.
    pose proof (inr_pos n2 ltac:(lia)). apply sqrt_sq; [left; apply Rinv_0_lt_compat; assumption|ring].
  - exists 0. split; [reflexivity|]. unfold setup1. rewrite (count_ok p 0 n1) by (rewrite ?HA; try reflexivity; lia). cbn [bind].
    rewrite Nat.mod_small by lia.
    rewrite (mesh_at _ _ _ _ _ _ _ _ _ _ 1 0 0 _ M), (mesh_at _ _ _ _ _ _ _ _ _ _ 0 0 0 _ M) by lia. cbn [bind]. rewrite vsubR, vdotR.
    subst p2 p3 n2 n3. rewrite !Nat.mul_1_r, !axis_0, !axis_p, step1 by (assumption || lia). f_equal. f_equal.
    pose proof (inr_pos n1 ltac:(lia)). apply sqrt_sq; [left; apply Rinv_0_lt_compat; assumption|ring].
Qed.
Lemma area_eq x y (s : R) : (0 < x)%R -> (0 < y)%R -> (s = / x * / y \/ s = - (/ x * / y))%R -> (1 / 2 * Rabs s = / (2 * (x * y)))%R.
Proof.
  intros Hx Hy H. assert (P : (0 < / x * / y)%R) by (apply Rmult_lt_0_compat; apply Rinv_0_lt_compat; assumption).
  assert (E : Rabs s = (/ x * / y)%R) by (destruct H as [->| ->]; [|rewrite Rabs_Ropp]; apply Rabs_pos_eq; lra).
  rewrite E. field. lra.
Qed.
Lemma setup2_ok p p1 p2 p3 n1 n2 n3 o1 o2 o3 : mesh p p1 p2 p3 n1 n2 n3 o1 o2 o3 -> periodic_count p1 p2 p3 = 2 ->
  resolved p1 n1 -> resolved p2 n2 -> resolved p3 n3 ->
  exists a b, ind_pbc (p_pbc p) = [a; b] /\ setup2 p a b = Ok (/ INR (2 * (n1 * n2 * n3)), simplices p1 p2 p3 n1 n2 n3)%R.
Proof.
  intros M C R1 R2 R3. pose proof M as (HP & HA & Z1 & Z2 & Z3 & _). unfold simplices. rewrite C. rewrite HP, ind_pbc_eq. unfold periodic_count in C.
  destruct (Z.eqb_spec p1 0) as [E1|E1], (Z.eqb_spec p2 0) as [E2|E2], (Z.eqb_spec p3 0) as [E3|E3]; cbn in C; try lia; cbn [negb ind_of app].
  all: try (specialize (Z1 E1)); try (specialize (Z2 E2)); try (specialize (Z3 E3)); try (specialize (R1 E1)); try (specialize (R2 E2)); try (specialize (R3 E3)).
  - exists 1, 2. split; [reflexivity|]. unfold setup2. rewrite (count_ok p 1 n2), (count_ok p 2 n3) by (rewrite ?HA; try reflexivity; lia). cbn [bind].
    rewrite Nat.mod_small by lia.
    rewrite (mesh_at _ _ _ _ _ _ _ _ _ _ 0 0 1 _ M), (mesh_at _ _ _ _ _ _ _ _ _ _ 0 0 0 _ M), (mesh_at _ _ _ _ _ _ _ _ _ _ 0 1 0 _ M) by lia. cbn [bind Nat.eqb orb]. rewrite !vsubR, vcrossR, vdotR.
    subst p1 n1. rewrite !Nat.mul_1_l, !axis_0, !axis_p, !step1 by (assumption || lia). f_equal. f_equal.
    rewrite mult_INR, mult_INR. apply area_eq; [apply inr_pos; lia|apply inr_pos; lia|]. rewrite Rmult_comm with (r1 := (/ INR n2)%R). right. ring.
  - exists 0, 2. split; [reflexivity|]. unfold setup2. rewrite (count_ok p 0 n1), (count_ok p 2 n3) by (rewrite ?HA; try reflexivity; lia). cbn [bind].
    rewrite Nat.mod_small by lia.
    rewrite (mesh_at _ _ _ _ _ _ _ _ _ _ 0 0 1 _ M), (mesh_at _ _ _ _ _ _ _ _ _ _ 0 0 0 _ M), (mesh_at _ _ _ _ _ _ _ _ _ _ 1 0 0 _ M) by lia. cbn [bind Nat.eqb orb]. rewrite !vsubR, vcrossR, vdotR.
    subst p2 n2. rewrite !Nat.mul_1_r, !axis_0, !axis_p, !step1 by (assumption || lia). f_equal. f_equal.
    rewrite mult_INR, mult_INR. apply area_eq; [apply inr_pos; lia|apply inr_pos; lia|]. left. ring.
  - exists 0, 1. split; [reflexivity|]. unfold setup2. rewrite (count_ok p 0 n1), (count_ok p 1 n2) by (rewrite ?HA; try reflexivity; lia). cbn [bind].
    rewrite Nat.mod_small by lia.
    rewrite (mesh_at _ _ _ _ _ _ _ _ _ _ 0 1 0 _ M), (mesh_at _ _ _ _ _ _ _ _ _ _ 0 0 0 _ M), (mesh_at _ _ _ _ _ _ _ _ _ _ 1 0 0 _ M) by lia. cbn [bind Nat.eqb orb]. rewrite !vsubR, vcrossR, vdotR.
    subst p3 n3. rewrite !Nat.mul_1_r, !axis_0, !axis_p, !step1 by (assumption || lia). f_equal. f_equal.
    rewrite mult_INR, mult_INR. apply area_eq; [apply inr_pos; lia|apply inr_pos; lia|]. right. ring.
Qed.
Lemma setup3_ok p p1 p2 p3 n1 n2 n3 o1 o2 o3 : mesh p p1 p2 p3 n1 n2 n3 o1 o2 o3 -> periodic_count p1 p2 p3 = 3 ->
  resolved p1 n1 -> resolved p2 n2 -> resolved p3 n3 ->
  exists a b c, ind_pbc (p_pbc p) = [a; b; c] /\ setup3 p a b c = Ok (INR (n2 / n3) / INR (6 * (n1 * n2 * n3)), cells3 n1 n2 n3)%R.
Proof.
  intros M C R1 R2 R3. pose proof M as (HP & HA & Z1 & Z2 & Z3 & _). rewrite HP, ind_pbc_eq. unfold periodic_count in C.
  destruct (Z.eqb_spec p1 0) as [E1|E1], (Z.eqb_spec p2 0) as [E2|E2], (Z.eqb_spec p3 0) as [E3|E3]; cbn in C; try lia; cbn [negb ind_of app].
  specialize (R1 E1). specialize (R2 E2). specialize (R3 E3).
  exists 0, 1, 2. split; [reflexivity|]. unfold setup3. rewrite (count_ok p 0 n1), (count_ok p 1 n2), (count_ok p 2 n3) by (rewrite ?HA; try reflexivity; lia). cbn [bind].
  rewrite Nat.mod_small by lia.
  assert (D : n2 = n3 * (n2 / n3) + n2 mod n3) by (apply Nat.div_mod; lia).
  assert (DL : n2 / n3 < n2) by (apply Nat.div_lt; lia).
  pose proof (Nat.mod_upper_bound n2 n3 ltac:(lia)) as ML.
  set (q := n2 / n3) in *. set (r := n2 mod n3) in *.
  rewrite (mesh_at _ _ _ _ _ _ _ _ _ _ 0 0 1 _ M), (mesh_at _ _ _ _ _ _ _ _ _ _ 0 0 0 _ M) by lia. cbn [bind].
  rewrite (mesh_at _ _ _ _ _ _ _ _ _ _ 0 q r _ M), (mesh_at _ _ _ _ _ _ _ _ _ _ 1 0 0 _ M) by (try assumption; lia || nia). cbn [bind]. rewrite !vsubR, vcrossR, vdotR.
  rewrite !axis_p, !step1 by (assumption || lia). f_equal. f_equal.
  pose proof (inr_pos n1 ltac:(lia)). pose proof (inr_pos n2 ltac:(lia)). pose proof (inr_pos n3 ltac:(lia)). pose proof (pos_INR q).
  match goal with |- (1 / 6 * Rabs ?s)%R = _ => assert (E : (s = - (INR q / (INR n1 * INR n2 * INR n3)))%R) by (cbn [INR]; field; lra); rewrite E end.
  rewrite Rabs_Ropp, Rabs_pos_eq.
  - rewrite !mult_INR. replace (INR 6) with 6%R by (cbn; ring). field. lra.
  - apply div_nonneg; [assumption|]. repeat apply Rmult_lt_0_compat; assumption.
Qed.

(** * C47: the number of states *)
(** number of (band, simplex) pairs whose corner frequencies all coincide *)
Definition flat_count (p : proc) (cells : list (list nat)) : nat :=
  length (filter (fun x => flatb (corners p x)) (list_prod (seq 0 (p_n p)) cells)).
Lemma flat_dispersive p cells : flat_count p cells + length (dispersive p cells) = p_n p * length cells.
Proof.
  unfold flat_count, dispersive, pairs. rewrite <- (seq_length (p_n p) 0) at 3. rewrite <- prod_length.
  generalize (list_prod (seq 0 (p_n p)) cells). intros l. induction l as [|x l IH]; [reflexivity|]. cbn [filter length].
  destruct (flatb (corners p x)); cbn [negb length]; lia.
Qed.
Lemma states_eq p cells (c : nat) : length cells = c -> 1 <= c ->
  (/ INR c * INR (length (dispersive p cells)) = INR (p_n p) - INR (flat_count p cells) / INR c)%R.
Proof.
  intros L H. pose proof (flat_dispersive p cells) as E. rewrite L in E. apply (f_equal INR) in E. rewrite plus_INR, mult_INR in E.
  pose proof (inr_pos c H). replace (INR (length (dispersive p cells))) with (INR (p_n p) * INR c - INR (flat_count p cells))%R by lra. field. lra.
Qed.

(** One and two periodic directions: the total DOS is finite and non-negative everywhere, and
    integrates to the number of degrees of freedom, less the share of the flat simplices. *)
Theorem linear_dos_states : forall p p1 p2 p3 n1 n2 n3 o1 o2 o3,
  mesh p p1 p2 p3 n1 n2 n3 o1 o2 o3 -> well_formed p -> normalised p ->
  1 <= periodic_count p1 p2 p3 <= 2 -> resolved p1 n1 -> resolved p2 n2 -> resolved p3 n3 ->
  exists T, total_dos_is p T true /\ (forall f, (0 <= T f)%R) /\
    forall a b, within a b p ->
      is_RInt T a b (INR (p_n p) - INR (flat_count p (simplices p1 p2 p3 n1 n2 n3)) / INR (length (simplices p1 p2 p3 n1 n2 n3)))%R.
Proof.
  intros p p1 p2 p3 n1 n2 n3 o1 o2 o3 M W N C R1 R2 R3.
  assert (LM : length (p_modes p) = n1 * n2 * n3) by (destruct W as [-> _]; apply M).
  assert (P1 : 1 <= n1) by (destruct (Z.eq_dec p1 0) as [E|E]; [apply M in E|specialize (R1 E)]; lia).
  assert (P2 : 1 <= n2) by (destruct (Z.eq_dec p2 0) as [E|E]; [apply M in E|specialize (R2 E)]; lia).
  assert (P3 : 1 <= n3) by (destruct (Z.eq_dec p3 0) as [E|E]; [apply M in E|specialize (R3 E)]; lia).
  assert (PP : 1 <= n1 * n2 * n3) by nia.
  destruct (Nat.eq_dec (periodic_count p1 p2 p3) 1) as [C1|C1].
  - destruct (setup1_ok _ _ _ _ _ _ _ _ _ _ M C1 R1 R2 R3) as (a & Ea & Es).
    destruct (cells1_good p (n1 * n2 * n3) PP LM) as (G & G3 & LC).
    unfold simplices. rewrite C1. exists (total_at p (/ INR (n1 * n2 * n3)) (cells1 (n1 * n2 * n3))). split; [|split].
    + apply linear_total; try assumption; [intros _; exact G3|]. intros d F. unfold dos_set.
      destruct (Req_EM_T (d_sigma d) 0) as [_|X]; [|destruct F; contradiction]. rewrite Ea, Es. reflexivity.
    + intros f. apply total_nonneg. left. apply Rinv_0_lt_compat, inr_pos. exact PP.
    + intros x y B. rewrite LC, <- states_eq by assumption. apply total_integral; assumption.
  - assert (C2 : periodic_count p1 p2 p3 = 2) by lia.
    destruct (setup2_ok _ _ _ _ _ _ _ _ _ _ M C2 R1 R2 R3) as (a & b & Ea & Es).
    assert (GC : good_cells p (simplices p1 p2 p3 n1 n2 n3) /\ Forall (fun ix => length ix <= 3) (simplices p1 p2 p3 n1 n2 n3) /\
                 length (simplices p1 p2 p3 n1 n2 n3) = 2 * (n1 * n2 * n3)).
    { unfold simplices. rewrite C2. destruct M as (_ & _ & Z1 & Z2 & Z3 & _). unfold periodic_count in C2.
      destruct (Z.eqb_spec p1 0) as [E1|E1]; [|destruct (Z.eqb_spec p2 0) as [E2|E2]].
      - rewrite (Z1 E1) in *. rewrite Nat.mul_1_l in *. apply cells2_good; assumption.
      - rewrite (Z2 E2) in *. rewrite Nat.mul_1_r in *. apply cells2_good; assumption.
      - destruct (Z.eqb_spec p3 0) as [E3|E3]; [|cbn in C2; lia]. rewrite (Z3 E3) in *. rewrite Nat.mul_1_r in *. apply cells2_good; assumption. }
    destruct GC as (G & G3 & LC).
    exists (total_at p (/ INR (2 * (n1 * n2 * n3))) (simplices p1 p2 p3 n1 n2 n3)). split; [|split].
    + apply linear_total; try assumption; [intros _; exact G3|]. intros d F. unfold dos_set.
      destruct (Req_EM_T (d_sigma d) 0) as [_|X]; [|destruct F; contradiction]. rewrite Ea, Es. reflexivity.
    + intros f. apply total_nonneg. left. apply Rinv_0_lt_compat, inr_pos. lia.
    + intros x y B. rewrite LC, <- states_eq by (assumption || lia). apply total_integral; assumption.
Qed.
Print Assumptions linear_dos_states.

(** Three periodic directions: the same times floor(n2 / n3). *)
Theorem tetrahedron_dos_states : forall p p1 p2 p3 n1 n2 n3 o1 o2 o3,
  mesh p p1 p2 p3 n1 n2 n3 o1 o2 o3 -> well_formed p -> normalised p ->
  periodic_count p1 p2 p3 = 3 -> 2 <= n1 -> 2 <= n2 -> 2 <= n3 ->
  exists T, total_dos_is p T false /\ (forall f, (0 <= T f)%R) /\
    forall a b, within a b p ->
      is_RInt T a b (INR (n2 / n3) * (INR (p_n p) - INR (flat_count p (cells3 n1 n2 n3)) / INR (length (cells3 n1 n2 n3))))%R.
Proof.
  intros p p1 p2 p3 n1 n2 n3 o1 o2 o3 M W N C R1 R2 R3.
  assert (LM : length (p_modes p) = n1 * n2 * n3) by (destruct W as [-> _]; apply M).
  destruct (setup3_ok _ _ _ _ _ _ _ _ _ _ M C) as (a & b & c & Ea & Es); try (intros _; assumption).
  destruct (cells3_good p n1 n2 n3 ltac:(lia) ltac:(lia) ltac:(lia) LM) as (G & LC).
  exists (total_at p (INR (n2 / n3) / INR (6 * (n1 * n2 * n3))) (cells3 n1 n2 n3)). split; [|split].
  - apply linear_total; try assumption; [discriminate|]. intros d F. unfold dos_set.
    destruct (Req_EM_T (d_sigma d) 0) as [_|X]; [|destruct F; contradiction]. rewrite Ea, Es. reflexivity.
  - intros f. apply total_nonneg. apply div_nonneg; [apply pos_INR|apply inr_pos; nia].
  - intros x y B. rewrite LC, <- states_eq by (assumption || nia).
    replace (INR (n2 / n3) * (/ INR (6 * (n1 * n2 * n3)) * INR (length (dispersive p (cells3 n1 n2 n3)))))%R
      with (INR (n2 / n3) / INR (6 * (n1 * n2 * n3)) * INR (length (dispersive p (cells3 n1 n2 n3))))%R by (unfold Rdiv; ring).
    apply total_integral; assumption.
Qed.
Print Assumptions tetrahedron_dos_states.

(** Sufficient for "no flat simplex": neighbours along the diagonal of the mesh cell differ. *)
Definition mesh_index (n2 n3 i j k : nat) : nat := (i * n2 + j) * n3 + k.
Definition diagonals_differ (p : proc) (n1 n2 n3 : nat) : Prop :=
  forall b i j k, b < p_n p -> i < n1 -> j < n2 -> k < n3 ->
    freq_at p b (mesh_index n2 n3 i j k) <> freq_at p b (mesh_index n2 n3 ((i + 1) mod n1) ((j + 1) mod n2) ((k + 1) mod n3)).
Lemma flat_zero p cells : (forall b ix, b < p_n p -> In ix cells -> exists i j, In i ix /\ In j ix /\ freq_at p b i <> freq_at p b j) ->
  flat_count p cells = 0.
Proof.
  intros H. unfold flat_count.
  assert (E : filter (fun x => flatb (corners p x)) (list_prod (seq 0 (p_n p)) cells) = []); [|rewrite E; reflexivity].
  assert (K : forall x, In x (list_prod (seq 0 (p_n p)) cells) -> flatb (corners p x) = false).
  { intros [b ix] Hx. apply in_prod_iff in Hx. destruct Hx as [Hb Hx]. apply in_seq in Hb. destruct (flatb (corners p (b, ix))) eqn:E; [|reflexivity].
    exfalso. destruct (H b ix) as (i & j & Hi & Hj & N); [lia|exact Hx|]. apply N. apply (flatb_true _ E); unfold corners; cbn [fst snd]; apply in_map; assumption. }
  revert K. generalize (list_prod (seq 0 (p_n p)) cells). intros l K. induction l as [|x l IH]; [reflexivity|]. cbn [filter]. rewrite (K x) by now left. apply IH. intros; apply K; now right.
Qed.
Lemma mod1 n : (0 + n) mod 1 = 0. Proof. apply Nat.mod_1_r. Qed.
Lemma no_flat1 p n (D : forall b i, b < p_n p -> i < n -> freq_at p b i <> freq_at p b ((i + 1) mod n)) : flat_count p (cells1 n) = 0.
Proof.
  apply flat_zero. intros b ix Hb Hx. unfold cells1 in Hx. apply in_map_iff in Hx. destruct Hx as (i & <- & Hi). apply in_seq in Hi.
  exists i, ((i + 1) mod n). split; [now left|]. split; [right; now left|]. apply D; lia.
Qed.
Lemma no_flat2 p n1 n2 (D : forall b i j, b < p_n p -> i < n1 -> j < n2 -> freq_at p b (i * n2 + j) <> freq_at p b (((i + 1) mod n1) * n2 + (j + 1) mod n2)) : flat_count p (cells2 n1 n2) = 0.
Proof.
  apply flat_zero. intros b ix Hb Hx. unfold cells2 in Hx. apply in_flat_map in Hx. destruct Hx as (i & Hi & Hx). apply in_flat_map in Hx. destruct Hx as (j & Hj & Hx). apply in_seq in Hi, Hj.
  exists (i * n2 + j), (((i + 1) mod n1) * n2 + (j + 1) mod n2). destruct Hx as [<-|[<-|[]]]; (split; [now left|]); (split; [right; right; now left|]); apply D; lia.
Qed.
Lemma no_flat3 p n1 n2 n3 (D : diagonals_differ p n1 n2 n3) : flat_count p (cells3 n1 n2 n3) = 0.
Proof.
  apply flat_zero. intros b ix Hb Hx. unfold cells3 in Hx. apply in_flat_map in Hx. destruct Hx as (i & Hi & Hx). apply in_flat_map in Hx. destruct Hx as (j & Hj & Hx).
  apply in_flat_map in Hx. destruct Hx as (k & Hk & Hx). apply in_seq in Hi, Hj, Hk.
  exists (i * n2 * n3 + j * n3 + k), (((i + 1) mod n1) * n2 * n3 + ((j + 1) mod n2) * n3 + (k + 1) mod n3).
  split; [|split].
  - cbn zeta in Hx. repeat (destruct Hx as [<-|Hx]; [now left|]). destruct Hx.
  - cbn zeta in Hx. repeat (destruct Hx as [<-|Hx]; [right; right; right; now left|]). destruct Hx.
  - specialize (D b i j k Hb ltac:(lia) ltac:(lia) ltac:(lia)). unfold mesh_index in D. rewrite !Nat.mul_add_distr_r in D. exact D.
Qed.
Lemma simplices_no_flat p p1 p2 p3 n1 n2 n3 : 1 <= periodic_count p1 p2 p3 <= 2 -> (p1 = 0%Z -> n1 = 1) -> (p2 = 0%Z -> n2 = 1) -> (p3 = 0%Z -> n3 = 1) ->
  diagonals_differ p n1 n2 n3 -> flat_count p (simplices p1 p2 p3 n1 n2 n3) = 0.
Proof.
  intros C Z1 Z2 Z3 D. unfold simplices. unfold diagonals_differ, mesh_index in D. unfold periodic_count in *.
  destruct (Z.eqb_spec p1 0) as [E1|E1], (Z.eqb_spec p2 0) as [E2|E2], (Z.eqb_spec p3 0) as [E3|E3]; cbn in C; try lia; cbn [negb ind_of app length].
  all: try (rewrite (Z1 E1) in * ); try (rewrite (Z2 E2) in * ); try (rewrite (Z3 E3) in * ); rewrite ?Nat.mul_1_l, ?Nat.mul_1_r.
  - apply no_flat1. intros b i Hb Hi. specialize (D b 0 0 i Hb ltac:(lia) ltac:(lia) Hi). cbn in D. exact D.
  - apply no_flat1. intros b i Hb Hi. specialize (D b 0 i 0 Hb ltac:(lia) Hi ltac:(lia)). rewrite !mod1, !Nat.mul_1_r, !Nat.add_0_r in D. exact D.
  - apply no_flat2. intros b i j Hb Hi Hj. specialize (D b 0 i j Hb ltac:(lia) Hi Hj). rewrite !mod1 in D. exact D.
  - apply no_flat1. intros b i Hb Hi. specialize (D b i 0 0 Hb Hi ltac:(lia) ltac:(lia)). rewrite !mod1, !Nat.mul_1_r, !Nat.add_0_r in D. exact D.
  - apply no_flat2. intros b i j Hb Hi Hj. specialize (D b i 0 j Hb Hi ltac:(lia) Hj). rewrite !mod1, !Nat.mul_1_r, !Nat.add_0_r in D. exact D.
  - apply no_flat2. intros b i j Hb Hi Hj. specialize (D b i j 0 Hb Hi Hj ltac:(lia)). rewrite !mod1, !Nat.mul_1_r, !Nat.add_0_r in D. exact D.
Qed.

(** Every state is counted once. *)
Theorem states_conserved : forall p p1 p2 p3 n1 n2 n3 o1 o2 o3,
  mesh p p1 p2 p3 n1 n2 n3 o1 o2 o3 -> well_formed p -> normalised p ->
  1 <= periodic_count p1 p2 p3 -> resolved p1 n1 -> resolved p2 n2 -> resolved p3 n3 ->
  (periodic_count p1 p2 p3 = 3 -> n3 <= n2 < 2 * n3) ->
  diagonals_differ p n1 n2 n3 ->
  exists T, total_dos_is p T false /\ (forall f, (0 <= T f)%R) /\
    forall a b, within a b p -> is_RInt T a b (INR (p_n p)).
Proof.
  intros p p1 p2 p3 n1 n2 n3 o1 o2 o3 M W N C R1 R2 R3 Q D.
  destruct (Nat.eq_dec (periodic_count p1 p2 p3) 3) as [C3|C3].
  - specialize (Q C3). assert (PZ : p1 <> 0%Z /\ p2 <> 0%Z /\ p3 <> 0%Z).
    { unfold periodic_count in C3. destruct (Z.eqb_spec p1 0), (Z.eqb_spec p2 0), (Z.eqb_spec p3 0); cbn in C3; lia. }
    destruct PZ as (X1 & X2 & X3).
    destruct (tetrahedron_dos_states _ _ _ _ _ _ _ _ _ _ M W N C3 (R1 X1) (R2 X2) (R3 X3)) as (T & A & B & I0). exists T. split; [exact A|]. split; [exact B|].
    intros a b H. specialize (I0 a b H). rewrite (no_flat3 p n1 n2 n3 D) in I0.
    assert (E : n2 / n3 = 1) by (symmetry; apply (Nat.div_unique n2 n3 1 (n2 - n3)); lia). rewrite E in I0.
    replace (INR 1 * (INR (p_n p) - INR 0 / INR (length (cells3 n1 n2 n3))))%R with (INR (p_n p)) in I0 by (cbn [INR]; unfold Rdiv; ring). exact I0.
  - assert (C12 : 1 <= periodic_count p1 p2 p3 <= 2).
    { split; [exact C|]. clear -C3. unfold periodic_count in *. destruct (Z.eqb_spec p1 0), (Z.eqb_spec p2 0), (Z.eqb_spec p3 0); cbn in *; lia. }
    destruct (linear_dos_states _ _ _ _ _ _ _ _ _ _ M W N C12 R1 R2 R3) as (T & A & B & I0). exists T. split.
    { intros d F. destruct (A d F) as (d' & E1 & E2 & E3 & E4). exists d'. repeat split; try assumption. intros i Hi _. apply E4; [exact Hi|now left]. }
    split; [exact B|]. intros a b H. specialize (I0 a b H).
    rewrite (simplices_no_flat p) in I0; try (apply M); try assumption.
    match type of I0 with is_RInt _ _ _ ?v => replace v with (INR (p_n p)) in I0 by (cbn [INR]; unfold Rdiv; ring) end. exact I0.
Qed.
Print Assumptions states_conserved.

(** ... but a three-dimensional mesh that is finer along the third than along the second
    direction gives a DOS that vanishes identically. *)
Theorem elongated_mesh_dos_vanishes : forall p p1 p2 p3 n1 n2 n3 o1 o2 o3,
  mesh p p1 p2 p3 n1 n2 n3 o1 o2 o3 -> well_formed p -> normalised p ->
  periodic_count p1 p2 p3 = 3 -> 2 <= n1 -> 2 <= n2 -> n2 < n3 -> total_dos_is p (fun _ => 0%R) false.
Proof.
  intros p p1 p2 p3 n1 n2 n3 o1 o2 o3 M W N C R1 R2 R3.
  assert (LM : length (p_modes p) = n1 * n2 * n3) by (destruct W as [-> _]; apply M).
  destruct (setup3_ok _ _ _ _ _ _ _ _ _ _ M C) as (a & b & c & Ea & Es); try (intros _; assumption || lia).
  destruct (cells3_good p n1 n2 n3 ltac:(lia) ltac:(lia) ltac:(lia) LM) as (G & LC).
  assert (K : total_dos_is p (total_at p (INR (n2 / n3) / INR (6 * (n1 * n2 * n3))) (cells3 n1 n2 n3)) false).
  { apply linear_total; try assumption; [discriminate|]. intros d F. unfold dos_set.
    destruct (Req_EM_T (d_sigma d) 0) as [_|X]; [|destruct F; contradiction]. rewrite Ea, Es. reflexivity. }
  intros d F. destruct (K d F) as (d' & E1 & E2 & E3 & E4). exists d'. repeat split; try assumption. intros i Hi X. rewrite (E4 i Hi X). f_equal.
  unfold total_at. rewrite (Nat.div_small n2 n3) by assumption.
  rewrite (map_ext _ (fun _ => 0%R)) by (intros; cbn [INR]; unfold Rdiv; ring). apply sumR_zero.
Qed.
Print Assumptions elongated_mesh_dos_vanishes.

(** A chain with an odd number of Gamma-centred points and frequencies that respect time
    reversal always has a flat segment: every band loses at least one n-th of its states. *)
Theorem odd_chain_loses_states : forall p n h o2 o3, n = 2 * h + 1 -> 1 <= h ->
  mesh p 1 0 0 n 1 1 0 o2 o3 -> well_formed p -> normalised p -> 1 <= p_n p ->
  (forall b i, b < p_n p -> i <= n -> freq_at p b (i mod n) = freq_at p b ((n - i) mod n)) ->
  exists T, total_dos_is p T true /\
    forall a b, within a b p -> exists s, is_RInt T a b s /\ (s <= INR (p_n p) * (1 - 1 / INR n))%R.
Proof.
  intros p n h o2 o3 En Hh M W N P S.
  destruct (linear_dos_states _ _ _ _ _ _ _ _ _ _ M W N) as (T & A & B & I0); try (intros _; lia); [cbn; lia|intros X; congruence|intros X; congruence|].
  exists T. split; [exact A|]. intros a b H. eexists. split; [apply I0; exact H|].
  unfold simplices, periodic_count. cbn [Z.eqb negb ind_of app length]. rewrite !Nat.mul_1_r.
  assert (LM : length (p_modes p) = n) by (destruct W as [-> _]; replace n with (n * 1 * 1) by lia; apply M).
  destruct (cells1_good p n ltac:(lia) LM) as (_ & _ & LC). rewrite LC.
  assert (F : p_n p <= flat_count p (cells1 n)).
  { unfold flat_count.
    assert (IN : incl (map (fun b => (b, [h; (h + 1) mod n])) (seq 0 (p_n p))) (filter (fun x => flatb (corners p x)) (list_prod (seq 0 (p_n p)) (cells1 n)))).
    { intros x Hx. apply in_map_iff in Hx. destruct Hx as (c & <- & Hc). apply filter_In. split.
      - apply in_prod; [exact Hc|]. unfold cells1. apply in_map_iff. exists h. split; [reflexivity|]. apply in_seq. lia.
      - apply in_seq in Hc. unfold corners, flatb. cbn [fst snd map nth forallb].
        assert (E : freq_at p c ((h + 1) mod n) = freq_at p c h).
        { rewrite (S c (h + 1)) by lia. replace (n - (h + 1)) with h by lia. rewrite Nat.mod_small by lia. reflexivity. }
        rewrite E. destruct (Req_EM_T (freq_at p c h) (freq_at p c h)); [reflexivity|contradiction]. }
    apply NoDup_incl_length in IN; [rewrite map_length, seq_length in IN; exact IN|].
    apply FinFun.Injective_map_NoDup; [|apply seq_NoDup]. intros x y E. congruence. }
  apply le_INR in F. pose proof (inr_pos n ltac:(lia)) as Pn.
  assert (INR (p_n p) / INR n <= INR (flat_count p (cells1 n)) / INR n)%R.
  { apply Rmult_le_compat_r; [left; apply Rinv_0_lt_compat; exact Pn|exact F]. }
  replace (INR (p_n p) * (1 - 1 / INR n))%R with (INR (p_n p) - INR (p_n p) / INR n)%R by (field; lra). lra.
Qed.
Print Assumptions odd_chain_loses_states.

(** ** Automatic grids are meshes *)
Definition toR (v : v3 Qc) : v3 R := V3 (Q2R (vx v)) (Q2R (vy v)) (Q2R (vz v)).
Lemma Q2R_this (q : Q) : Q2R (this (Q2Qc q)) = Q2R q.
Proof. apply Qeq_eqR. apply Qred_correct. Qed.
Lemma coordinate_axis p n s off i : 1 <= n -> Q2R (coordinate p n s off i) = axis p n (Q2R s + Q2R off) i.
Proof.
  intros Hn. unfold coordinate, axis. destruct (p =? 0)%Z; [unfold Q2R; cbn; lra|].
  assert (NZ : ~ (inject_Z (Z.of_nat n) == 0)%Q) by (unfold Qeq, inject_Z; cbn; lia).
  unfold Qcdiv, Qcplus, Qcmult, Qcinv. rewrite !Q2R_this, Q2R_mult, !Q2R_this, Q2R_inv by (rewrite (Qred_correct (inject_Z (Z.of_nat n))); exact NZ).
  rewrite !Q2R_this, !Q2R_plus, !Q2R_this, !Q2R_plus, !Q2R_this.
  assert (Z2 : forall k, Q2R (inject_Z (Z.of_nat k)) = INR k) by (intros k; unfold Q2R, inject_Z; cbn [Qnum Qden]; rewrite INR_IZR_INZ; field).
  rewrite !Z2. unfold Rdiv. ring.
Qed.
Theorem automatic_grid_is_mesh : forall p ks off p1 p2 p3 n1 n2 n3 s1 s2 s3,
  is_grid off p1 p2 p3 n1 n2 n3 s1 s2 s3 ks -> consistent p1 n1 -> consistent p2 n2 -> consistent p3 n3 ->
  p_k p = map toR ks -> p_pbc p = [p1; p2; p3] -> p_auto p = [Z.of_nat n1; Z.of_nat n2; Z.of_nat n3] ->
  mesh p p1 p2 p3 n1 n2 n3 (Q2R s1 + Q2R off) (Q2R s2 + Q2R off) (Q2R s3 + Q2R off).
Proof.
  intros p ks off p1 p2 p3 n1 n2 n3 s1 s2 s3 (L & G) C1 C2 C3 K P A. unfold mesh. repeat (split; [assumption|]). split; [rewrite K, map_length; exact L|].
  intros i j k Hi Hj Hk. rewrite K, nth_error_map, (G i j k Hi Hj Hk). cbn [option_map]. unfold toR. cbn [vx vy vz]. rewrite !coordinate_axis by lia. reflexivity.
Qed.
Print Assumptions automatic_grid_is_mesh.

(** ** The simplices tile the mesh cell *)
(** The corners of one simplex, as offsets from the grid point, visited in order. *)
Definition point3 : Type := (R * R * R).
Definition bit (b : bool) : R := if b then 1%R else 0%R.
Definition paths3 : list (list (bool * bool * bool)) :=
  let c a b d := ((a, b), d) in
  [ [c false false false; c false false true; c true false true; c true true true];
    [c false false false; c false false true; c false true true; c true true true];
    [c false false false; c false true false; c false true true; c true true true];
    [c false false false; c true false false; c true false true; c true true true];
    [c false false false; c true false false; c true true false; c true true true];
    [c false false false; c false true false; c true true false; c true true true] ].
Definition corner_index (n1 n2 n3 i j k : nat) (c : bool * bool * bool) : nat :=
  let up (b : bool) x n := if b then (x + 1) mod n else x in
  mesh_index n2 n3 (up (fst (fst c)) i n1) (up (snd (fst c)) j n2) (up (snd c) k n3).
(** the point is a convex combination of the corners *)
Fixpoint combination (l : list R) (c : list (bool * bool * bool)) : point3 :=
  match l, c with
  | x :: l', ((a, b), d) :: c' => let '(u, v, w) := combination l' c' in (x * bit a + u, x * bit b + v, x * bit d + w)%R
  | _, _ => (0, 0, 0)%R
  end.
Definition inside (q : point3) (c : list (bool * bool * bool)) : Prop :=
  exists l, length l = length c /\ Forall (fun x => 0 <= x)%R l /\ sumR l = 1%R /\ combination l c = q.
Lemma cells3_paths n1 n2 n3 : cells3 n1 n2 n3 =
  flat_map (fun i => flat_map (fun j => flat_map (fun k => map (map (corner_index n1 n2 n3 i j k)) paths3) (seq 0 n3)) (seq 0 n2)) (seq 0 n1).
Proof.
  unfold cells3. apply flat_map_ext. intros i. apply flat_map_ext. intros j. apply flat_map_ext. intros k.
  unfold paths3, corner_index, mesh_index. cbn [map fst snd]. rewrite !Nat.mul_add_distr_r. reflexivity.
Qed.
Theorem tetrahedra_tile_the_cell :
  (forall n1 n2 n3, cells3 n1 n2 n3 =
     flat_map (fun i => flat_map (fun j => flat_map (fun k => map (map (corner_index n1 n2 n3 i j k)) paths3) (seq 0 n3)) (seq 0 n2)) (seq 0 n1)) /\
  length paths3 = 6 /\
  (forall x y z, (0 <= x <= 1 /\ 0 <= y <= 1 /\ 0 <= z <= 1)%R -> exists c, In c paths3 /\ inside (x, y, z) c) /\
  (** a point with three different coordinates is inside one tetrahedron only *)
  (forall x y z c c', x <> y -> y <> z -> x <> z -> In c paths3 -> In c' paths3 -> inside (x, y, z) c -> inside (x, y, z) c' -> c = c').
Proof.
  split; [exact cells3_paths|]. split; [reflexivity|]. split.
  - intros x y z H.
    assert (K : forall c l, In c paths3 -> length l = length c -> Forall (fun x => 0 <= x)%R l -> sumR l = 1%R -> combination l c = (x, y, z) -> exists c, In c paths3 /\ inside (x, y, z) c).
    { intros c l A B C D E. exists c. split; [exact A|]. exists l. repeat split; assumption. }
    assert (IN : forall n, n < 6 -> In (nth n paths3 []) paths3) by (intros n L; apply nth_In; exact L).
    destruct (Rle_dec x y) as [XY|XY], (Rle_dec y z) as [YZ|YZ], (Rle_dec x z) as [XZ|XZ]; try lra.
    + apply (K (nth 1 paths3 []) [1 - z; z - y; y - x; x]%R (IN 1 ltac:(lia)));
        [reflexivity|repeat (apply Forall_cons || apply Forall_nil); lra|cbn [sumR]; ring|cbn; f_equal; [f_equal|]; ring].
    + apply (K (nth 2 paths3 []) [1 - y; y - z; z - x; x]%R (IN 2 ltac:(lia)));
        [reflexivity|repeat (apply Forall_cons || apply Forall_nil); lra|cbn [sumR]; ring|cbn; f_equal; [f_equal|]; ring].
    + apply (K (nth 5 paths3 []) [1 - y; y - x; x - z; z]%R (IN 5 ltac:(lia)));
        [reflexivity|repeat (apply Forall_cons || apply Forall_nil); lra|cbn [sumR]; ring|cbn; f_equal; [f_equal|]; ring].
    + apply (K (nth 0 paths3 []) [1 - z; z - x; x - y; y]%R (IN 0 ltac:(lia)));
        [reflexivity|repeat (apply Forall_cons || apply Forall_nil); lra|cbn [sumR]; ring|cbn; f_equal; [f_equal|]; ring].
    + apply (K (nth 3 paths3 []) [1 - x; x - z; z - y; y]%R (IN 3 ltac:(lia)));
        [reflexivity|repeat (apply Forall_cons || apply Forall_nil); lra|cbn [sumR]; ring|cbn; f_equal; [f_equal|]; ring].
    + apply (K (nth 4 paths3 []) [1 - x; x - y; y - z; z]%R (IN 4 ltac:(lia)));
        [reflexivity|repeat (apply Forall_cons || apply Forall_nil); lra|cbn [sumR]; ring|cbn; f_equal; [f_equal|]; ring].
  - intros x y z c c' N1 N2 N3 Hc Hc' (l & L & P & S1 & E) (l' & L' & P' & S1' & E').
    assert (L4 : length l = 4) by (rewrite L; repeat (destruct Hc as [<-|Hc]; [reflexivity|]); destruct Hc).
    assert (L4' : length l' = 4) by (rewrite L'; repeat (destruct Hc' as [<-|Hc']; [reflexivity|]); destruct Hc').
    destruct l as [|a0 [|a1 [|a2 [|a3 [|? ?]]]]]; cbn [length] in L4; try lia. destruct l' as [|b0 [|b1 [|b2 [|b3 [|? ?]]]]]; cbn [length] in L4'; try lia.
    clear L L' L4 L4'.
    assert (Q : (0 <= a0 /\ 0 <= a1 /\ 0 <= a2 /\ 0 <= a3)%R) by (repeat match goal with H : Forall _ (_ :: _) |- _ => inversion H; subst; clear H end; lra).
    assert (Q' : (0 <= b0 /\ 0 <= b1 /\ 0 <= b2 /\ 0 <= b3)%R) by (repeat match goal with H : Forall _ (_ :: _) |- _ => inversion H; subst; clear H end; lra).
    clear P P'. cbn [sumR] in S1, S1'.
    cbn [paths3 In] in Hc, Hc'.
    repeat destruct Hc as [<-|Hc]; try destruct Hc; repeat destruct Hc' as [<-|Hc']; try destruct Hc'; try reflexivity; exfalso;
      cbn [combination bit] in E, E'; injection E as Ex Ey Ez; injection E' as Ex' Ey' Ez'; lra.
Qed.
Print Assumptions tetrahedra_tile_the_cell.

(** The same for the two-dimensional mesh (two triangles per cell) and the chain (one segment). *)
Definition paths2 : list (list (bool * bool * bool)) :=
  let c a b := (a, b, false) in [ [c false false; c false true; c true true]; [c false false; c true false; c true true] ].
Definition paths1 : list (list (bool * bool * bool)) := [ [(false, false, false); (true, false, false)] ].
Theorem triangles_tile_the_cell :
  (forall n1 n2, cells2 n1 n2 = flat_map (fun i => flat_map (fun j => map (map (corner_index n1 n2 1 i j 0)) paths2) (seq 0 n2)) (seq 0 n1)) /\
  (forall x y, (0 <= x <= 1 /\ 0 <= y <= 1)%R -> exists c, In c paths2 /\ inside (x, y, 0%R) c) /\
  (forall x y c c', x <> y -> In c paths2 -> In c' paths2 -> inside (x, y, 0%R) c -> inside (x, y, 0%R) c' -> c = c') /\
  (forall n, cells1 n = flat_map (fun i => map (map (corner_index n 1 1 i 0 0)) paths1) (seq 0 n)) /\
  (forall x, (0 <= x <= 1)%R -> exists c, In c paths1 /\ inside (x, 0%R, 0%R) c).
Proof.
  split; [|split; [|split; [|split]]].
  - intros n1 n2. unfold cells2. apply flat_map_ext. intros i. apply flat_map_ext. intros j. unfold paths2, corner_index, mesh_index. cbn [map fst snd]. rewrite !Nat.mul_1_r, !Nat.add_0_r. reflexivity.
  - intros x y H. destruct (Rle_dec x y) as [XY|XY].
    + exists (nth 0 paths2 []). split; [now left|]. exists [1 - y; y - x; x]%R. split; [reflexivity|]. split; [repeat (apply Forall_cons || apply Forall_nil); lra|]. split; [cbn [sumR]; ring|]. cbn. f_equal; [f_equal|]; ring.
    + exists (nth 1 paths2 []). split; [right; now left|]. exists [1 - x; x - y; y]%R. split; [reflexivity|]. split; [repeat (apply Forall_cons || apply Forall_nil); lra|]. split; [cbn [sumR]; ring|]. cbn. f_equal; [f_equal|]; ring.
  - intros x y c c' N Hc Hc' (l & L & P & S1 & E) (l' & L' & P' & S1' & E').
    assert (L4 : length l = 3) by (rewrite L; repeat (destruct Hc as [<-|Hc]; [reflexivity|]); destruct Hc).
    assert (L4' : length l' = 3) by (rewrite L'; repeat (destruct Hc' as [<-|Hc']; [reflexivity|]); destruct Hc').
    destruct l as [|a0 [|a1 [|a2 [|? ?]]]]; cbn [length] in L4; try lia. destruct l' as [|b0 [|b1 [|b2 [|? ?]]]]; cbn [length] in L4'; try lia. clear L L' L4 L4'.
    assert (Q : (0 <= a0 /\ 0 <= a1 /\ 0 <= a2)%R) by (repeat match goal with H : Forall _ (_ :: _) |- _ => inversion H; subst; clear H end; lra).
    assert (Q' : (0 <= b0 /\ 0 <= b1 /\ 0 <= b2)%R) by (repeat match goal with H : Forall _ (_ :: _) |- _ => inversion H; subst; clear H end; lra).
    clear P P'. cbn [sumR] in S1, S1'. cbn [paths2 In] in Hc, Hc'.
    repeat destruct Hc as [<-|Hc]; try destruct Hc; repeat destruct Hc' as [<-|Hc']; try destruct Hc'; try reflexivity; exfalso;
      cbn [combination bit] in E, E'; injection E as Ex Ey; injection E' as Ex' Ey'; lra.
  - intros n. unfold cells1. assert (X : forall l : list nat, flat_map (fun i => map (map (corner_index n 1 1 i 0 0)) paths1) l = map (fun i => [i; (i + 1) mod n]) l); [|now rewrite X].
    induction l as [|i l IH]; [reflexivity|]. cbn [flat_map map]. rewrite IH. unfold paths1, corner_index, mesh_index. cbn [map fst snd app]. rewrite !Nat.mul_1_r, !Nat.add_0_r. reflexivity.
  - intros x H. exists (nth 0 paths1 []). split; [now left|]. exists [1 - x; x]%R. split; [reflexivity|]. split; [repeat (apply Forall_cons || apply Forall_nil); lra|]. split; [cbn [sumR]; ring|]. cbn. f_equal; [f_equal|]; ring.
Qed.
Print Assumptions triangles_tile_the_cell.
