(** Property theorems: k-point generation (C26-C30, C58).  Model: KPoints.v. *)
From Coq Require Import String Ascii ZArith QArith Qcanon Bool Lia Arith List.
From Verif Require Import Base Dec Field Cell Super SuperFacts Text TextRound KPoints.
Import ListNotations.
Local Open Scope string_scope.
Local Open Scope list_scope.
Local Open Scope nat_scope.

(** * Specification: an automatic-grid file *)
(** fourth line: three counts; fifth line: absent, or three shifts. *)
Definition grid_file (lines : list string) (n1 n2 n3 : Z) (s1 s2 s3 : Qc) : Prop :=
  exists l0 l1 l2 l3 rest t1 t2 t3 more,
    lines = l0 :: l1 :: l2 :: l3 :: rest /\ split_ws l3 = t1 :: t2 :: t3 :: more /\
    parse_int t1 = Some n1 /\ parse_int t2 = Some n2 /\ parse_int t3 = Some n3 /\
    ((rest = [] /\ s1 = 0%Qc /\ s2 = 0%Qc /\ s3 = 0%Qc) \/
     exists l4 rest' u1 u2 u3 more', rest = l4 :: rest' /\ split_ws l4 = u1 :: u2 :: u3 :: more' /\
       parse_float u1 = Some s1 /\ parse_float u2 = Some s2 /\ parse_float u3 = Some s3).

(** coordinate of grid line [i] along a direction: (i + shift + offset)/N, or 0 if
    the direction is not periodic *)
Definition coordinate (p : Z) (n : nat) (s off : Qc) (i : nat) : Qc :=
  if Z.eqb p 0 then 0%Qc else Qcdiv (Q2Qc (inject_Z (Z.of_nat i)) + s + off)%Qc (Q2Qc (inject_Z (Z.of_nat n))).

Lemma ranges1 : py_range 1 = [0%Z]. Proof. reflexivity. Qed.
Lemma flat_map_single {A B} (f : A -> B) l : flat_map (fun x => [f x]) l = map f l.
Proof. induction l; cbn; congruence. Qed.
Lemma flat_map_concat' {A B} (f : A -> list B) l : concat (map f l) = flat_map f l.
Proof. symmetry. apply flat_map_concat_map. Qed.
Lemma concatM_total {A B} (f : A -> result (list B)) (g : A -> list B) l :
  (forall x, In x l -> f x = Ok (g x)) -> concatM f l = Ok (flat_map g l).
Proof. intros H. unfold concatM. rewrite (mapM_total f g l H). cbn [bind]. now rewrite flat_map_concat'. Qed.

Definition zcoord (p : Z) (n : Z) (s off : Qc) (i : Z) : Qc :=
  if Z.eqb p 0 then 0%Qc else Qcdiv (Q2Qc (inject_Z i) + s + off)%Qc (Q2Qc (inject_Z n)).


Lemma read_shift_ok lines n1 n2 n3 s1 s2 s3 : grid_file lines n1 n2 n3 s1 s2 s3 -> read_shift lines = Ok [s1; s2; s3].
Proof.
  intros (l0 & l1 & l2 & l3 & rest & t1 & t2 & t3 & more & -> & Hs & P1 & P2 & P3 & Hsh). unfold read_shift.
  destruct Hsh as [(-> & -> & -> & ->)|(l4 & rest' & u1 & u2 & u3 & more' & -> & Hu & Q1 & Q2 & Q3)]; [reflexivity|].
  cbn [nth_error]. rewrite Hu. unfold tslice, to_float. cbn [skipn firstn Nat.sub mapM]. rewrite Q1, Q2, Q3. reflexivity.
Qed.
Lemma read_counts_ok lines n1 n2 n3 s1 s2 s3 : grid_file lines n1 n2 n3 s1 s2 s3 ->
  exists l3, py_nth lines 3 = Ok l3 /\ mapM to_int (tslice 0 3 (split_ws l3)) = Ok [n1; n2; n3].
Proof.
  intros (l0 & l1 & l2 & l3 & rest & t1 & t2 & t3 & more & -> & Hs & P1 & P2 & P3 & Hsh). exists l3. split; [reflexivity|].
  rewrite Hs. unfold tslice, to_int. cbn [skipn firstn Nat.sub mapM]. rewrite P1, P2, P3. reflexivity.
Qed.
Definition ind_of (b1 b2 b3 : bool) : list nat := (if b1 then [0] else []) ++ (if b2 then [1] else []) ++ (if b3 then [2] else []).
Lemma nonzero_ind p1 p2 p3 : nonzero_indices [p1; p2; p3] = ind_of (negb (p1 =? 0)%Z) (negb (p2 =? 0)%Z) (negb (p3 =? 0)%Z).
Proof. unfold nonzero_indices, enumerate. cbn [enumerate_from filter snd]. destruct (p1 =? 0)%Z, (p2 =? 0)%Z, (p3 =? 0)%Z; reflexivity. Qed.
Lemma check_counts_spec b1 b2 b3 n1 n2 n3 :
  check_counts [n1; n2; n3] (ind_of b1 b2 b3) [0; 1; 2] =
  if ((b1 || (n1 =? 1)%Z) && (b2 || (n2 =? 1)%Z) && (b3 || (n3 =? 1)%Z))%bool then Ok tt else Err EMismatchKpathPBC.
Proof.
  destruct b1, b2, b3; cbn [ind_of app check_counts mem_nat existsb Nat.eqb orb py_nth nth_error of_option bind andb];
    destruct (n1 =? 1)%Z, (n2 =? 1)%Z, (n3 =? 1)%Z; reflexivity.
Qed.

Definition bcoord (b : bool) (n : Z) (s off : Qc) (i : Z) : Qc := if b then Qcdiv (fofZ i + s + off)%Qc (fofZ n) else 0%Qc.
Lemma vadd_q (a b c d e f : Qc) : vadd (V3 a b c) (V3 d e f) = V3 (a + d)%Qc (b + e)%Qc (c + f)%Qc. Proof. reflexivity. Qed.
Lemma q0r (x : Qc) : (x + 0 = x)%Qc. Proof. ring. Qed.
Lemma q0l (x : Qc) : (0 + x = x)%Qc. Proof. ring. Qed.
Lemma grid_points_ok half n1 n2 n3 s1 s2 s3 b1 b2 b3 :
  (b1 = false -> n1 = 1)%Z -> (b2 = false -> n2 = 1)%Z -> (b3 = false -> n3 = 1)%Z ->
  grid_points [n1; n2; n3] [s1; s2; s3] half (ind_of b1 b2 b3) =
  Ok (flat_map (fun i => flat_map (fun j => map (fun k =>
        V3 (bcoord b1 n1 s1 half i) (bcoord b2 n2 s2 half j) (bcoord b3 n3 s3 half k)) (py_range n3)) (py_range n2)) (py_range n1)).
Proof.
  intros H1 H2 H3.
  destruct b1, b2, b3; try (rewrite (H1 eq_refl)); try (rewrite (H2 eq_refl)); try (rewrite (H3 eq_refl));
    unfold grid_points, ind_of, axis_range, bcoord; cbn [app py_nth nth_error of_option bind]; rewrite ?ranges1; cbn [flat_map map app].
  - erewrite concatM_total; [reflexivity|]. intros i _. cbv beta. erewrite concatM_total; [reflexivity|]. intros j _. cbv beta.
    erewrite mapM_total; [reflexivity|]. intros k _. cbv beta. unfold grid_term, axis_vec. cbn [py_nth nth_error of_option bind Nat.eqb].
    rewrite !vadd_q, !q0l, !q0r. reflexivity.
  - erewrite concatM_total; [reflexivity|]. intros i _. cbv beta. rewrite flat_map_single.
    erewrite mapM_total; [reflexivity|]. intros k _. cbv beta. unfold grid_term, axis_vec. cbn [py_nth nth_error of_option bind Nat.eqb].
    rewrite !vadd_q, !q0l, !q0r. reflexivity.
  - erewrite concatM_total; [reflexivity|]. intros i _. cbv beta. rewrite app_nil_r.
    erewrite mapM_total; [reflexivity|]. intros k _. cbv beta. unfold grid_term, axis_vec. cbn [py_nth nth_error of_option bind Nat.eqb].
    rewrite !vadd_q, !q0l, !q0r. reflexivity.
  - rewrite flat_map_single. erewrite mapM_total; [reflexivity|]. intros k _. cbv beta. unfold grid_term, axis_vec. cbn [py_nth nth_error of_option bind Nat.eqb]. reflexivity.
  - rewrite app_nil_r. erewrite concatM_total; [reflexivity|]. intros i _. cbv beta.
    erewrite mapM_total; [reflexivity|]. intros k _. cbv beta. unfold grid_term, axis_vec. cbn [py_nth nth_error of_option bind Nat.eqb].
    rewrite !vadd_q, !q0l, !q0r. reflexivity.
  - rewrite app_nil_r, flat_map_single. erewrite mapM_total; [reflexivity|]. intros k _. cbv beta. unfold grid_term, axis_vec. cbn [py_nth nth_error of_option bind Nat.eqb]. reflexivity.
  - rewrite !app_nil_r. erewrite mapM_total; [reflexivity|]. intros k _. cbv beta. unfold grid_term, axis_vec. cbn [py_nth nth_error of_option bind Nat.eqb]. reflexivity.
  - reflexivity.
Qed.

(** the scheme line (third line) starts with the letter [c] *)
Definition scheme_letter (lines : list string) (c : ascii) : Prop :=
  exists l0 l1 l2 rest w ws, lines = l0 :: l1 :: l2 :: rest /\ split_ws l2 = String c w :: ws.
Definition consistent (p : Z) (n : nat) : Prop := p = 0%Z -> n = 1.

Lemma scheme_first lines c : scheme_letter lines c -> first_char lines 2 = Ok c.
Proof. intros (l0 & l1 & l2 & rest & w & ws & -> & H). unfold first_char. cbn [py_nth nth_error of_option bind]. rewrite H. reflexivity. Qed.

Lemma auto_grid_ok half lines p1 p2 p3 n1 n2 n3 s1 s2 s3 :
  grid_file lines n1 n2 n3 s1 s2 s3 ->
  auto_grid half lines (nonzero_indices [p1; p2; p3]) =
  if ((negb (p1 =? 0)%Z || (n1 =? 1)%Z) && (negb (p2 =? 0)%Z || (n2 =? 1)%Z) && (negb (p3 =? 0)%Z || (n3 =? 1)%Z))%bool
  then Ok (flat_map (fun i => flat_map (fun j => map (fun k =>
        V3 (zcoord p1 n1 s1 half i) (zcoord p2 n2 s2 half j) (zcoord p3 n3 s3 half k)) (py_range n3)) (py_range n2)) (py_range n1), [n1; n2; n3])
  else Err EMismatchKpathPBC.
Proof.
  intros G. unfold auto_grid. destruct (read_counts_ok _ _ _ _ _ _ _ G) as (l3 & -> & E). cbn [bind]. rewrite E. cbn [bind].
  rewrite nonzero_ind, check_counts_spec.
  destruct (negb (p1 =? 0)%Z || (n1 =? 1)%Z)%bool eqn:E1; [|reflexivity].
  destruct (negb (p2 =? 0)%Z || (n2 =? 1)%Z)%bool eqn:E2; [|reflexivity].
  destruct (negb (p3 =? 0)%Z || (n3 =? 1)%Z)%bool eqn:E3; [|reflexivity].
  cbn [andb bind]. rewrite (read_shift_ok _ _ _ _ _ _ _ G). cbn [bind].
  rewrite grid_points_ok.
  - cbn [bind]. f_equal. f_equal.
    unfold bcoord, zcoord. destruct (p1 =? 0)%Z, (p2 =? 0)%Z, (p3 =? 0)%Z; reflexivity.
  - intros H. rewrite H in E1. now apply Z.eqb_eq.
  - intros H. rewrite H in E2. now apply Z.eqb_eq.
  - intros H. rewrite H in E3. now apply Z.eqb_eq.
Qed.

(** * C26, C27: automatic grids *)
Definition is_grid (off : Qc) (p1 p2 p3 : Z) (N1 N2 N3 : nat) (s1 s2 s3 : Qc) (ks : list (v3 Qc)) : Prop :=
  length ks = N1 * N2 * N3 /\
  forall i1 i2 i3, i1 < N1 -> i2 < N2 -> i3 < N3 ->
    nth_error ks ((i1 * N2 + i2) * N3 + i3) =
    Some (V3 (coordinate p1 N1 s1 off i1) (coordinate p2 N2 s2 off i2) (coordinate p3 N3 s3 off i3)).

Lemma cons_bool p n : consistent p n -> (negb (p =? 0)%Z || (Z.of_nat n =? 1)%Z)%bool = true.
Proof. intros H. destruct (p =? 0)%Z eqn:E; [|reflexivity]. apply Z.eqb_eq in E. rewrite (H E). reflexivity. Qed.

Lemma auto_grid_spec half lines p1 p2 p3 N1 N2 N3 s1 s2 s3 :
  grid_file lines (Z.of_nat N1) (Z.of_nat N2) (Z.of_nat N3) s1 s2 s3 ->
  consistent p1 N1 -> consistent p2 N2 -> consistent p3 N3 ->
  exists ks, auto_grid half lines (nonzero_indices [p1; p2; p3]) = Ok (ks, [Z.of_nat N1; Z.of_nat N2; Z.of_nat N3]) /\
             is_grid half p1 p2 p3 N1 N2 N3 s1 s2 s3 ks.
Proof.
  intros G C1 C2 C3. rewrite (auto_grid_ok _ _ _ _ _ _ _ _ _ _ _ G). rewrite !cons_bool by assumption. cbn [andb].
  eexists; split; [reflexivity|].
  assert (L3 : forall i j, length (map (fun k => V3 (zcoord p1 (Z.of_nat N1) s1 half i) (zcoord p2 (Z.of_nat N2) s2 half j)
            (zcoord p3 (Z.of_nat N3) s3 half k)) (py_range (Z.of_nat N3))) = N3)
    by (intros; now rewrite map_length, py_range_length, Nat2Z.id).
  split.
  - erewrite flat_map_const_length; [rewrite py_range_length, Nat2Z.id; rewrite <- Nat.mul_assoc; reflexivity|].
    intros i _. erewrite flat_map_const_length; [rewrite py_range_length, Nat2Z.id; reflexivity|]. intros j _. apply L3.
  - intros i1 i2 i3 H1 H2 H3.
    replace ((i1 * N2 + i2) * N3 + i3) with ((N2 * N3) * i1 + (N3 * i2 + i3)) by nia.
    erewrite flat_map_const_nth; [| |apply (py_range_nth _ i1); lia|nia].
    2:{ intros i _. erewrite flat_map_const_length; [rewrite py_range_length, Nat2Z.id; reflexivity|]. intros j _. apply L3. }
    erewrite flat_map_const_nth; [| |apply (py_range_nth _ i2); lia|lia].
    2:{ intros j _. apply L3. }
    rewrite nth_error_map, py_range_nth by lia. reflexivity.
Qed.

Theorem gamma_grid_points : forall lines c p1 p2 p3 N1 N2 N3 s1 s2 s3,
  scheme_letter lines c -> In c ["G"; "g"]%char ->
  grid_file lines (Z.of_nat N1) (Z.of_nat N2) (Z.of_nat N3) s1 s2 s3 ->
  consistent p1 N1 -> consistent p2 N2 -> consistent p3 N3 ->
  exists ks, set_k_points lines (Some [p1; p2; p3]) = ((ks, [Z.of_nat N1; Z.of_nat N2; Z.of_nat N3]), None) /\
             is_grid 0%Qc p1 p2 p3 N1 N2 N3 s1 s2 s3 ks.
Proof.
  intros lines c p1 p2 p3 N1 N2 N3 s1 s2 s3 S Hc G C1 C2 C3.
  destruct (auto_grid_spec 0%Qc _ _ _ _ _ _ _ _ _ _ G C1 C2 C3) as (ks & E & I).
  exists ks; split; [|exact I]. unfold set_k_points. rewrite (scheme_first _ _ S). cbn [of_option bind].
  unfold gamma_centered. rewrite E. destruct Hc as [<-|[<-|[]]]; reflexivity.
Qed.
Theorem monkhorst_pack_points : forall lines c p1 p2 p3 N1 N2 N3 s1 s2 s3,
  scheme_letter lines c -> In c ["M"; "m"]%char ->
  grid_file lines (Z.of_nat N1) (Z.of_nat N2) (Z.of_nat N3) s1 s2 s3 ->
  consistent p1 N1 -> consistent p2 N2 -> consistent p3 N3 ->
  exists ks, set_k_points lines (Some [p1; p2; p3]) = ((ks, [Z.of_nat N1; Z.of_nat N2; Z.of_nat N3]), None) /\
             is_grid (Q2Qc (1 # 2)) p1 p2 p3 N1 N2 N3 s1 s2 s3 ks.
Proof.
  intros lines c p1 p2 p3 N1 N2 N3 s1 s2 s3 S Hc G C1 C2 C3.
  destruct (auto_grid_spec (Q2Qc (1 # 2)) _ _ _ _ _ _ _ _ _ _ G C1 C2 C3) as (ks & E & I).
  exists ks; split; [|exact I]. unfold set_k_points. rewrite (scheme_first _ _ S). cbn [of_option bind].
  unfold monkhorst_pack. rewrite E. destruct Hc as [<-|[<-|[]]]; reflexivity.
Qed.

(** ** Consequences for any grid *)
Definition integer (x : Qc) : Prop := exists z : Z, x = Q2Qc (inject_Z z).
(** equal up to a reciprocal-lattice vector *)
Definition equivalent (a b : v3 Qc) : Prop :=
  integer (vx a - vx b)%Qc /\ integer (vy a - vy b)%Qc /\ integer (vz a - vz b)%Qc.
Definition opposite (a : v3 Qc) : v3 Qc := V3 (- vx a)%Qc (- vy a)%Qc (- vz a)%Qc.

Lemma grid_decode N1 N2 N3 m : m < N1 * N2 * N3 ->
  exists i1 i2 i3, i1 < N1 /\ i2 < N2 /\ i3 < N3 /\ m = (i1 * N2 + i2) * N3 + i3.
Proof.
  intros H. assert (N3 <> 0) by nia. assert (N2 <> 0) by nia.
  exists (m / N3 / N2), ((m / N3) mod N2), (m mod N3).
  pose proof (Nat.div_mod m N3 ltac:(assumption)). pose proof (Nat.div_mod (m / N3) N2 ltac:(assumption)).
  pose proof (Nat.mod_upper_bound m N3 ltac:(assumption)). pose proof (Nat.mod_upper_bound (m / N3) N2 ltac:(assumption)).
  repeat split; try assumption.
  - apply Nat.div_lt_upper_bound; [assumption|]. apply Nat.div_lt_upper_bound; [assumption|]. nia.
  - nia.
Qed.
Lemma grid_in off p1 p2 p3 N1 N2 N3 s1 s2 s3 ks k :
  is_grid off p1 p2 p3 N1 N2 N3 s1 s2 s3 ks ->
  In k ks <-> exists i1 i2 i3, i1 < N1 /\ i2 < N2 /\ i3 < N3 /\
    k = V3 (coordinate p1 N1 s1 off i1) (coordinate p2 N2 s2 off i2) (coordinate p3 N3 s3 off i3).
Proof.
  intros (L & E). split.
  - intros Hi. apply In_nth_error in Hi. destruct Hi as (m & Hm).
    assert (m < length ks) by (apply nth_error_Some; congruence). rewrite L in H.
    destruct (grid_decode _ _ _ _ H) as (i1 & i2 & i3 & A & B & C & ->). exists i1, i2, i3. repeat split; try assumption.
    rewrite E in Hm by assumption. congruence.
  - intros (i1 & i2 & i3 & A & B & C & ->). eapply nth_error_In. apply E; assumption.
Qed.

Lemma qz_add a b : (Q2Qc (inject_Z a) + Q2Qc (inject_Z b))%Qc = Q2Qc (inject_Z (a + b)).
Proof. apply Qc_is_canon. unfold Qcplus, Qcmult, Qcopp, Q2Qc. cbn [this]. rewrite !Qred_correct. rewrite inject_Z_plus. reflexivity. Qed.
Lemma qz_mul a b : (Q2Qc (inject_Z a) * Q2Qc (inject_Z b))%Qc = Q2Qc (inject_Z (a * b)).
Proof. apply Qc_is_canon. unfold Qcplus, Qcmult, Qcopp, Q2Qc. cbn [this]. rewrite !Qred_correct. rewrite inject_Z_mult. reflexivity. Qed.
Lemma qz_opp a : (- Q2Qc (inject_Z a))%Qc = Q2Qc (inject_Z (- a)).
Proof. apply Qc_is_canon. unfold Qcplus, Qcmult, Qcopp, Q2Qc. cbn [this]. rewrite !Qred_correct. rewrite inject_Z_opp. reflexivity. Qed.
Lemma qz_inj a b : Q2Qc (inject_Z a) = Q2Qc (inject_Z b) -> a = b.
Proof.
  intros H. apply (f_equal this) in H. unfold Q2Qc in H. cbn [this] in H.
  pose proof (Qred_correct (inject_Z a)) as A. pose proof (Qred_correct (inject_Z b)) as B. rewrite H in A.
  apply inject_Z_injective. rewrite <- A. exact B.
Qed.
Lemma qz_ne0 a : a <> 0%Z -> Q2Qc (inject_Z a) <> 0%Qc.
Proof. intros H E. apply H. apply (qz_inj a 0). exact E. Qed.

Lemma coord_opp p n s off i : i < n -> consistent p n -> (p <> 0%Z -> integer (s + s + (off + off))%Qc) ->
  exists j, j < n /\ integer (coordinate p n s off i + coordinate p n s off j)%Qc.
Proof.
  intros Hi C Hint. unfold coordinate. destruct (p =? 0)%Z eqn:E.
  - exists i. split; [exact Hi|]. exists 0%Z. apply Qc_is_canon. reflexivity.
  - apply Z.eqb_neq in E. destruct (Hint E) as (c & Hc).
    set (j := Z.to_nat ((- Z.of_nat i - c) mod Z.of_nat n)).
    assert (NZ : Z.of_nat n <> 0%Z) by lia.
    pose proof (Z.mod_pos_bound (- Z.of_nat i - c) (Z.of_nat n) ltac:(lia)) as B.
    exists j. split; [unfold j; lia|].
    exists (- ((- Z.of_nat i - c) / Z.of_nat n))%Z.
    pose proof (Z.div_mod (- Z.of_nat i - c) (Z.of_nat n) NZ) as D.
    assert (Hj : Z.of_nat j = ((- Z.of_nat i - c) mod Z.of_nat n)%Z) by (unfold j; lia).
    set (q := ((- Z.of_nat i - c) / Z.of_nat n)%Z) in *.
    assert (S : (Z.of_nat i + Z.of_nat j + c = - q * Z.of_nat n)%Z) by lia.
    unfold Qcdiv.
    assert (X : ((Q2Qc (inject_Z (Z.of_nat i)) + s + off) * / Q2Qc (inject_Z (Z.of_nat n)) +
                 (Q2Qc (inject_Z (Z.of_nat j)) + s + off) * / Q2Qc (inject_Z (Z.of_nat n)) =
            (Q2Qc (inject_Z (Z.of_nat i)) + Q2Qc (inject_Z (Z.of_nat j)) + (s + s + (off + off))) * / Q2Qc (inject_Z (Z.of_nat n)))%Qc) by ring.
    rewrite X, Hc, !qz_add, S, <- qz_mul, <- Qcmult_assoc, Qcmult_inv_r by (apply qz_ne0, NZ). ring.
Qed.

(** closed under q -> -q modulo a reciprocal vector whenever twice the total offset of every periodic direction is whole *)
Theorem grid_closed_under_inversion : forall off p1 p2 p3 N1 N2 N3 s1 s2 s3 ks k,
  is_grid off p1 p2 p3 N1 N2 N3 s1 s2 s3 ks ->
  consistent p1 N1 -> consistent p2 N2 -> consistent p3 N3 ->
  (p1 <> 0%Z -> integer (s1 + s1 + (off + off))%Qc) -> (p2 <> 0%Z -> integer (s2 + s2 + (off + off))%Qc) ->
  (p3 <> 0%Z -> integer (s3 + s3 + (off + off))%Qc) ->
  In k ks -> exists k', In k' ks /\ equivalent k' (opposite k).
Proof.
  intros off p1 p2 p3 N1 N2 N3 s1 s2 s3 ks k G C1 C2 C3 I1 I2 I3 Hk.
  apply (grid_in _ _ _ _ _ _ _ _ _ _ _ _ G) in Hk. destruct Hk as (i1 & i2 & i3 & A & B & C & ->).
  destruct (coord_opp p1 N1 s1 off i1 A C1 I1) as (j1 & L1 & z1 & Z1).
  destruct (coord_opp p2 N2 s2 off i2 B C2 I2) as (j2 & L2 & z2 & Z2).
  destruct (coord_opp p3 N3 s3 off i3 C C3 I3) as (j3 & L3 & z3 & Z3).
  exists (V3 (coordinate p1 N1 s1 off j1) (coordinate p2 N2 s2 off j2) (coordinate p3 N3 s3 off j3)). split.
  - apply (grid_in _ _ _ _ _ _ _ _ _ _ _ _ G). exists j1, j2, j3. auto.
  - unfold equivalent, opposite, integer. cbn [vx vy vz].
    split; [exists z1; rewrite <- Z1; ring|]. split; [exists z2; rewrite <- Z2; ring|exists z3; rewrite <- Z3; ring].
Qed.
Theorem unshifted_gamma_contains_gamma : forall p1 p2 p3 N1 N2 N3 ks,
  is_grid 0%Qc p1 p2 p3 N1 N2 N3 0%Qc 0%Qc 0%Qc ks -> N1 <> 0 -> N2 <> 0 -> N3 <> 0 -> nth_error ks 0 = Some (V3 0%Qc 0%Qc 0%Qc).
Proof.
  intros p1 p2 p3 N1 N2 N3 ks (_ & E) A B C. specialize (E 0 0 0 ltac:(lia) ltac:(lia) ltac:(lia)). change ((0 * N2 + 0) * N3 + 0) with 0 in E. rewrite E.
  assert (Z0 : forall p n, coordinate p n 0%Qc 0%Qc 0 = 0%Qc).
  { intros p n. unfold coordinate. destruct (p =? 0)%Z; [reflexivity|]. cbn [Z.of_nat].
    replace (Q2Qc (inject_Z 0) + 0 + 0)%Qc with 0%Qc by (apply Qc_is_canon; reflexivity). unfold Qcdiv. ring. }
  now rewrite !Z0.
Qed.

Lemma coord_inj p n s off i j : consistent p n -> i < n -> j < n ->
  integer (coordinate p n s off i - coordinate p n s off j)%Qc -> i = j.
Proof.
  intros C Hi Hj (z & Hz). unfold coordinate in Hz. destruct (p =? 0)%Z eqn:E.
  - apply Z.eqb_eq in E. specialize (C E). lia.
  - assert (NZ : Z.of_nat n <> 0%Z) by lia. pose proof (qz_ne0 _ NZ) as NQ.
    assert (X : (Q2Qc (inject_Z (Z.of_nat i)) - Q2Qc (inject_Z (Z.of_nat j)) = Q2Qc (inject_Z z) * Q2Qc (inject_Z (Z.of_nat n)))%Qc).
    { rewrite <- Hz. field. exact NQ. }
    unfold Qcminus in X. rewrite qz_opp, qz_add, qz_mul in X. apply qz_inj in X.
    assert (Z.abs (z * Z.of_nat n) < Z.of_nat n)%Z by lia. rewrite Z.abs_mul in H. assert (Z.abs z = 0 \/ 1 <= Z.abs z)%Z by lia. nia.
Qed.
(** the points of a grid are pairwise inequivalent *)
Theorem grid_points_inequivalent : forall off p1 p2 p3 N1 N2 N3 s1 s2 s3 ks a b k k',
  is_grid off p1 p2 p3 N1 N2 N3 s1 s2 s3 ks ->
  consistent p1 N1 -> consistent p2 N2 -> consistent p3 N3 ->
  nth_error ks a = Some k -> nth_error ks b = Some k' -> equivalent k k' -> a = b.
Proof.
  intros off p1 p2 p3 N1 N2 N3 s1 s2 s3 ks a b k k' (L & E) C1 C2 C3 Ha Hb (Q1 & Q2 & Q3).
  assert (La : a < N1 * N2 * N3) by (rewrite <- L; apply nth_error_Some; congruence).
  assert (Lb : b < N1 * N2 * N3) by (rewrite <- L; apply nth_error_Some; congruence).
  destruct (grid_decode _ _ _ _ La) as (i1 & i2 & i3 & A1 & A2 & A3 & ->).
  destruct (grid_decode _ _ _ _ Lb) as (j1 & j2 & j3 & B1 & B2 & B3 & ->).
  rewrite E in Ha, Hb by assumption. injection Ha as <-. injection Hb as <-. cbn [vx vy vz] in *.
  rewrite (coord_inj _ _ _ _ _ _ C1 A1 B1 Q1), (coord_inj _ _ _ _ _ _ C2 A2 B2 Q2), (coord_inj _ _ _ _ _ _ C3 A3 B3 Q3). reflexivity.
Qed.

(** * C28 *)
Theorem grid_rejected_iff : forall lines c p1 p2 p3 n1 n2 n3 s1 s2 s3,
  scheme_letter lines c -> In c ["G"; "g"; "M"; "m"]%char -> grid_file lines n1 n2 n3 s1 s2 s3 ->
  ((p1 = 0 /\ n1 <> 1) \/ (p2 = 0 /\ n2 <> 1) \/ (p3 = 0 /\ n3 <> 1) <->
   set_k_points lines (Some [p1; p2; p3]) = (([], []), Some EMismatchKpathPBC))%Z /\
  (snd (set_k_points lines (Some [p1; p2; p3])) = None \/ snd (set_k_points lines (Some [p1; p2; p3])) = Some EMismatchKpathPBC).
Proof.
  intros lines c p1 p2 p3 n1 n2 n3 s1 s2 s3 S Hc G.
  assert (X : forall half, let r := auto_grid half lines (nonzero_indices [p1; p2; p3]) in
     ((p1 = 0 /\ n1 <> 1) \/ (p2 = 0 /\ n2 <> 1) \/ (p3 = 0 /\ n3 <> 1) <-> r = Err EMismatchKpathPBC)%Z /\
     ((exists x, r = Ok x) \/ r = Err EMismatchKpathPBC)).
  { intros half. cbv zeta. rewrite (auto_grid_ok half _ p1 p2 p3 _ _ _ _ _ _ G).
    destruct (Z.eqb_spec p1 0); destruct (Z.eqb_spec p2 0); destruct (Z.eqb_spec p3 0);
    destruct (Z.eqb_spec n1 1); destruct (Z.eqb_spec n2 1); destruct (Z.eqb_spec n3 1); cbn [negb orb andb];
      (split; [split; intros H; try reflexivity; try discriminate H; try (exfalso; tauto); try tauto | first [right; reflexivity | left; eexists; reflexivity]]). }
  assert (Y : exists half, set_k_points lines (Some [p1; p2; p3]) =
     match auto_grid half lines (nonzero_indices [p1; p2; p3]) with Ok x => (x, None) | Err e => (([], []), Some e) end).
  { unfold set_k_points. rewrite (scheme_first _ _ S). cbn [of_option bind]. unfold gamma_centered, monkhorst_pack.
    destruct Hc as [<-|[<-|[<-|[<-|[]]]]]; eexists; reflexivity. }
  destruct Y as (half & ->). destruct (X half) as (X1 & X2). rewrite X1. destruct X2 as [(x & ->)| ->].
  - split; [split; intros H; discriminate H|left; reflexivity].
  - split; [split; intros H; reflexivity|right; reflexivity].
Qed.

(** * C29, C30: line paths *)
Definition reads_point (l : string) (v : v3 Qc) : Prop :=
  exists t1 t2 t3 more, split_ws l = t1 :: t2 :: t3 :: more /\
    parse_float t1 = Some (vx v) /\ parse_float t2 = Some (vy v) /\ parse_float t3 = Some (vz v).
(** the non-blank lines, in order, are the points [pts] *)
Inductive point_lines : list string -> list (v3 Qc) -> Prop :=
| pl_nil : point_lines [] []
| pl_blank l r pts : split_ws l = [] -> point_lines r pts -> point_lines (l :: r) pts
| pl_point l r v pts : reads_point l v -> point_lines r pts -> point_lines (l :: r) (v :: pts).
Definition path_file (lines : list string) (n : Z) (pts : list (v3 Qc)) : Prop :=
  exists l0 l1 l2 rest t more, lines = l0 :: l1 :: l2 :: rest /\ split_ws l1 = t :: more /\ parse_int t = Some n /\ point_lines rest pts.
(** no component along a non-periodic direction *)
Definition in_periodic_space (p1 p2 p3 : Z) (v : v3 Qc) : Prop :=
  (p1 = 0%Z -> vx v = 0%Qc) /\ (p2 = 0%Z -> vy v = 0%Qc) /\ (p3 = 0%Z -> vz v = 0%Qc).

Lemma k_row_ok l v : reads_point l v -> k_row (tslice 0 3 (split_ws l)) = Ok v.
Proof.
  intros (t1 & t2 & t3 & more & -> & A & B & C). unfold tslice, k_row, parse_row. cbn [skipn firstn Nat.sub mapM].
  rewrite A, B, C. destruct v. reflexivity.
Qed.
Lemma point_lines_rows rest pts : point_lines rest pts ->
  Forall2 (fun ts v => k_row ts = Ok v) (map (fun l => tslice 0 3 (split_ws l)) (filter nonblank rest)) pts.
Proof.
  induction 1 as [|l r pts E _ IH|l r v pts E _ IH]; cbn [filter map]; [constructor| |].
  - unfold nonblank at 1. rewrite E. exact IH.
  - assert (N : nonblank l = true) by (destruct E as (t1 & t2 & t3 & more & E & _); unfold nonblank; now rewrite E).
    rewrite N. cbn [map]. constructor; [now apply k_row_ok|exact IH].
Qed.
Lemma F2len {A B} (R : A -> B -> Prop) l l' : Forall2 R l l' -> length l = length l'.
Proof. induction 1; cbn; congruence. Qed.
Lemma line_path_unfold lines n pts ind : path_file lines n pts ->
  exists rows, Forall2 (fun ts v => k_row ts = Ok v) rows pts /\ length rows = length pts /\
    line_path lines ind = if Nat.odd (length pts) then Err EInvalidLineKpath else path_segments ind n rows.
Proof.
  intros (l0 & l1 & l2 & rest & t & more & -> & E & P & R). eexists. split; [exact (point_lines_rows _ _ R)|].
  pose proof (F2len _ _ _ (point_lines_rows _ _ R)) as L. split; [exact L|].
  unfold line_path. cbn [py_nth nth_error of_option bind]. rewrite E. cbn [py_nth nth_error of_option bind]. unfold to_int. rewrite P. cbn [of_option bind skipn].
  rewrite L. reflexivity.
Qed.
Lemma set_line lines c p n pts ks : scheme_letter lines c -> In c ["L"; "l"]%char -> path_file lines n pts ->
  line_path lines (nonzero_indices p) = ks ->
  set_k_points lines (Some p) = match ks with Ok x => ((x, []), None) | Err e => (([], []), Some e) end.
Proof.
  intros S Hc F <-. unfold set_k_points. rewrite (scheme_first _ _ S). cbn [of_option bind].
  destruct Hc as [<-|[<-|[]]]; cbn; destruct (line_path lines (nonzero_indices p)); reflexivity.
Qed.

Theorem odd_path_rejected : forall lines c p n pts,
  scheme_letter lines c -> In c ["L"; "l"]%char -> path_file lines n pts -> Nat.odd (length pts) = true ->
  set_k_points lines (Some p) = (([], []), Some EInvalidLineKpath).
Proof.
  intros lines c p n pts S Hc F O. destruct (line_path_unfold lines n pts (nonzero_indices p) F) as (rows & _ & _ & E).
  rewrite O in E. rewrite (set_line _ _ _ _ _ _ S Hc F E). reflexivity.
Qed.

Definition bad_point (p1 p2 p3 : Z) (v : v3 Qc) : bool :=
  ((p1 =? 0)%Z && negb (if Qc_eq_dec (vx v) 0 then true else false) ||
   ((p2 =? 0)%Z && negb (if Qc_eq_dec (vy v) 0 then true else false) ||
    (p3 =? 0)%Z && negb (if Qc_eq_dec (vz v) 0 then true else false)))%bool.
Lemma any_np p1 p2 p3 v : (p1 = 0 \/ p2 = 0 \/ p3 = 0)%Z ->
  any_nonperiodic (nonzero_indices [p1; p2; p3]) v = Ok (bad_point p1 p2 p3 v).
Proof.
  intros H. rewrite nonzero_ind. unfold any_nonperiodic, bad_point.
  destruct (Z.eqb_spec p1 0); destruct (Z.eqb_spec p2 0); destruct (Z.eqb_spec p3 0); cbn [negb];
   unfold ind_of, non_periodic; cbn [app filter mem_nat existsb Nat.eqb orb negb comp]; rewrite ?orb_false_r; cbn [andb orb]; try reflexivity.
  exfalso; tauto.
Qed.
Lemma bad_iff p1 p2 p3 v : bad_point p1 p2 p3 v = false <-> in_periodic_space p1 p2 p3 v.
Proof.
  unfold bad_point, in_periodic_space.
  destruct (Z.eqb_spec p1 0), (Z.eqb_spec p2 0), (Z.eqb_spec p3 0);
  destruct (Qc_eq_dec (vx v) 0), (Qc_eq_dec (vy v) 0), (Qc_eq_dec (vz v) 0); cbn; split; intros H; try discriminate H; try reflexivity; tauto.
Qed.
Lemma pts_ind2 {A B} (P : list A -> list B -> Prop) : P [] [] ->
  (forall x a, P [x] [a]) ->
  (forall x y l a b m, P l m -> P (x :: y :: l) (a :: b :: m)) ->
  forall l m, length l = length m -> P l m.
Proof.
  intros P0 P1 P2. assert (X : forall n l m, length l <= n -> length l = length m -> P l m).
  { induction n as [|n IH]; intros l m Hn Hl.
    - destruct l, m; try discriminate; [exact P0|cbn in Hn; lia].
    - destruct l as [|x [|y l]], m as [|a [|b m]]; try discriminate; [exact P0|apply P1|]. apply P2. apply IH; cbn in *; lia. }
  intros l m H. now apply (X (length l)).
Qed.
(** the segment from [a] to [b] in [n] points *)
Definition interpolate (a b : v3 Qc) (n i : nat) : v3 Qc :=
  let t := Qcdiv (Q2Qc (inject_Z (Z.of_nat i))) (Q2Qc (inject_Z (Z.of_nat n - 1))) in
  V3 (vx a + t * (vx b - vx a))%Qc (vy a + t * (vy b - vy a))%Qc (vz a + t * (vz b - vz a))%Qc.
Lemma linspace_ok a b n : exists seg, linspace a b (Z.of_nat n) = Ok seg /\ length seg = n /\
  forall i, i < n -> nth_error seg i = Some (interpolate a b n i).
Proof.
  unfold linspace. destruct (Z.of_nat n <? 0)%Z eqn:E; [apply Z.ltb_lt in E; lia|].
  eexists; split; [reflexivity|]. split.
  - now rewrite map_length, py_range_length, Nat2Z.id.
  - intros i Hi. rewrite nth_error_map, py_range_nth by lia. destruct a, b; reflexivity.
Qed.
Lemma path_segments_ok p1 p2 p3 n rows pts : (p1 = 0 \/ p2 = 0 \/ p3 = 0)%Z ->
  Forall2 (fun ts v => k_row ts = Ok v) rows pts -> Nat.odd (length pts) = false ->
  (forall s a, nth_error pts (2 * s) = Some a -> in_periodic_space p1 p2 p3 a) ->
  exists ks, path_segments (nonzero_indices [p1; p2; p3]) (Z.of_nat n) rows = Ok ks /\ length ks = Nat.div2 (length pts) * n /\
    forall s a b i, nth_error pts (2 * s) = Some a -> nth_error pts (2 * s + 1) = Some b -> i < n ->
      nth_error ks (s * n + i) = Some (interpolate a b n i).
Proof.
  intros Hp F. pose proof (F2len _ _ _ F) as L. revert F.
  pattern rows, pts. apply pts_ind2; [| | |exact L].
  - intros _ _ _. exists []. split; [reflexivity|]. split; [reflexivity|]. intros s a b i H. exfalso. destruct s; discriminate H.
  - intros x a _ O. discriminate O.
  - intros x y l a b m IH F O Hs. inversion_clear F as [|? ? ? ? Fx F']. inversion_clear F' as [|? ? ? ? Fy F].
    destruct (IH F) as (ks & E & Lk & Ek).
    { cbn [length] in O. exact O. }
    { intros s v H. apply (Hs (S s) v). replace (2 * S s) with (S (S (2 * s))) by lia. exact H. }
    destruct (linspace_ok a b n) as (seg & Es & Ls & Eg).
    cbn [path_segments]. rewrite Fx. cbn [bind]. rewrite any_np by exact Hp. cbn [bind].
    rewrite (proj2 (bad_iff p1 p2 p3 a) (Hs 0 a eq_refl)). rewrite Fy. cbn [bind]. rewrite Es. cbn [bind]. rewrite E. cbn [bind].
    eexists; split; [reflexivity|]. split.
    + rewrite app_length, Ls, Lk. cbn [length Nat.div2]. lia.
    + intros s a' b' i Ha Hb Hi. destruct s as [|s].
      * cbn in Ha, Hb. injection Ha as <-. injection Hb as <-. cbn [Nat.mul Nat.add]. rewrite nth_error_app1 by lia. now apply Eg.
      * replace (2 * S s) with (S (S (2 * s))) in * by lia. replace (S (S (2 * s)) + 1) with (S (S (2 * s + 1))) in Hb by lia.
        rewrite nth_error_app2 by (rewrite Ls; nia). rewrite Ls. replace (S s * n + i - n) with (s * n + i) by nia.
        eapply Ek; eassumption.
Qed.
(** n points per segment, first to last special point *)
Theorem line_path_points : forall lines c p1 p2 p3 n pts,
  scheme_letter lines c -> In c ["L"; "l"]%char -> path_file lines (Z.of_nat n) pts ->
  (p1 = 0 \/ p2 = 0 \/ p3 = 0)%Z -> Nat.odd (length pts) = false ->
  (forall s a, nth_error pts (2 * s) = Some a -> in_periodic_space p1 p2 p3 a) ->
  exists ks, set_k_points lines (Some [p1; p2; p3]) = ((ks, []), None) /\ length ks = Nat.div2 (length pts) * n /\
    forall s a b i, nth_error pts (2 * s) = Some a -> nth_error pts (2 * s + 1) = Some b -> i < n ->
      nth_error ks (s * n + i) = Some (interpolate a b n i).
Proof.
  intros lines c p1 p2 p3 n pts S Hc F Hp O Hs.
  destruct (line_path_unfold _ _ _ (nonzero_indices [p1; p2; p3]) F) as (rows & R & L & E). rewrite O in E.
  destruct (path_segments_ok p1 p2 p3 n rows pts Hp R O Hs) as (ks & Ek & Lk & Hk).
  exists ks. split; [|split; assumption]. rewrite (set_line _ _ _ _ _ _ S Hc F E), Ek. reflexivity.
Qed.
Theorem interpolation_ends : forall a b n, 2 <= n -> interpolate a b n 0 = a /\ interpolate a b n (n - 1) = b.
Proof.
  intros [a1 a2 a3] [b1 b2 b3] n Hn. unfold interpolate. cbn [vx vy vz Z.of_nat].
  assert (Z0 : (Qcdiv (Q2Qc (inject_Z 0)) (Q2Qc (inject_Z (Z.of_nat n - 1))) = 0)%Qc).
  { change (Q2Qc (inject_Z 0)) with 0%Qc. unfold Qcdiv. ring. }
  assert (Z1 : (Qcdiv (Q2Qc (inject_Z (Z.of_nat (n - 1)))) (Q2Qc (inject_Z (Z.of_nat n - 1))) = 1)%Qc).
  { replace (Z.of_nat (n - 1)) with (Z.of_nat n - 1)%Z by lia. unfold Qcdiv. apply Qcmult_inv_r, qz_ne0. lia. }
  rewrite Z0, Z1. split; f_equal; ring.
Qed.

(** C30: the first bad start point rejects the path; end points are not looked at *)
Lemma path_segments_bad p1 p2 p3 n rows pts s v : (p1 = 0 \/ p2 = 0 \/ p3 = 0)%Z -> (0 <= n)%Z ->
  Forall2 (fun ts v => k_row ts = Ok v) rows pts -> nth_error pts (2 * s) = Some v -> Nat.odd (length pts) = false ->
  ~ in_periodic_space p1 p2 p3 v ->
  path_segments (nonzero_indices [p1; p2; p3]) n rows = Err EMismatchKpathPBC.
Proof.
  intros Hp Hn F. pose proof (F2len _ _ _ F) as L. revert F. revert s.
  pattern rows, pts. apply pts_ind2; [| | |exact L].
  - intros s _ H. exfalso. destruct s; discriminate H.
  - intros x a s _ H O. discriminate O.
  - intros x y l a b m IH s F H O Hb. inversion_clear F as [|? ? ? ? Fx F']. inversion_clear F' as [|? ? ? ? Fy F].
    cbn [path_segments]. rewrite Fx. cbn [bind]. rewrite any_np by exact Hp. cbn [bind].
    destruct (bad_point p1 p2 p3 a) eqn:E; [reflexivity|].
    rewrite Fy. cbn [bind]. unfold linspace. destruct (n <? 0)%Z eqn:En; [apply Z.ltb_lt in En; lia|]. cbn [bind].
    rewrite (IH (pred s)); [reflexivity|exact F| |exact O|exact Hb].
    destruct s as [|s]; [cbn in H; injection H as <-; apply bad_iff in E; contradiction|].
    replace (2 * S s) with (S (S (2 * s))) in H by lia. exact H.
Qed.
Theorem bad_start_point_rejected : forall lines c p1 p2 p3 n pts s v,
  scheme_letter lines c -> In c ["L"; "l"]%char -> path_file lines n pts -> (0 <= n)%Z ->
  (p1 = 0 \/ p2 = 0 \/ p3 = 0)%Z -> Nat.odd (length pts) = false ->
  nth_error pts (2 * s) = Some v -> ~ in_periodic_space p1 p2 p3 v ->
  set_k_points lines (Some [p1; p2; p3]) = (([], []), Some EMismatchKpathPBC).
Proof.
  intros lines c p1 p2 p3 n pts s v S Hc F Hn Hp O Hv Hb.
  destruct (line_path_unfold _ _ _ (nonzero_indices [p1; p2; p3]) F) as (rows & R & L & E). rewrite O in E.
  rewrite (path_segments_bad _ _ _ _ _ _ _ _ Hp Hn R Hv O Hb) in E.
  rewrite (set_line _ _ _ _ _ _ S Hc F E). reflexivity.
Qed.
(** whatever the end points are (even outside the periodic space), the path is accepted *)
Theorem end_points_unchecked : forall lines c p1 p2 p3 n pts,
  scheme_letter lines c -> In c ["L"; "l"]%char -> path_file lines (Z.of_nat n) pts -> 2 <= n ->
  (p1 = 0 \/ p2 = 0 \/ p3 = 0)%Z -> Nat.odd (length pts) = false ->
  (forall s a, nth_error pts (2 * s) = Some a -> in_periodic_space p1 p2 p3 a) ->
  forall s b, nth_error pts (2 * s + 1) = Some b -> ~ in_periodic_space p1 p2 p3 b ->
  exists ks, set_k_points lines (Some [p1; p2; p3]) = ((ks, []), None) /\ In b ks.
Proof.
  intros lines c p1 p2 p3 n pts S Hc F Hn Hp O Hs s b Hb _.
  destruct (line_path_points lines c p1 p2 p3 n pts S Hc F Hp O Hs) as (ks & E & _ & K). exists ks. split; [exact E|].
  destruct (nth_error pts (2 * s)) as [a|] eqn:Ha.
  - eapply nth_error_In. rewrite (K s a b (n - 1) Ha Hb) by lia. f_equal. apply interpolation_ends. exact Hn.
  - exfalso. apply nth_error_None in Ha. assert (2 * s + 1 < length pts) by (apply nth_error_Some; congruence). lia.
Qed.
(** with three periodic directions a non-empty path is never accepted *)
Theorem fully_periodic_path_fails : forall lines c p1 p2 p3 n pts,
  scheme_letter lines c -> In c ["L"; "l"]%char -> path_file lines n pts ->
  p1 <> 0%Z -> p2 <> 0%Z -> p3 <> 0%Z -> pts <> [] -> Nat.odd (length pts) = false ->
  set_k_points lines (Some [p1; p2; p3]) = (([], []), Some EIndex).
Proof.
  intros lines c p1 p2 p3 n pts S Hc F A B C Hne O.
  destruct (line_path_unfold _ _ _ (nonzero_indices [p1; p2; p3]) F) as (rows & R & L & E). rewrite O in E.
  destruct pts as [|a [|b pts]]; [congruence|discriminate O|].
  inversion R as [|x ? r ? Fx R']; subst. inversion R' as [|y ? r' ? Fy R'']; subst.
  cbn [path_segments] in E. rewrite Fx in E. cbn [bind] in E. rewrite nonzero_ind in E.
  apply Z.eqb_neq in A, B, C. rewrite A, B, C in E. cbn [bind negb ind_of app any_nonperiodic non_periodic filter mem_nat existsb Nat.eqb orb] in E.
  assert (E' : line_path lines (nonzero_indices [p1; p2; p3]) = Err EIndex).
  { rewrite nonzero_ind, A, B, C. exact E. }
  rewrite (set_line _ _ _ _ _ _ S Hc F E'). reflexivity.
Qed.

(** * C58: scheme dispatch, explicit lists, blank shift line *)
Theorem unknown_scheme_silent : forall lines c p,
  scheme_letter lines c -> ~ In c ["G"; "g"; "M"; "m"; "L"; "l"; "R"; "r"]%char ->
  set_k_points lines (Some p) = (([], []), None).
Proof.
  intros lines c p S N. unfold set_k_points. rewrite (scheme_first _ _ S). cbn [of_option bind].
  assert (X : forall a b, In a ["G"; "g"; "M"; "m"; "L"; "l"; "R"; "r"]%char -> In b ["G"; "g"; "M"; "m"; "L"; "l"; "R"; "r"]%char -> char_in c [a; b] = false).
  { intros a b Ha Hb. unfold char_in. cbn [existsb]. destruct (Ascii.eqb_spec c a); [subst; contradiction|].
    destruct (Ascii.eqb_spec c b); [subst; contradiction|]. reflexivity. }
  rewrite !X by (cbn; tauto). reflexivity.
Qed.
(** explicit lists: the first [n] lines after the header, blank ones skipped; no
    periodicity check, and fewer lines than announced are accepted *)
Theorem explicit_list_points : forall lines c p n pts l0 l1 l2 rest t more,
  scheme_letter lines c -> In c ["R"; "r"]%char ->
  lines = l0 :: l1 :: l2 :: rest -> split_ws l1 = t :: more -> parse_int t = Some (Z.of_nat n) ->
  point_lines (firstn n rest) pts ->
  set_k_points lines (Some p) = ((pts, []), None).
Proof.
  intros lines c p n pts l0 l1 l2 rest t more S Hc -> E P R.
  assert (X : explicit_reciprocal (l0 :: l1 :: l2 :: rest) = Ok pts).
  { unfold explicit_reciprocal. cbn [py_nth nth_error of_option bind]. rewrite E. cbn [py_nth nth_error of_option bind]. unfold to_int. rewrite P.
    cbn [of_option bind].
    assert (SL : py_slice (l0 :: l1 :: l2 :: rest) 3 (3 + Z.of_nat n) = firstn n rest).
    { unfold py_slice. cbn [length]. destruct (3 + Z.of_nat n <? 0)%Z eqn:L; [apply Z.ltb_lt in L; lia|].
      cbn [skipn]. match goal with |- firstn ?k rest = _ => destruct (le_lt_dec n (length rest)); [replace k with n by lia; reflexivity|rewrite !firstn_all2 by lia; reflexivity] end. }
    rewrite SL. pose proof (point_lines_rows _ _ R) as F. apply mapM_ok_Forall2.
    clear - F. remember (map (fun l => tslice 0 3 (split_ws l)) (filter nonblank (firstn n rest))) as m eqn:Em.
    revert Em. generalize (filter nonblank (firstn n rest)). induction F as [|ts v m pts Hv F IH]; intros [|x l] Em; try discriminate; constructor.
    - cbn in Em. injection Em as -> _. exact Hv.
    - cbn in Em. injection Em as _ ->. now apply IH. }
  unfold set_k_points. rewrite (scheme_first _ _ S). cbn [of_option bind]. rewrite X. destruct Hc as [<-|[<-|[]]]; reflexivity.
Qed.
(** whatever happened before, a call that raises leaves no k-points *)
Theorem failed_call_leaves_nothing : forall lines p e ks auto,
  set_k_points lines p = ((ks, auto), Some e) -> ks = [] /\ auto = [].
Proof.
  intros lines p e ks auto. unfold set_k_points. match goal with |- match ?r with _ => _ end = _ -> _ => destruct r as [x|e'] end; intros H; [discriminate H|].
  injection H as <- <- _. auto.
Qed.
(** an existing but blank fifth line is not "no shift": every system with a periodic
    direction fails with IndexError *)
Theorem blank_shift_line_fails : forall lines c p1 p2 p3 l0 l1 l2 l3 l4 rest t1 t2 t3 more N1 N2 N3,
  scheme_letter lines c -> In c ["G"; "g"; "M"; "m"]%char ->
  lines = l0 :: l1 :: l2 :: l3 :: l4 :: rest -> split_ws l3 = t1 :: t2 :: t3 :: more -> split_ws l4 = [] ->
  parse_int t1 = Some (Z.of_nat N1) -> parse_int t2 = Some (Z.of_nat N2) -> parse_int t3 = Some (Z.of_nat N3) ->
  0 < N1 -> 0 < N2 -> 0 < N3 -> consistent p1 N1 -> consistent p2 N2 -> consistent p3 N3 ->
  ~ (p1 = 0 /\ p2 = 0 /\ p3 = 0)%Z ->
  set_k_points lines (Some [p1; p2; p3]) = (([], []), Some EIndex).
Proof.
  intros lines c p1 p2 p3 l0 l1 l2 l3 l4 rest t1 t2 t3 more N1 N2 N3 S Hc -> E3 E4 P1 P2 P3 H1 H2 H3 C1 C2 C3 Hp.
  assert (X : forall half, auto_grid half (l0 :: l1 :: l2 :: l3 :: l4 :: rest) (nonzero_indices [p1; p2; p3]) = Err EIndex).
  { intros half. unfold auto_grid. cbn [py_nth nth_error of_option bind]. rewrite E3. unfold tslice, to_int. cbn [skipn firstn Nat.sub mapM].
    rewrite P1, P2, P3. cbn [of_option bind]. rewrite nonzero_ind, check_counts_spec, !cons_bool by assumption. cbn [andb bind].
    unfold read_shift. cbn [nth_error]. rewrite E4. unfold tslice. cbn [skipn firstn Nat.sub mapM bind].
    assert (R : forall N, 0 < N -> exists r, py_range (Z.of_nat N) = 0%Z :: r).
    { intros N HN. pose proof (py_range_nth (Z.of_nat N) 0 ltac:(lia)) as Q. destruct (py_range (Z.of_nat N)) as [|z r]; [discriminate|]. injection Q as ->. eauto. }
    destruct (R N1 H1) as (r1 & R1), (R N2 H2) as (r2 & R2), (R N3 H3) as (r3 & R3).
    destruct (Z.eqb_spec p1 0), (Z.eqb_spec p2 0), (Z.eqb_spec p3 0); try (exfalso; tauto);
      unfold ind_of, grid_points, axis_range, concatM; cbn [negb app py_nth nth_error of_option bind]; rewrite ?R1, ?R2, ?R3; reflexivity. }
  unfold set_k_points. rewrite (scheme_first _ _ S). cbn [of_option bind]. unfold gamma_centered, monkhorst_pack. rewrite !X.
  destruct Hc as [<-|[<-|[<-|[<-|[]]]]]; reflexivity.
Qed.

(** * Witnesses *)
Definition grid_example : list string := ["KPT"; "0"; "Gamma"; "3 2 1"; "0.5 0 0"].
Example grid_example_file : grid_file grid_example 3 2 1 (Q2Qc (1 # 2)) 0 0 /\ scheme_letter grid_example "G".
Proof.
  split.
  - do 9 eexists. split; [reflexivity|]. split; [vm_compute; reflexivity|]. split; [vm_compute; reflexivity|].
    split; [vm_compute; reflexivity|]. split; [vm_compute; reflexivity|]. right. do 6 eexists. split; [reflexivity|].
    split; [vm_compute; reflexivity|]. repeat split; vm_compute; f_equal; apply Qc_is_canon; reflexivity.
  - do 6 eexists. split; [reflexivity|]. vm_compute. reflexivity.
Qed.
Example grid_example_result : exists ks, set_k_points grid_example (Some [1; 1; 0]%Z) = ((ks, [3; 2; 1]%Z), None) /\ length ks = 6 /\
  nth_error ks 3 = Some (V3 (Q2Qc (1 # 2)) (Q2Qc (1 # 2)) 0%Qc).
Proof.
  destruct (gamma_grid_points grid_example "G" 1 1 0 3 2 1 _ _ _ (proj2 grid_example_file) (or_introl eq_refl) (proj1 grid_example_file)) as (ks & A & B & C);
    try (intros H; first [discriminate H | reflexivity]).
  exists ks. split; [exact A|]. split; [exact B|]. change 3 with ((1 * 2 + 1) * 1 + 0). rewrite (C 1 1 0) by lia. f_equal. f_equal; apply Qc_is_canon; reflexivity.
Qed.
Example grid_example_rejected : set_k_points grid_example (Some [1; 0; 1]%Z) = (([], []), Some EMismatchKpathPBC).
Proof. apply (grid_rejected_iff grid_example "G" 1 0 1 3 2 1 _ _ _ (proj2 grid_example_file) (or_introl eq_refl) (proj1 grid_example_file)). right. left. split; lia. Qed.
Definition path_example : list string := ["path"; "5"; "Line"; "0 0 0 G"; "0.5 0 0.25 X"; ""; "0.5 0 0 X"; "0.5 0.5 0"].
Lemma rp t v : k_row (tslice 0 3 (split_ws t)) = Ok v -> 3 <= length (split_ws t) -> reads_point t v.
Proof.
  unfold reads_point, k_row, tslice, parse_row. destruct (split_ws t) as [|a [|b [|c l]]]; cbn [length]; try lia. intros H _.
  cbn [skipn firstn Nat.sub mapM] in H. exists a, b, c, l. split; [reflexivity|].
  destruct (parse_float a), (parse_float b), (parse_float c); cbn in H; try discriminate H. injection H as <-. auto.
Qed.
Ltac rp := eapply rp; [vm_compute; f_equal; f_equal; apply Qc_is_canon; cbn; reflexivity | vm_compute; lia].
Definition qd (n : Z) (d : positive) : Qc := Q2Qc (n # d).
Example path_example_file : path_file path_example 5 [V3 (qd 0 1) (qd 0 1) (qd 0 1); V3 (qd 1 2) (qd 0 1) (qd 1 4); V3 (qd 1 2) (qd 0 1) (qd 0 1); V3 (qd 1 2) (qd 1 2) (qd 0 1)] /\
  scheme_letter path_example "L".
Proof.
  split.
  - do 6 eexists. split; [reflexivity|]. split; [vm_compute; reflexivity|]. split; [vm_compute; reflexivity|].
    repeat (first [apply pl_nil | apply pl_blank; [vm_compute; reflexivity|] | apply pl_point; [rp|]]).
  - do 6 eexists. split; [reflexivity|]. vm_compute. reflexivity.
Qed.
(** a path leaving the periodic plane through an end point is accepted *)
Example path_example_result : exists ks, set_k_points path_example (Some [1; 1; 0]%Z) = ((ks, []), None) /\ In (V3 (qd 1 2) (qd 0 1) (qd 1 4)) ks.
Proof.
  apply (end_points_unchecked path_example "L" 1 1 0 5 _ (proj2 path_example_file) (or_introl eq_refl) (proj1 path_example_file)) with (s := 0);
    [lia|auto|reflexivity| |reflexivity|].
  - intros [|[|s]] a H; [| |rewrite (proj2 (nth_error_None _ _)) in H by (cbn; lia); discriminate H]; cbn in H;
      injection H as <-; (split; [|split]; intros Hz; [discriminate Hz|discriminate Hz|reflexivity]).
  - intros (_ & _ & H). specialize (H eq_refl). cbn in H. discriminate H.
Qed.
Example path_example_rejected : set_k_points path_example (Some [0; 1; 0]%Z) = (([], []), Some EMismatchKpathPBC).
Proof.
  eapply (bad_start_point_rejected path_example "L" 0 1 0 5 _ 1 _ (proj2 path_example_file) (or_introl eq_refl) (proj1 path_example_file));
    [lia|auto|reflexivity|reflexivity|]. intros (H & _). specialize (H eq_refl). discriminate H.
Qed.
Example explicit_example : exists ks, set_k_points ["list"; "9"; "rec"; "0 0 0.5 1"; "0.25 0 0 1"] (Some [1; 1; 0]%Z) = ((ks, []), None) /\ length ks = 2.
Proof.
  eexists. split; [eapply (explicit_list_points _ "r" _ 9); [do 6 eexists; split; [reflexivity|vm_compute; reflexivity] | cbn; auto | reflexivity | vm_compute; reflexivity | vm_compute; reflexivity |]|].
  - cbn [firstn]. apply pl_point; [rp|]. apply pl_point; [rp|]. apply pl_nil.
  - reflexivity.
Qed.
Print Assumptions gamma_grid_points.
Print Assumptions monkhorst_pack_points.
Print Assumptions grid_closed_under_inversion.
Print Assumptions grid_points_inequivalent.
Print Assumptions grid_rejected_iff.
Print Assumptions line_path_points.
Print Assumptions end_points_unchecked.
Print Assumptions explicit_list_points.
Print Assumptions blank_shift_line_fails.
