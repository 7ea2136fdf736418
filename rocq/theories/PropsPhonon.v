(** Property theorems: dynamical matrix, frequencies and modes (C34-C39).
    Model: Phonon.v. *)
From Coq Require Import String Ascii ZArith Bool Lia Lra Arith Reals Permutation Sorted List.
From Coquelicot Require Import Complex.
From Verif Require Import Base Field Args Cell Super SuperFacts Displace Force PropsForce Phonon PhononFacts.
Import ListNotations.
Local Open Scope list_scope.
Local Open Scope nat_scope.

(** * C34 *)
(** The vector used differs from the raw one by a supercell lattice vector along
    periodic directions only, and is not longer. *)
Theorem image_vector_sound : forall (p1 p2 p3 : Z) (SL : m3 R) (pos : v3 R),
  let v := min_image (pbc_axes [p1; p2; p3] SL) pos in
  (exists n1 n2 n3 : Z, v = vadd pos (lat_comb SL n1 n2 n3) /\
     (p1 = 0 -> n1 = 0)%Z /\ (p2 = 0 -> n2 = 0)%Z /\ (p3 = 0 -> n3 = 0)%Z) /\
  (vdot v v <= vdot pos pos)%R.
Proof.
  intros p1 p2 p3 SL pos v. unfold v, min_image. clear v.
  destruct (closer_fold (pbc_axes [p1; p2; p3] SL) (images (pbc_axes [p1; p2; p3] SL)) pos (images_lattice _)) as (t & T1 & T2 & T3).
  split; [|exact T3]. rewrite T2. clear T2 T3.
  assert (G : exists n1 n2 n3 : Z, t = lat_comb SL n1 n2 n3 /\ (p1 = 0 -> n1 = 0)%Z /\ (p2 = 0 -> n2 = 0)%Z /\ (p3 = 0 -> n3 = 0)%Z).
  { induction T1 as [|a i v Ha Hv (n1 & n2 & n3 & E & H1 & H2 & H3)].
    - exists 0%Z, 0%Z, 0%Z. split; [|auto]. destruct SL as [[a1 b1 c1] [a2 b2 c2] [a3 b3 c3]].
      apply v3_ext; cbn; ring.
    - assert (K : (a = r1 SL /\ p1 <> 0)%Z \/ (a = r2 SL /\ p2 <> 0)%Z \/ (a = r3 SL /\ p3 <> 0)%Z).
      { unfold pbc_axes in Ha. apply in_map_iff in Ha as ([p x] & <- & Hin). apply filter_In in Hin as (Hin & Hp).
        apply negb_true_iff, Z.eqb_neq in Hp. cbn in Hin. destruct Hin as [Q|[Q|[Q|[]]]]; injection Q as <- <-; cbn; auto. }
      rewrite E. destruct K as [(-> & K)|[(-> & K)|(-> & K)]].
      + exists (n1 + i)%Z, n2, n3. split; [|split; [intros; contradiction|auto]].
        destruct SL as [[a1 b1 c1] [a2 b2 c2] [a3 b3 c3]]. apply v3_ext; cbn; rewrite ?plus_IZR; ring.
      + exists n1, (n2 + i)%Z, n3. split; [|split; [auto|split; [intros; contradiction|auto]]].
        destruct SL as [[a1 b1 c1] [a2 b2 c2] [a3 b3 c3]]. apply v3_ext; cbn; rewrite ?plus_IZR; ring.
      + exists n1, n2, (n3 + i)%Z. split; [|split; [auto|split; [auto|intros; contradiction]]].
        destruct SL as [[a1 b1 c1] [a2 b2 c2] [a3 b3 c3]]. apply v3_ext; cbn; rewrite ?plus_IZR; ring. }
  destruct G as (n1 & n2 & n3 & E & H). exists n1, n2, n3. split; [now rewrite E|exact H].
Qed.
Print Assumptions image_vector_sound.

Lemma vdot_shift (p a : v3 R) (n : R) : vdot (vadd p (vscale n a)) (vadd p (vscale n a)) = (vdot p p + 2 * n * vdot p a + n * n * vdot a a)%R.
Proof. destruct p as [p1 p2 p3], a as [a1 a2 a3]. cbn. ring. Qed.
Lemma vdot_shift_r (p a : v3 R) (n : R) : vdot (vadd p (vscale n a)) a = (vdot p a + n * vdot a a)%R.
Proof. destruct p as [p1 p2 p3], a as [a1 a2 a3]. cbn. ring. Qed.

(** One periodic direction: the vector used is a shortest one, as long as the raw
    vector is within one and a half supercell lengths. *)
Theorem image_vector_minimal_1d : forall (a pos : v3 R), (0 < vdot a a)%R ->
  (- (3 / 2 * vdot a a) <= vdot pos a <= 3 / 2 * vdot a a)%R ->
  forall n : Z, (vdot (min_image [a] pos) (min_image [a] pos) <= vdot (vadd pos (vscale (IZR n) a)) (vadd pos (vscale (IZR n) a)))%R.
Proof.
  intros a pos Ha Hx n.
  assert (K : exists m, min_image [a] pos = vadd pos (vscale (IZR m) a) /\ (- (vdot a a / 2) <= vdot (min_image [a] pos) a <= vdot a a / 2)%R).
  { assert (CL : forall p (i : Z), (closer p (zscale i a) = vadd p (vscale (IZR i) a) /\ (2 * IZR i * vdot p a + IZR i * IZR i * vdot a a < 0)%R) \/
                    (closer p (zscale i a) = p /\ (0 <= 2 * IZR i * vdot p a + IZR i * IZR i * vdot a a)%R)).
    { intros p i. unfold closer, zscale. destruct (Rlt_dec _ _) as [H|H]; rewrite vdot_shift in H; [left|right]; split; try reflexivity; lra. }
    assert (AS : forall p (i j : Z), vadd (vadd p (vscale (IZR i) a)) (vscale (IZR j) a) = vadd p (vscale (IZR (i + j)) a)).
    { intros p i j. rewrite plus_IZR. destruct p as [x1 x2 x3], a as [a1 a2 a3]. apply v3_ext; cbn; ring. }
    assert (A0 : forall p, p = vadd p (vscale (IZR 0) a)).
    { intros p. destruct p as [x1 x2 x3], a as [a1 a2 a3]. apply v3_ext; cbn; ring. }
    unfold min_image, images, around. cbn [map fold_left].
    destruct (CL pos (-1)%Z) as [(E1 & H1)|(E1 & H1)]; rewrite E1.
    - set (p1 := vadd pos (vscale (IZR (-1)) a)) in *.
      assert (X1 : vdot p1 a = (vdot pos a - vdot a a)%R) by (unfold p1; rewrite vdot_shift_r; lra).
      destruct (CL p1 0%Z) as [(E2 & H2)|(E2 & H2)]; rewrite E2; [exfalso; lra|].
      destruct (CL p1 1%Z) as [(E3 & H3)|(E3 & H3)]; rewrite E3; [exfalso; lra|].
      exists (-1)%Z. split; [reflexivity|]. rewrite X1. lra.
    - destruct (CL pos 0%Z) as [(E2 & H2)|(E2 & H2)]; rewrite E2; [exfalso; lra|].
      destruct (CL pos 1%Z) as [(E3 & H3)|(E3 & H3)]; rewrite E3.
      + exists 1%Z. split; [reflexivity|]. rewrite vdot_shift_r. lra.
      + exists 0%Z. split; [apply A0|]. lra. }
  destruct K as (m & E & Hb). set (v := min_image [a] pos) in *. clearbody v.
  assert (Q : vadd pos (vscale (IZR n) a) = vadd v (vscale (IZR (n - m)) a)).
  { rewrite E, minus_IZR. destruct pos as [x1 x2 x3], a as [a1 a2 a3]. apply v3_ext; cbn; ring. }
  rewrite Q, vdot_shift. set (t := (n - m)%Z). clearbody t. set (x := vdot v a) in *. set (s := vdot a a) in *. clearbody x s. clear - Ha Hb.
  assert (0 <= 2 * IZR t * x + IZR t * IZR t * s)%R; [|lra].
  destruct (Z_lt_le_dec 0 t) as [Ht|Ht]; [|destruct (Z.eq_dec t 0) as [->|Hz]].
  - assert (1 <= IZR t)%R by (apply (IZR_le 1); lia).
    pose proof (Rmult_le_pos (IZR t) (s / 2 + x) ltac:(lra) ltac:(lra)). pose proof (Rmult_le_pos (IZR t * s) (IZR t - 1) ltac:(apply Rmult_le_pos; lra) ltac:(lra)). lra.
  - lra.
  - assert (IZR t <= -1)%R by (apply (IZR_le t (-1)); lia).
    pose proof (Rmult_le_pos (- IZR t) (s / 2 - x) ltac:(lra) ltac:(lra)). pose proof (Rmult_le_pos (- IZR t * s) (- IZR t - 1) ltac:(apply Rmult_le_pos; lra) ltac:(lra)). lra.
Qed.
Print Assumptions image_vector_minimal_1d.

(** Beyond that distance the shortest image is missed. *)
Theorem image_vector_minimal_refuted : exists (a pos : v3 R) (n : Z), (0 < vdot a a)%R /\
  (vdot (vadd pos (vscale (IZR n) a)) (vadd pos (vscale (IZR n) a)) < vdot (min_image [a] pos) (min_image [a] pos))%R.
Proof.
  exists (V3 1 0 0)%R, (V3 (8/5) 0 0)%R, (-2)%Z. split; [cbn; lra|].
  assert (E : min_image [V3 1 0 0]%R (V3 (8/5) 0 0)%R = vadd (V3 (8/5) 0 0)%R (zscale (-1) (V3 1 0 0)%R)).
  { unfold min_image, images, around. cbn [map fold_left]. unfold closer at 3. destruct (Rlt_dec _ _) as [_|H]; [|exfalso; apply H; cbn; lra].
    unfold closer at 2. destruct (Rlt_dec _ _) as [H|_]; [exfalso; cbn in H; lra|].
    unfold closer. destruct (Rlt_dec _ _) as [H|_]; [exfalso; cbn in H; lra|reflexivity]. }
  rewrite E. cbn. lra.
Qed.
Print Assumptions image_vector_minimal_refuted.

(** * C35 *)
Lemma unit_loop_conj n ncol axes q ucart sp row fr : forall uxyz s2 D D', 
  (forall i j, D' i j = Cconj (D i j)) ->
  match unit_loop n ncol axes q ucart sp row fr s2 uxyz D, unit_loop n ncol axes (vscale (-1)%R q) ucart sp row fr s2 uxyz D' with
  | Ok A, Ok B => forall i j, B i j = Cconj (A i j)
  | Err e, Err e' => e = e'
  | _, _ => False
  end.
Proof.
  induction uxyz as [|a l IH]; intros s2 D D' H; cbn [unit_loop]; [exact H|].
  destruct sp as [x|e]; cbn [bind]; [|reflexivity]. destruct (np_index (length ucart) a) as [ia|e]; cbn [bind]; [|reflexivity].
  destruct (py_nth ucart ia) as [y|e]; cbn [bind]; [|reflexivity]. destruct (n <=? row); [reflexivity|].
  destruct fr as [f|e]; cbn [bind]; [|reflexivity]. destruct (ncol <=? s2); [reflexivity|]. apply IH.
  intros i j. unfold add_at. destruct (Nat.eqb i row && Nat.eqb j s2)%bool; [|apply H].
  rewrite Cconj_plus, Cconj_mult, Cconj_RtoC, cis_conj, H. do 3 f_equal.
  generalize (min_image axes (vsub x y)). intros [p1 p2 p3]. destruct q as [q1 q2 q3]. cbn. ring.
Qed.
Lemma super_loop_conj n nrow ncol E axes q scart ucart fc uxyz : forall sxyz s1 D D',
  (forall i j, D' i j = Cconj (D i j)) ->
  match super_loop n nrow ncol E axes q scart ucart fc uxyz s1 sxyz D, super_loop n nrow ncol E axes (vscale (-1)%R q) scart ucart fc uxyz s1 sxyz D' with
  | Ok A, Ok B => forall i j, B i j = Cconj (A i j)
  | Err e, Err e' => e = e'
  | _, _ => False
  end.
Proof.
  induction sxyz as [|a l IH]; intros s1 D D' H; cbn [super_loop]; [exact H|].
  pose proof (unit_loop_conj n ncol axes q ucart (let! i := np_index (length scart) a in py_nth scart i) (s1 / (E * 3) * 3 + s1 mod 3)
     (let! i := np_index nrow (a * 3 + Z.of_nat (s1 mod 3)) in Ok (fc i)) uxyz 0 D D' H) as K.
  destruct (unit_loop n ncol axes q ucart _ _ _ 0 uxyz D) as [A|e]; destruct (unit_loop n ncol axes (vscale (-1)%R q) ucart _ _ _ 0 uxyz D') as [B|e']; cbn [bind]; try contradiction; [|congruence].
  apply IH. exact K.
Qed.

(** The dynamical matrix at -k is the complex conjugate of that at k (same exception
    if one is raised). *)
Theorem dynamical_matrix_conjugate : forall (u s : cell R) (ar : args) (B : m3 R) (fc : nat -> nat -> R) (k : v3 R),
  match dyn_at u s ar B fc k, dyn_at u s ar B fc (vscale (-1)%R k) with
  | Ok D, Ok D' => forall i j, D' i j = Cconj (D i j)
  | Err e, Err e' => e = e'
  | _, _ => False
  end.
Proof.
  intros u s ar B fc k. unfold dyn_at.
  assert (Q : vmul (vscale (-1)%R k) B = vscale (-1)%R (vmul k B)).
  { destruct k as [k1 k2 k3], B as [[b1 b2 b3] [b4 b5 b6] [b7 b8 b9]]; apply v3_ext; cbn; ring. }
  rewrite Q. clear Q. generalize (vmul k B) as q. intros q.
  repeat match goal with |- context [of_option EType ?o] => destruct o; cbn [of_option bind]; [|reflexivity] end.
  destruct (enlarge l0 l) as [E|e]; cbn [bind]; [|reflexivity].
  repeat match goal with |- context [of_option EType ?o] => destruct o; cbn [of_option bind]; [|try reflexivity] end.
  all: match goal with |- context [super_loop ?n ?nr ?nc ?E ?ax ?q ?sc ?uc ?fc ?ux ?s1 ?sx ?D] =>
     pose proof (super_loop_conj n nr nc E ax q sc uc fc ux sx s1 D D) as K end.
  all: match type of K with ?P -> _ => assert (Z0 : P) by (intros; now rewrite Cconj_RtoC) end; specialize (K Z0).
  all: match type of K with match ?X with _ => _ end => destruct X as [A|e] end.
  all: match type of K with match ?X with _ => _ end => destruct X as [A'|e'] end; cbn [bind]; try contradiction; try reflexivity; try (exact K).
  all: try match goal with |- context [if ?b then _ else _] => destruct b; [reflexivity|] end.
  all: intros i j; rewrite K, Cconj_div_R; reflexivity.
Qed.
Print Assumptions dynamical_matrix_conjugate.

Theorem dynamical_matrix_real_at_gamma : forall (u s : cell R) (ar : args) (B : m3 R) (fc : nat -> nat -> R) (D : cmat),
  dyn_at u s ar B fc (V3 0 0 0)%R = Ok D -> forall i j, snd (D i j) = 0%R.
Proof.
  intros u s ar B fc D HD i j. pose proof (dynamical_matrix_conjugate u s ar B fc (V3 0 0 0)%R) as K.
  replace (vscale (-1)%R (V3 0 0 0)%R) with (V3 0 0 0)%R in K by (apply v3_ext; cbn; ring).
  rewrite HD in K. specialize (K i j). destruct (D i j) as [x y]. unfold Cconj in K. cbn in *. injection K as E. lra.
Qed.
Print Assumptions dynamical_matrix_real_at_gamma.

(** * The dynamical matrix as a lattice sum *)
(** Unit cell with selected atoms [tr] (three entries of xyz_true each) and masses,
    accepted arguments, supercell built by the code. *)
Record phonon_setup (u s : cell R) (ar : args) (L : m3 R) (pos : list (v3 R)) (tr : list Z) (ms : list R) (N1 N2 N3 : nat) (p1 p2 p3 : Z) : Prop := {
  ph_unit : exists ty num kd, complete u L ty num kd pos;
  ph_args : valid_args ar (Z.of_nat N1) (Z.of_nat N2) (Z.of_nat N3) p1 p2 p3;
  ph_N : 0 < N1 /\ 0 < N2 /\ 0 < N3;
  ph_super : build_super u ar = Ok s;
  ph_true : c_true u = Some tr;
  ph_xyz : c_xyz u = Some (flat_map (fun a => [a; a; a]) tr);
  ph_range : Forall (fun a => 0 <= a < Z.of_nat (length pos))%Z tr;
  ph_mass : c_mass u = Some ms;
  ph_masslen : length ms = 3 * length tr }.
Definition csum3 (N1 N2 N3 : nat) (f : nat -> nat -> nat -> C) : C :=
  csum N1 (fun x => csum N2 (fun y => csum N3 (fun z => f x y z))).
(** Force constant between component al of copy (x,y,z) of selected atom a and
    component be of selected atom b. *)
Definition fc_entry (fc : nat -> nat -> R) (tr : list Z) (N1 N2 N3 a x y z al b be : nat) : R :=
  fc (3 * (Z.to_nat (nth a tr 0%Z) * (N1 * N2 * N3) + ((x * N2 + y) * N3 + z)) + al) (3 * b + be).
Definition atom_pos (pos : list (v3 R)) (tr : list Z) (a : nat) : v3 R := nth (Z.to_nat (nth a tr 0%Z)) pos v3z.

Theorem dynamical_matrix_phase_sum :
  forall (u s : cell R) (ar : args) L pos tr ms N1 N2 N3 p1 p2 p3 (B : m3 R) (fc : nat -> nat -> R) (k : v3 R),
    phonon_setup u s ar L pos tr ms N1 N2 N3 p1 p2 p3 ->
    exists D, dyn_at u s ar B fc k = Ok D /\
      forall a b al be, a < length tr -> b < length tr -> al < 3 -> be < 3 ->
        D (3 * a + al) (3 * b + be) =
        Cdiv (csum3 N1 N2 N3 (fun x y z =>
                Cmult (RtoC (fc_entry fc tr N1 N2 N3 a x y z al b be))
                      (cis (vdot (vmul k B) (min_image (pbc_axes [p1; p2; p3] (scaled (Z.of_nat N1) (Z.of_nat N2) (Z.of_nat N3) L))
                         (vsub (copy_pos L (atom_pos pos tr a) (Z.of_nat x) (Z.of_nat y) (Z.of_nat z)) (atom_pos pos tr b)))))))
             (RtoC (sqrt (nth (3 * a + al) ms 0%R * nth (3 * b + be) ms 0%R))).
Proof.
  intros u s ar L pos tr ms N1 N2 N3 p1 p2 p3 B fc k [(ty & num & kd & HC) HV (H1 & H2 & H3) HS HT HX HRg HM HL].
  destruct (super_cell_correct u ar L ty num kd pos N1 N2 N3 p1 p2 p3 HC HV H1 H2 H3) as (s0 & ES & [S1 (ts & S2 & S2l & _) S3 S4 (ps & S5 & S5l & S5n)]).
  destruct (super_selection u s0 ar tr N1 N2 N3 p1 p2 p3 HV HT) as (s1 & tq & E2 & _ & Q1 & Q2 & Q3 & Q4 & _ & Q5 & Q6 & (xs & Q7 & Q8 & Q9)).
  unfold build_super in HS. rewrite ES in HS. cbn [bind] in HS. rewrite E2 in HS. injection HS as ->.
  set (E := N1 * N2 * N3) in *. assert (HE : 0 < E) by (apply Nat.mul_pos_pos; [apply Nat.mul_pos_pos|]; assumption).
  destruct HV as (V1 & V2 & V3'). destruct HC as (C1 & C2 & C3 & C4 & C5 & C6).
  unfold dyn_at. rewrite V1, V2. cbn [of_option bind]. rewrite (enlarge_valid _ _ _ _ _ _ V3'). cbn [bind].
  rewrite HX, HT, Q7, Q3, S2, Q2, S5, C5, Q4, S1, HM. cbn [of_option bind].
  replace (Z.to_nat (Z.of_nat N1 * Z.of_nat N2 * Z.of_nat N3)) with E by (unfold E; lia).
  set (ux := flat_map (fun a : Z => [a; a; a]) tr).
  assert (Lux : length ux = 3 * length tr) by (unfold ux; rewrite Nat.mul_comm; apply flat_map_const_length; reflexivity).
  assert (Nux : forall b be, b < length tr -> be < 3 -> nth (3 * b + be) ux 0%Z = nth b tr 0%Z).
  { intros b be Hb Hbe. apply nth_error_nth. unfold ux.
    rewrite (flat_map_const_nth (fun a : Z => [a; a; a]) tr 3 b be (nth b tr 0%Z)); [destruct be as [|[|[|be]]]; [reflexivity..|lia]|reflexivity|apply nth_error_nth'; exact Hb|exact Hbe]. }
  rewrite S2l, C6 in *. set (axes := pbc_axes [p1; p2; p3] (scaled (Z.of_nat N1) (Z.of_nat N2) (Z.of_nat N3) L)). set (q := vmul k B).
  assert (TQ : forall j, j < length tq -> exists a c, a < length tr /\ c < E /\ j = E * a + c /\ nth j tq 0%Z = (nth a tr 0 * Z.of_nat E + Z.of_nat c)%Z).
  { intros j Hj. rewrite Q5 in Hj. exists (j / E), (j mod E).
    assert (A1 : j / E < length tr) by (apply Nat.div_lt_upper_bound; lia). assert (A2 : j mod E < E) by (apply Nat.mod_upper_bound; lia).
    split; [exact A1|]. split; [exact A2|]. split; [apply Nat.div_mod; lia|]. apply nth_error_nth.
    rewrite (Nat.div_mod j E) at 1 by lia. apply Q6; [apply nth_error_nth'; exact A1|exact A2]. }
  assert (Lxs : length xs = length tr * (E * 3)) by (rewrite Q8, Q5; lia).
  assert (XS : forall t, t < length xs -> exists a c al, a < length tr /\ c < E /\ al < 3 /\ t = 3 * (E * a + c) + al /\ nth t xs 0%Z = (nth a tr 0 * Z.of_nat E + Z.of_nat c)%Z).
  { intros t Ht. assert (Hj : t / 3 < length tq) by (apply Nat.div_lt_upper_bound; lia). destruct (TQ _ Hj) as (a & c & A1 & A2 & A3 & A4).
    exists a, c, (t mod 3). pose proof (Nat.mod_upper_bound t 3 ltac:(lia)) as MB. pose proof (Nat.div_mod t 3 ltac:(lia)) as DM.
    split; [exact A1|]. split; [exact A2|]. split; [exact MB|]. split; [lia|]. rewrite <- A4. apply nth_error_nth. rewrite DM at 1. apply Q9; [|exact MB]. apply nth_error_nth'. exact Hj. }
  assert (RG : forall a, a < length tr -> (0 <= nth a tr 0 < Z.of_nat (length pos))%Z).
  { intros a Ha. rewrite Forall_forall in HRg. apply HRg. apply nth_In. exact Ha. }
  destruct (super_loop_ok (length ux) (3 * (length pos * E)) (3 * length tr) E axes q ps pos fc ux eq_refl ltac:(lia)) with (sxyz := xs) (s1 := 0) (D := fun _ _ : nat => RtoC 0) as (D & ED & VD).
  { apply Forall_forall. intros a Ha. unfold ux in Ha. apply in_flat_map in Ha as (a' & Ha' & [<-|[<-|[<-|[]]]]); rewrite Forall_forall in HRg; now apply HRg. }
  { apply Forall_forall. intros v Hv. apply (In_nth _ _ 0%Z) in Hv as (t & Ht & <-). destruct (XS t Ht) as (a & c & al & A1 & A2 & A3 & _ & ->). specialize (RG a A1). rewrite S5l. nia. }
  { apply Forall_forall. intros v Hv. apply (In_nth _ _ 0%Z) in Hv as (t & Ht & <-). destruct (XS t Ht) as (a & c & al & A1 & A2 & A3 & _ & ->). specialize (RG a A1).
    assert (nth a tr 0 * Z.of_nat E + Z.of_nat c + 1 <= Z.of_nat (length pos) * Z.of_nat E)%Z by nia. lia. }
  { intros t Ht. rewrite Lux. cbn [Nat.add]. rewrite Lxs in Ht. assert (t / (E * 3) < length tr) by (apply Nat.div_lt_upper_bound; lia). pose proof (Nat.mod_upper_bound t 3 ltac:(lia)). lia. }
  rewrite ED. cbn [bind]. rewrite HL, Lux, Nat.eqb_refl. cbn [negb]. eexists. split; [reflexivity|].
  intros a b al be Ha Hb Hal Hbe. cbv beta. f_equal. rewrite VD by lia. rewrite Cplus_0_l, Lxs.
  rewrite (csum_ext _ _ (fun t => if Nat.eqb (3 * a + al) ((t / (E * 3)) * 3 + t mod 3) then (fun t => phase_term axes q ps pos fc ux t (nth t xs 0%Z) (3 * b + be)) t else RtoC 0)) by reflexivity.
  rewrite row_regroup by assumption. unfold csum3. unfold E at 1. rewrite csum_mul, csum_mul. apply csum_ext. intros x Hx. apply csum_ext. intros y Hy. apply csum_ext. intros z Hz.
  pose proof (copy_lt N1 N2 N3 x y z Hx Hy Hz) as Hc. fold E in Hc.
  replace (N3 * (N2 * x + y) + z) with ((x * N2 + y) * N3 + z) by lia. set (c := (x * N2 + y) * N3 + z) in *.
  assert (XV : nth (3 * (E * a + c) + al) xs 0%Z = (nth a tr 0 * Z.of_nat E + Z.of_nat c)%Z).
  { apply nth_error_nth. apply Q9; [|exact Hal]. apply Q6; [apply nth_error_nth'; exact Ha|exact Hc]. }
  unfold phase_term. rewrite XV, Nux by assumption. specialize (RG a Ha).
  replace (Z.to_nat (nth a tr 0%Z * Z.of_nat E + Z.of_nat c)) with (E * Z.to_nat (nth a tr 0%Z) + c) by nia.
  replace ((3 * (E * a + c) + al) mod 3) with al by (replace (3 * (E * a + c) + al) with (al + (E * a + c) * 3) by lia; rewrite Nat.mod_add by lia; symmetry; apply Nat.mod_small; exact Hal).
  unfold fc_entry. fold E. fold c. replace (3 * (Z.to_nat (nth a tr 0%Z) * E + c) + al) with ((E * Z.to_nat (nth a tr 0%Z) + c) * 3 + al) by lia.
  assert (PV : nth (E * Z.to_nat (nth a tr 0%Z) + c) ps v3z = copy_pos L (atom_pos pos tr a) (Z.of_nat x) (Z.of_nat y) (Z.of_nat z)).
  { apply nth_error_nth. unfold E, c. apply S5n; try assumption. unfold atom_pos. apply nth_error_nth'. lia. }
  rewrite PV. reflexivity.
Qed.
Print Assumptions dynamical_matrix_phase_sum.

(** * C37 *)
(** k is commensurate with the supercell along the periodic directions. *)
Definition commensurate (k : v3 R) (N1 N2 N3 : nat) (p1 p2 p3 : Z) : Prop :=
  (p1 <> 0%Z -> exists m : Z, (vx k * INR N1)%R = IZR m) /\
  (p2 <> 0%Z -> exists m : Z, (vy k * INR N2)%R = IZR m) /\
  (p3 <> 0%Z -> exists m : Z, (vz k * INR N3)%R = IZR m).

Lemma recip_phase (L : m3 R) (k : v3 R) : det L <> 0%R ->
  vdot (vmul k (reciprocal PI L)) (r1 L) = (2 * PI * vx k)%R /\
  vdot (vmul k (reciprocal PI L)) (r2 L) = (2 * PI * vy k)%R /\
  vdot (vmul k (reciprocal PI L)) (r3 L) = (2 * PI * vz k)%R.
Proof.
  intros HL. destruct (reciprocal_lattice_dual PI L HL) as (A1 & A2 & A3 & A4 & A5 & A6 & A7 & A8 & A9).
  assert (X : forall w, vdot (vmul k (reciprocal PI L)) w = (vx k * vdot w (r1 (reciprocal PI L)) + vy k * vdot w (r2 (reciprocal PI L)) + vz k * vdot w (r3 (reciprocal PI L)))%R).
  { intros w. generalize (reciprocal PI L). intros [[b1 b2 b3] [b4 b5 b6] [b7 b8 b9]]. destruct k as [k1 k2 k3], w as [w1 w2 w3]. cbn. ring. }
  rewrite !X. rewrite A1, A2, A3, A4, A5, A6, A7, A8, A9. cbn. repeat split; ring.
Qed.
Lemma axes_phase (L : m3 R) (k : v3 R) N1 N2 N3 p1 p2 p3 : det L <> 0%R -> commensurate k N1 N2 N3 p1 p2 p3 ->
  forall a, In a (pbc_axes [p1; p2; p3] (scaled (Z.of_nat N1) (Z.of_nat N2) (Z.of_nat N3) L)) ->
    exists m, vdot (vmul k (reciprocal PI L)) a = (2 * PI * IZR m)%R.
Proof.
  intros HL (K1 & K2 & K3) a Ha. destruct (recip_phase L k HL) as (B1 & B2 & B3).
  assert (SC : forall q (v : v3 R) n, vdot q (vscale (fofZ (Z.of_nat n)) v) = (INR n * vdot q v)%R).
  { intros q v n. rewrite INR_IZR_INZ. destruct q as [q1 q2 q3], v as [v1 v2 v3']. cbn. ring. }
  unfold pbc_axes in Ha. apply in_map_iff in Ha as ([p w] & <- & Hin). apply filter_In in Hin as (Hin & Hp).
  apply negb_true_iff, Z.eqb_neq in Hp. cbn [combine In] in Hin. destruct Hin as [Q|[Q|[Q|[]]]]; injection Q as <- <-; cbn [snd scaled r1 r2 r3]; rewrite SC.
  - destruct (K1 Hp) as (m & E). exists m. rewrite B1, <- E. ring.
  - destruct (K2 Hp) as (m & E). exists m. rewrite B2, <- E. ring.
  - destruct (K3 Hp) as (m & E). exists m. rewrite B3, <- E. ring.
Qed.

(** At commensurate k the matrix is the plain Fourier sum: the choice of periodic
    images does not matter. *)
Theorem commensurate_fourier_sum :
  forall (u s : cell R) (ar : args) L pos tr ms N1 N2 N3 p1 p2 p3 (fc : nat -> nat -> R) (k : v3 R),
    phonon_setup u s ar L pos tr ms N1 N2 N3 p1 p2 p3 -> det L <> 0%R -> commensurate k N1 N2 N3 p1 p2 p3 ->
    exists D, dyn_at u s ar (reciprocal PI L) fc k = Ok D /\
      forall a b al be, a < length tr -> b < length tr -> al < 3 -> be < 3 ->
        D (3 * a + al) (3 * b + be) =
        Cdiv (csum3 N1 N2 N3 (fun x y z =>
                Cmult (RtoC (fc_entry fc tr N1 N2 N3 a x y z al b be))
                      (cis (vdot (vmul k (reciprocal PI L))
                         (vsub (copy_pos L (atom_pos pos tr a) (Z.of_nat x) (Z.of_nat y) (Z.of_nat z)) (atom_pos pos tr b))))))
             (RtoC (sqrt (nth (3 * a + al) ms 0%R * nth (3 * b + be) ms 0%R))).
Proof.
  intros u s ar L pos tr ms N1 N2 N3 p1 p2 p3 fc k HP HL HK.
  destruct (dynamical_matrix_phase_sum u s ar L pos tr ms N1 N2 N3 p1 p2 p3 (reciprocal PI L) fc k HP) as (D & E & V).
  exists D. split; [exact E|]. intros a b al be Ha Hb Hal Hbe. rewrite V by assumption. f_equal. unfold csum3.
  apply csum_ext. intros x Hx. apply csum_ext. intros y Hy. apply csum_ext. intros z Hz. f_equal. apply phase_min_image. apply axes_phase; assumption.
Qed.
Print Assumptions commensurate_fourier_sum.

(** Force constants of a crystal: translation invariance and exchange symmetry
    together say that the force on copy c of a due to b equals the transpose of that on
    the opposite copy of b due to a. *)
Definition opposite (N x : nat) : nat := (N - x) mod N.
Definition crystal_symmetric (fc : nat -> nat -> R) (tr : list Z) (N1 N2 N3 : nat) : Prop :=
  forall a b al be x y z, a < length tr -> b < length tr -> al < 3 -> be < 3 -> x < N1 -> y < N2 -> z < N3 ->
    fc_entry fc tr N1 N2 N3 a x y z al b be = fc_entry fc tr N1 N2 N3 b (opposite N1 x) (opposite N2 y) (opposite N3 z) be a al.

Lemma opposite_lt N x : x < N -> opposite N x < N.
Proof. intros H. apply Nat.mod_upper_bound. lia. Qed.
Lemma opposite_sum N x : x < N -> (x = 0 /\ opposite N x = 0) \/ (0 < x /\ opposite N x = N - x).
Proof.
  intros H. unfold opposite. destruct (Nat.eq_dec x 0) as [->|Hx]; [left; split; [reflexivity|]; rewrite Nat.sub_0_r; apply Nat.mod_same; lia|].
  right. split; [lia|]. apply Nat.mod_small. lia.
Qed.
Lemma opposite_invol N x : x < N -> opposite N (opposite N x) = x.
Proof.
  intros H. destruct (opposite_sum N x H) as [(-> & E)|(Hx & E)]; rewrite E.
  - unfold opposite. rewrite Nat.sub_0_r. apply Nat.mod_same. lia.
  - unfold opposite. replace (N - (N - x)) with x by lia. apply Nat.mod_small. exact H.
Qed.
Lemma csum3_opposite N1 N2 N3 f : csum3 N1 N2 N3 f = csum3 N1 N2 N3 (fun x y z => f (opposite N1 x) (opposite N2 y) (opposite N3 z)).
Proof.
  unfold csum3. rewrite (csum_reindex N1 _ (opposite N1) (opposite_lt N1) (opposite_invol N1)).
  apply csum_ext. intros x _. rewrite (csum_reindex N2 _ (opposite N2) (opposite_lt N2) (opposite_invol N2)).
  apply csum_ext. intros y _. apply (csum_reindex N3 _ (opposite N3) (opposite_lt N3) (opposite_invol N3)).
Qed.
Lemma csum3_conj N1 N2 N3 f : Cconj (csum3 N1 N2 N3 f) = csum3 N1 N2 N3 (fun x y z => Cconj (f x y z)).
Proof. unfold csum3. rewrite csum_conj. apply csum_ext. intros x _. rewrite csum_conj. apply csum_ext. intros y _. apply csum_conj. Qed.
Lemma csum3_ext N1 N2 N3 f g : (forall x y z, x < N1 -> y < N2 -> z < N3 -> f x y z = g x y z) -> csum3 N1 N2 N3 f = csum3 N1 N2 N3 g.
Proof. intros H. unfold csum3. apply csum_ext. intros x Hx. apply csum_ext. intros y Hy. apply csum_ext. intros z Hz. auto. Qed.

Theorem dynamical_matrix_hermitian :
  forall (u s : cell R) (ar : args) L pos tr ms N1 N2 N3 p1 p2 p3 (fc : nat -> nat -> R) (k : v3 R),
    phonon_setup u s ar L pos tr ms N1 N2 N3 p1 p2 p3 -> det L <> 0%R -> commensurate k N1 N2 N3 p1 p2 p3 ->
    crystal_symmetric fc tr N1 N2 N3 ->
    exists D, dyn_at u s ar (reciprocal PI L) fc k = Ok D /\
      forall i j, i < 3 * length tr -> j < 3 * length tr -> D i j = Cconj (D j i).
Proof.
  intros u s ar L pos tr ms N1 N2 N3 p1 p2 p3 fc k HP HL HK HSym.
  destruct (commensurate_fourier_sum u s ar L pos tr ms N1 N2 N3 p1 p2 p3 fc k HP HL HK) as (D & E & V).
  exists D. split; [exact E|]. intros i j Hi Hj.
  pose proof (Nat.div_mod i 3 ltac:(lia)) as Di. pose proof (Nat.mod_upper_bound i 3 ltac:(lia)) as Mi.
  pose proof (Nat.div_mod j 3 ltac:(lia)) as Dj. pose proof (Nat.mod_upper_bound j 3 ltac:(lia)) as Mj.
  set (a := i / 3) in *. set (al := i mod 3) in *. set (b := j / 3) in *. set (be := j mod 3) in *. clearbody a al b be. subst i j.
  assert (Ha : a < length tr) by lia. assert (Hb : b < length tr) by lia.
  rewrite (V a b al be), (V b a be al) by assumption. rewrite Cconj_div_R. f_equal; [|do 2 f_equal; apply Rmult_comm].
  rewrite csum3_conj. etransitivity; [|symmetry; apply csum3_opposite].
  apply csum3_ext. intros x y z Hx Hy Hz. rewrite Cconj_mult, Cconj_RtoC, cis_conj.
  rewrite (HSym a b al be x y z) by assumption. f_equal.
  destruct (recip_phase L k HL) as (B1 & B2 & B3). set (q := vmul k (reciprocal PI L)) in *. clearbody q.
  assert (AX : forall N (p : Z) (kc : R) t, (p = 0%Z -> Z.of_nat N = 1%Z) -> (p <> 0%Z -> exists m : Z, (kc * INR N)%R = IZR m) -> t < N ->
     exists m : Z, (kc * (IZR (Z.of_nat t) + IZR (Z.of_nat (opposite N t))) = IZR m)%R).
  { intros N p kc t H1 H2 Ht. destruct (opposite_sum N t Ht) as [(-> & ->)|(Hp & ->)].
    - exists 0%Z. cbn. ring.
    - destruct (Z.eq_dec p 0) as [Hz0|Hz0]; [specialize (H1 Hz0); lia|]. destruct (H2 Hz0) as (m & E'). exists m.
      rewrite <- E', INR_IZR_INZ, <- plus_IZR. do 2 f_equal. lia. }
  destruct (ph_args _ _ _ _ _ _ _ _ _ _ _ _ _ HP) as (_ & _ & W1 & W2 & W3). destruct HK as (K1 & K2 & K3).
  destruct (AX N1 p1 (vx k) x W1 K1 Hx) as (m1 & E1). destruct (AX N2 p2 (vy k) y W2 K2 Hy) as (m2 & E2). destruct (AX N3 p3 (vz k) z W3 K3 Hz) as (m3 & E3).
  assert (CP : forall r w (X Y Z : Z), vdot q (vsub (copy_pos L r X Y Z) w) = (vdot q r - vdot q w + 2 * PI * (IZR X * vx k + IZR Y * vy k + IZR Z * vz k))%R).
  { intros r w X Y Z.
    transitivity (vdot q r - vdot q w + (IZR X * vdot q (r1 L) + IZR Y * vdot q (r2 L) + IZR Z * vdot q (r3 L)))%R; [|rewrite B1, B2, B3; ring].
    unfold copy_pos. destruct L as [l1 l2 l3]. destruct q as [q1 q2 q3], r as [x1 x2 x3], w as [w1 w2 w3], l1 as [l11 l12 l13], l2 as [l21 l22 l23], l3 as [l31 l32 l33]. cbn. ring. }
  rewrite !CP. rewrite <- (cis_period (- _)%R (m1 + m2 + m3)). f_equal. rewrite !plus_IZR, <- E1, <- E2, <- E3. ring.
Qed.
Print Assumptions dynamical_matrix_hermitian.

(** * C36 *)
Lemma csum3_flat N1 N2 N3 (f : nat -> C) : csum3 N1 N2 N3 (fun x y z => f ((x * N2 + y) * N3 + z)) = csum (N1 * N2 * N3) f.
Proof.
  unfold csum3. rewrite csum_mul, csum_mul. apply csum_ext. intros x _. apply csum_ext. intros y _. apply csum_ext. intros z _. f_equal. lia.
Qed.
Theorem gamma_matrix_sum :
  forall (u s : cell R) (ar : args) L pos tr ms N1 N2 N3 p1 p2 p3 (B : m3 R) (fc : nat -> nat -> R),
    phonon_setup u s ar L pos tr ms N1 N2 N3 p1 p2 p3 ->
    exists D, dyn_at u s ar B fc (V3 0 0 0)%R = Ok D /\
      forall a b al be, a < length tr -> b < length tr -> al < 3 -> be < 3 ->
        D (3 * a + al) (3 * b + be) =
        Cdiv (csum (N1 * N2 * N3) (fun c => RtoC (fc (3 * (Z.to_nat (nth a tr 0%Z) * (N1 * N2 * N3) + c) + al) (3 * b + be))))
             (RtoC (sqrt (nth (3 * a + al) ms 0%R * nth (3 * b + be) ms 0%R))).
Proof.
  intros u s ar L pos tr ms N1 N2 N3 p1 p2 p3 B fc HP.
  destruct (dynamical_matrix_phase_sum u s ar L pos tr ms N1 N2 N3 p1 p2 p3 B fc (V3 0 0 0)%R HP) as (D & E & V).
  exists D. split; [exact E|]. intros a b al be Ha Hb Hal Hbe. rewrite V by assumption. f_equal.
  rewrite <- csum3_flat. apply csum3_ext. intros x y z _ _ _. unfold fc_entry.
  assert (Z0 : forall p, vdot (vmul (V3 0 0 0)%R B) p = 0%R).
  { intros [q1 q2 q3]. destruct B as [[b1 b2 b3] [b4 b5 b6] [b7 b8 b9]]. cbn. ring. }
  rewrite Z0, cis_0. ring.
Qed.
Print Assumptions gamma_matrix_sum.

(** Translation invariance of the forces: moving one atom b, the forces on all selected
    supercell atoms add up to zero. *)
Definition sum_rule (fc : nat -> nat -> R) (tr : list Z) (E : nat) : Prop :=
  forall b al be, b < length tr -> al < 3 -> be < 3 ->
    csum (length tr) (fun a => csum E (fun c => RtoC (fc (3 * (Z.to_nat (nth a tr 0%Z) * E + c) + al) (3 * b + be)))) = RtoC 0.
(** one mass per atom, positive *)
Definition atom_masses (ms : list R) (n : nat) (M : nat -> R) : Prop :=
  forall a al, a < n -> al < 3 -> nth (3 * a + al) ms 0%R = M a /\ (0 < M a)%R.

Lemma sqrt_weight (M1 M2 : R) (z : C) : (0 < M1)%R -> (0 < M2)%R -> Cmult (RtoC (sqrt M1)) (Cdiv z (RtoC (sqrt (M1 * M2)))) = Cdiv z (RtoC (sqrt M2)).
Proof.
  intros H1 H2. rewrite sqrt_mult by lra. pose proof (sqrt_lt_R0 _ H1). pose proof (sqrt_lt_R0 _ H2). rewrite RtoC_mult. field.
  split; intros X; apply RtoC_inj in X; lra.
Qed.
(** A uniform translation (mass weighted) is annihilated from the left by D(Gamma)... *)
Theorem acoustic_sum_rule :
  forall (u s : cell R) (ar : args) L pos tr ms N1 N2 N3 p1 p2 p3 (B : m3 R) (fc : nat -> nat -> R) (M : nat -> R),
    phonon_setup u s ar L pos tr ms N1 N2 N3 p1 p2 p3 ->
    sum_rule fc tr (N1 * N2 * N3) -> atom_masses ms (length tr) M ->
    exists D, dyn_at u s ar B fc (V3 0 0 0)%R = Ok D /\
      forall b al be, b < length tr -> al < 3 -> be < 3 ->
        csum (length tr) (fun a => Cmult (RtoC (sqrt (M a))) (D (3 * a + al) (3 * b + be))) = RtoC 0.
Proof.
  intros u s ar L pos tr ms N1 N2 N3 p1 p2 p3 B fc M HP HS HM.
  destruct (gamma_matrix_sum u s ar L pos tr ms N1 N2 N3 p1 p2 p3 B fc HP) as (D & E & V). exists D. split; [exact E|].
  intros b al be Hb Hal Hbe.
  rewrite (csum_ext _ _ (fun a => Cmult (csum (N1 * N2 * N3) (fun c => RtoC (fc (3 * (Z.to_nat (nth a tr 0%Z) * (N1 * N2 * N3) + c) + al) (3 * b + be)))) (Cinv (RtoC (sqrt (M b)))))).
  - rewrite csum_scal_r, HS by assumption. ring.
  - intros a Ha. rewrite V by assumption. destruct (HM a al Ha Hal) as (-> & P1). destruct (HM b be Hb Hbe) as (-> & P2). rewrite sqrt_weight by assumption. reflexivity.
Qed.
Print Assumptions acoustic_sum_rule.
(** ... and, for crystal force constants, the three uniform translations are zero modes. *)
Theorem translations_are_zero_modes :
  forall (u s : cell R) (ar : args) L pos tr ms N1 N2 N3 p1 p2 p3 (fc : nat -> nat -> R) (M : nat -> R),
    phonon_setup u s ar L pos tr ms N1 N2 N3 p1 p2 p3 -> det L <> 0%R ->
    sum_rule fc tr (N1 * N2 * N3) -> crystal_symmetric fc tr N1 N2 N3 -> atom_masses ms (length tr) M ->
    exists D, dyn_at u s ar (reciprocal PI L) fc (V3 0 0 0)%R = Ok D /\
      forall i be, i < 3 * length tr -> be < 3 ->
        csum (length tr) (fun b => Cmult (D i (3 * b + be)) (RtoC (sqrt (M b)))) = RtoC 0.
Proof.
  intros u s ar L pos tr ms N1 N2 N3 p1 p2 p3 fc M HP HL HS HC HM.
  destruct (acoustic_sum_rule u s ar L pos tr ms N1 N2 N3 p1 p2 p3 (reciprocal PI L) fc M HP HS HM) as (D & E & V).
  destruct (dynamical_matrix_hermitian u s ar L pos tr ms N1 N2 N3 p1 p2 p3 fc (V3 0 0 0)%R HP HL) as (D' & E' & H').
  { repeat split; intros _; exists 0%Z; cbn; ring. }
  { exact HC. }
  exists D. split; [exact E|]. rewrite E in E'. injection E' as <-. intros i be Hi Hbe.
  pose proof (Nat.div_mod i 3 ltac:(lia)) as Di. pose proof (Nat.mod_upper_bound i 3 ltac:(lia)) as Mi.
  set (a := i / 3) in *. set (al := i mod 3) in *. clearbody a al. subst i.
  specialize (V a be al ltac:(lia) Hbe Mi). apply (f_equal Cconj) in V. rewrite csum_conj, Cconj_RtoC in V. rewrite <- V.
  apply csum_ext. intros b Hb. rewrite Cconj_mult, Cconj_RtoC, (H' (3 * a + al) (3 * b + be)) by lia. ring.
Qed.
Print Assumptions translations_are_zero_modes.

(** * Witness: monatomic chain with a two-cell supercell *)
Definition ch_lat : m3 R := (M3 (V3 1 0 0) (V3 0 1 0) (V3 0 0 1))%R.
Definition ch_unit : cell R :=
  mkCell (Some ch_lat) (Some ["C"%string]) (Some [1]%Z) true (Some Cartesian) (Some [V3 0 0 0]%R) (Some [0]%Z) (Some [0; 0; 0]%Z) (Some [1; 1; 1]%R).
Definition ch_args : args := mkArgs None (Some [2; 1; 1]%Z) (Some [1; 0; 0]%Z).
Definition ch_fc (i j : nat) : R := if Nat.eqb (i mod 3) j then (if i <? 3 then 2 else -2)%R else 0%R.

Lemma ch_setup : exists s, phonon_setup ch_unit s ch_args ch_lat [V3 0 0 0]%R [0]%Z [1; 1; 1]%R 2 1 1 1 0 0.
Proof.
  assert (HC : complete ch_unit ch_lat ["C"%string] [1]%Z Cartesian [V3 0 0 0]%R) by (repeat split; reflexivity).
  assert (HV : valid_args ch_args (Z.of_nat 2) (Z.of_nat 1) (Z.of_nat 1) 1 0 0) by (repeat split; intros; lia).
  destruct (super_cell_correct _ _ _ _ _ _ _ 2 1 1 _ _ _ HC HV ltac:(lia) ltac:(lia) ltac:(lia)) as (s0 & E0 & _).
  destruct (super_selection ch_unit s0 ch_args [0]%Z 2 1 1 1 0 0 HV eq_refl) as (s & ts & E1 & _).
  exists s. split; try reflexivity.
  - do 3 eexists. exact HC.
  - exact HV.
  - lia.
  - unfold build_super. rewrite E0. exact E1.
  - repeat constructor; cbn; lia.
Qed.
Lemma ch_det : det ch_lat <> 0%R.
Proof. cbn. lra. Qed.
Lemma ch_sym : crystal_symmetric ch_fc [0]%Z 2 1 1.
Proof.
  intros a b al be x y z Ha Hb Hal Hbe Hx Hy Hz. cbn in Ha, Hb. assert (a = 0) by lia. assert (b = 0) by lia. assert (y = 0) by lia. assert (z = 0) by lia. subst a b y z.
  destruct al as [|[|[|al]]]; [| | |lia]; (destruct be as [|[|[|be]]]; [| | |lia]); (destruct x as [|[|x]]; [| |lia]); reflexivity.
Qed.
Lemma ch_sum : sum_rule ch_fc [0]%Z (2 * 1 * 1).
Proof.
  intros b al be Hb Hal Hbe. cbn in Hb. assert (b = 0) by lia. subst b.
  destruct al as [|[|[|al]]]; [| | |lia]; (destruct be as [|[|[|be]]]; [| | |lia]); cbn; unfold Cplus, RtoC; cbn; f_equal; ring.
Qed.
Example phonon_witness :
  exists s, phonon_setup ch_unit s ch_args ch_lat [V3 0 0 0]%R [0]%Z [1; 1; 1]%R 2 1 1 1 0 0 /\ det ch_lat <> 0%R /\
    crystal_symmetric ch_fc [0]%Z 2 1 1 /\ sum_rule ch_fc [0]%Z (2 * 1 * 1) /\ atom_masses [1; 1; 1]%R 1 (fun _ => 1%R) /\
    commensurate (V3 (1/2) 0 0)%R 2 1 1 1 0 0.
Proof.
  destruct ch_setup as (s & H). exists s. split; [exact H|]. split; [exact ch_det|]. split; [exact ch_sym|]. split; [exact ch_sum|]. split.
  - intros a al Ha Hal. assert (a = 0) by lia. subst a. destruct al as [|[|[|al]]]; [| | |lia]; cbn; split; lra.
  - repeat split; intros Hp; try contradiction. exists 1%Z. cbn. lra.
Qed.

(** Away from commensurate k the matrix need not be Hermitian, even for symmetric and
    translation-invariant force constants: only one of two equally near images enters. *)
Theorem hermitian_refuted_at_interpolated_k :
  exists (u s : cell R) (ar : args) L pos tr ms N1 N2 N3 p1 p2 p3 (fc : nat -> nat -> R) (k : v3 R) (D : cmat),
    phonon_setup u s ar L pos tr ms N1 N2 N3 p1 p2 p3 /\ det L <> 0%R /\ crystal_symmetric fc tr N1 N2 N3 /\ sum_rule fc tr (N1 * N2 * N3) /\
    dyn_at u s ar (reciprocal PI L) fc k = Ok D /\ D 0 0 <> Cconj (D 0 0).
Proof.
  destruct ch_setup as (s & HS).
  destruct (dynamical_matrix_phase_sum _ _ _ _ _ _ _ _ _ _ _ _ _ (reciprocal PI ch_lat) ch_fc (V3 (1/4) 0 0)%R HS) as (D & E & V).
  exists ch_unit, s, ch_args, ch_lat, [V3 0 0 0]%R, [0]%Z, [1; 1; 1]%R, 2, 1, 1, 1%Z, 0%Z, 0%Z, ch_fc, (V3 (1/4) 0 0)%R, D.
  split; [exact HS|]. split; [exact ch_det|]. split; [exact ch_sym|]. split; [exact ch_sum|]. split; [exact E|].
  specialize (V 0 0 0 0 ltac:(cbn; lia) ltac:(cbn; lia) ltac:(lia) ltac:(lia)). change (3 * 0 + 0) with 0 in V. rewrite V.
  destruct (recip_phase ch_lat (V3 (1/4) 0 0)%R ch_det) as (B1 & _ & _). set (q := vmul (V3 (1/4) 0 0)%R (reciprocal PI ch_lat)) in *. clearbody q.
  unfold csum3. cbn [csum nth].
  set (ax := pbc_axes [1%Z; 0%Z; 0%Z] (scaled (Z.of_nat 2) (Z.of_nat 1) (Z.of_nat 1) ch_lat)).
  assert (AX : ax = [V3 2 0 0]%R) by (unfold ax, pbc_axes; cbn; f_equal; apply v3_ext; cbn; ring).
  assert (P0 : vsub (copy_pos ch_lat (atom_pos [V3 0 0 0]%R [0%Z] 0) (Z.of_nat 0) (Z.of_nat 0) (Z.of_nat 0)) (atom_pos [V3 0 0 0]%R [0%Z] 0) = (V3 0 0 0)%R :> v3 R) by (apply v3_ext; cbn; ring).
  assert (P1 : vsub (copy_pos ch_lat (atom_pos [V3 0 0 0]%R [0%Z] 0) (Z.of_nat 1) (Z.of_nat 0) (Z.of_nat 0)) (atom_pos [V3 0 0 0]%R [0%Z] 0) = (V3 1 0 0)%R :> v3 R) by (apply v3_ext; cbn; ring).
  rewrite P0, P1, AX. clear P0 P1 AX.
  assert (M : forall t, (t = 0 \/ t = 1)%R -> min_image [V3 2 0 0]%R (V3 t 0 0)%R = (V3 t 0 0)%R).
  { intros t Ht. unfold min_image, images, around. cbn [map fold_left].
    unfold closer at 3. destruct (Rlt_dec _ _) as [H|_]; [exfalso; cbn in H; destruct Ht; subst t; lra|].
    unfold closer at 2. destruct (Rlt_dec _ _) as [H|_]; [exfalso; cbn in H; destruct Ht; subst t; lra|].
    unfold closer. destruct (Rlt_dec _ _) as [H|_]; [exfalso; cbn in H; destruct Ht; subst t; lra|reflexivity]. }
  rewrite (M 0%R), (M 1%R) by auto. cbn [r1 ch_lat] in B1. cbn [vx] in B1.
  replace (vdot q (V3 1 0 0)%R) with (PI / 2)%R by (rewrite B1; field).
  replace (vdot q (V3 0 0 0)%R) with 0%R by (destruct q as [q1 q2 q3]; cbn; ring).
  rewrite Rmult_1_r, sqrt_1. unfold cis. rewrite cos_0, sin_0, cos_PI2, sin_PI2. unfold fc_entry. cbn.
  intros H. apply (f_equal snd) in H. cbn in H. field_simplify in H. lra.
Qed.
Print Assumptions hermitian_refuted_at_interpolated_k.
