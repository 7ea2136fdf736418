(** Proofs about supercells (model: Super.v). *)
From Coq Require Import String Ascii ZArith Arith Bool Lia List Permutation Sorted Field.
From Verif Require Import Base Field Args Cell Super.
Import ListNotations.
Local Open Scope list_scope.
Local Open Scope nat_scope.

Lemma py_range_length n : length (py_range n) = Z.to_nat n.
Proof. unfold py_range. now rewrite map_length, seq_length. Qed.
Lemma py_range_nth n k : k < Z.to_nat n -> nth_error (py_range n) k = Some (Z.of_nat k).
Proof.
  intros H. unfold py_range. rewrite nth_error_map.
  rewrite (nth_error_nth' (seq 0 (Z.to_nat n)) 0) by (now rewrite seq_length).
  rewrite seq_nth by exact H. reflexivity.
Qed.
Lemma py_range_in n z : In z (py_range n) <-> (0 <= z < n)%Z.
Proof.
  unfold py_range. rewrite in_map_iff. split.
  - intros (k & <- & Hk). apply in_seq in Hk. lia.
  - intros H. exists (Z.to_nat z). split; [lia|]. apply in_seq. lia.
Qed.

Lemma enlarge_mod (e1 e2 e3 p1 p2 p3 : Z) :
  enlarge [e1; e2; e3] [p1; p2; p3] =
  Ok ((if Z.eqb p1 0 then 1 else e1) * (if Z.eqb p2 0 then 1 else e2) * (if Z.eqb p3 0 then 1 else e3))%Z.
Proof.
  unfold enlarge. cbn [enlarge_from py_nth nth_error of_option bind].
  destruct (Z.eqb p1 0), (Z.eqb p2 0), (Z.eqb p3 0); cbn [enlarge_from bind py_nth nth_error of_option]; f_equal; ring.
Qed.

Lemma enlarge_valid e1 e2 e3 p1 p2 p3 :
  ((p1 = 0 -> e1 = 1) /\ (p2 = 0 -> e2 = 1) /\ (p3 = 0 -> e3 = 1))%Z ->
  enlarge [e1; e2; e3] [p1; p2; p3] = Ok (e1 * e2 * e3)%Z.
Proof.
  intros (H1 & H2 & H3). rewrite enlarge_mod.
  destruct (Z.eqb_spec p1 0), (Z.eqb_spec p2 0), (Z.eqb_spec p3 0);
    repeat match goal with H : ?p = 0%Z -> ?e = 1%Z, E : ?p = 0%Z |- _ => rewrite (H E) in *; clear H end; f_equal; ring.
Qed.

Section S.
  Context {A : Type} {F : Fld A}.
  Add Field fld_A3 : (@f_theory A F).

  Lemma super_direct_length e1 e2 e3 :
    length (super_direct (A := A) e1 e2 e3) = Z.to_nat e1 * (Z.to_nat e2 * Z.to_nat e3).
  Proof.
    unfold super_direct.
    erewrite flat_map_const_length; [rewrite py_range_length; reflexivity|].
    intros x _. erewrite flat_map_const_length; [rewrite py_range_length; reflexivity|].
    intros y _. rewrite map_length. apply py_range_length.
  Qed.

  Lemma super_direct_nth e1 e2 e3 x y z :
    x < Z.to_nat e1 -> y < Z.to_nat e2 -> z < Z.to_nat e3 ->
    nth_error (super_direct (A := A) e1 e2 e3) ((x * Z.to_nat e2 + y) * Z.to_nat e3 + z) =
    Some (V3 (fdiv (fofZ (Z.of_nat x)) (fofZ e1)) (fdiv (fofZ (Z.of_nat y)) (fofZ e2)) (fdiv (fofZ (Z.of_nat z)) (fofZ e3))).
  Proof.
    intros Hx Hy Hz. unfold super_direct.
    replace ((x * Z.to_nat e2 + y) * Z.to_nat e3 + z)
      with ((Z.to_nat e2 * Z.to_nat e3) * x + (Z.to_nat e3 * y + z)) by ring.
    erewrite flat_map_const_nth; [| |apply py_range_nth, Hx|nia].
    2:{ intros a _. erewrite flat_map_const_length; [rewrite py_range_length; reflexivity|].
        intros b _. rewrite map_length. apply py_range_length. }
    erewrite flat_map_const_nth; [| |apply py_range_nth, Hy|exact Hz].
    2:{ intros b _. rewrite map_length. apply py_range_length. }
    rewrite nth_error_map, py_range_nth by exact Hz. reflexivity.
  Qed.

  (** A cell read from a file has these fields set. *)
  Definition complete (u : cell A) (L : m3 A) (ty : list string) (num : list Z) (k : coord) (pos : list (v3 A)) : Prop :=
    c_lat u = Some L /\ c_type u = Some ty /\ c_num u = Some num /\ c_coord u = Some k /\ c_cart u = Some pos /\
    length ty = length pos.

  Definition valid_args (ar : args) (e1 e2 e3 p1 p2 p3 : Z) : Prop :=
    a_enl ar = Some [e1; e2; e3] /\ a_pbc ar = Some [p1; p2; p3] /\
    ((p1 = 0 -> e1 = 1) /\ (p2 = 0 -> e2 = 1) /\ (p3 = 0 -> e3 = 1))%Z.

  Definition scaled (e1 e2 e3 : Z) (L : m3 A) : m3 A :=
    M3 (vscale (fofZ e1) (r1 L)) (vscale (fofZ e2) (r2 L)) (vscale (fofZ e3) (r3 L)).

  Lemma set_super_cell_gen u ar L ty num k pos e1 e2 e3 p1 p2 p3 :
    complete u L ty num k pos -> valid_args ar e1 e2 e3 p1 p2 p3 ->
    set_super_cell u ar =
    (let! sd := super_direct_array (e1 * e2 * e3) e1 e2 e3 in
     Ok (mkCell (Some (scaled e1 e2 e3 L))
          (Some (flat_map (fun t => repeat t (Z.to_nat (e1 * e2 * e3))) ty))
          (Some (map (fun n => (n * (e1 * e2 * e3))%Z) num)) false (Some k)
          (Some (flat_map (fun r => map (fun s => vadd r (vmul s (scaled e1 e2 e3 L))) sd) pos)) None None None)).
  Proof.
    intros (HL & Ht & Hn & Hk & Hp & Hl) (He & Hpb & Hm).
    unfold set_super_cell. rewrite HL, He. cbn [of_option bind py_nth nth_error].
    rewrite Hpb. cbn [of_option bind]. rewrite (enlarge_valid _ _ _ _ _ _ Hm). cbn [bind].
    rewrite Ht, Hn, Hk, Hp. cbn [of_option bind].
    destruct (super_direct_array _ e1 e2 e3) as [sd|e]; cbn [bind]; [|reflexivity].
    assert (E : length (flat_map (fun t => repeat t (Z.to_nat (e1 * e2 * e3))) ty) = length ty * Z.to_nat (e1 * e2 * e3)).
    { apply flat_map_const_length. intros t _. apply repeat_length. }
    rewrite E, Hl, Nat.eqb_refl. reflexivity.
  Qed.

  Lemma super_array_pos e1 e2 e3 : (0 < e1)%Z -> (0 < e2)%Z -> (0 < e3)%Z ->
    super_direct_array (A := A) (e1 * e2 * e3) e1 e2 e3 = Ok (super_direct e1 e2 e3).
  Proof.
    intros H1 H2 H3. unfold super_direct_array.
    rewrite super_direct_length.
    assert (E : Z.of_nat (Z.to_nat e1 * (Z.to_nat e2 * Z.to_nat e3)) = (e1 * e2 * e3)%Z) by (rewrite !Nat2Z.inj_mul, !Z2Nat.id by lia; ring).
    rewrite E.
    destruct (Z.ltb_spec (e1 * e2 * e3) 0); [nia|].
    rewrite !Z.ltb_irrefl. reflexivity.
  Qed.

  (** The position of copy (x,y,z). *)
  Definition copy_pos (L : m3 A) (r : v3 A) (x y z : Z) : v3 A :=
    vadd r (vadd (vadd (vscale (fofZ x) (r1 L)) (vscale (fofZ y) (r2 L))) (vscale (fofZ z) (r3 L))).

  Lemma copy_pos_eq e1 e2 e3 L r (x y z : Z) : (0 < e1)%Z -> (0 < e2)%Z -> (0 < e3)%Z ->
    vadd r (vmul (V3 (fdiv (fofZ x) (fofZ e1)) (fdiv (fofZ y) (fofZ e2)) (fdiv (fofZ z) (fofZ e3))) (scaled e1 e2 e3 L))
    = copy_pos L r x y z.
  Proof.
    intros H1 H2 H3.
    assert (N : forall e, (0 < e)%Z -> (fofZ e : A) <> f0).
    { intros e He E. apply fofZ_inj0 in E. lia. }
    pose proof (N e1 H1). pose proof (N e2 H2). pose proof (N e3 H3).
    unfold copy_pos, scaled, vmul, vadd, vscale. destruct L as [[a b c] [d e f] [g h i]], r as [rx ry rz].
    cbn [vx vy vz r1 r2 r3]. f_equal; field; auto.
  Qed.

  Record super_spec (u s : cell A) (L : m3 A) (ty : list string) (num : list Z) (k : coord) (pos : list (v3 A))
     (N1 N2 N3 : nat) : Prop := {
    ss_lat : c_lat s = Some (scaled (Z.of_nat N1) (Z.of_nat N2) (Z.of_nat N3) L);
    ss_type : exists ts, c_type s = Some ts /\ length ts = length ty * (N1 * N2 * N3) /\
       forall i t x y z, nth_error ty i = Some t -> x < N1 -> y < N2 -> z < N3 ->
         nth_error ts ((N1 * N2 * N3) * i + ((x * N2 + y) * N3 + z)) = Some t;
    ss_num : c_num s = Some (map (fun n => (n * Z.of_nat (N1 * N2 * N3))%Z) num);
    ss_coord : c_coord s = Some k;
    ss_cart : exists ps, c_cart s = Some ps /\ length ps = length pos * (N1 * N2 * N3) /\
       forall i r x y z, nth_error pos i = Some r -> x < N1 -> y < N2 -> z < N3 ->
         nth_error ps ((N1 * N2 * N3) * i + ((x * N2 + y) * N3 + z)) =
         Some (copy_pos L r (Z.of_nat x) (Z.of_nat y) (Z.of_nat z)) }.

  Lemma nth_error_repeat {B} (t : B) n k : k < n -> nth_error (repeat t n) k = Some t.
  Proof. revert k; induction n as [|n IH]; intros [|k] H; cbn; try lia; auto. apply IH; lia. Qed.

  Lemma copy_lt N1 N2 N3 x y z : x < N1 -> y < N2 -> z < N3 -> (x * N2 + y) * N3 + z < N1 * N2 * N3.
  Proof.
    intros Hx Hy Hz.
    assert (E : S (x * N2 + y) <= N1 * N2).
    { apply Nat.le_trans with (S x * N2); [cbn; lia|]. apply Nat.mul_le_mono_r; lia. }
    apply Nat.lt_le_trans with (S (x * N2 + y) * N3); [cbn; lia|]. apply Nat.mul_le_mono_r; exact E.
  Qed.

  Lemma super_cell_correct u ar L ty num k pos (N1 N2 N3 : nat) p1 p2 p3 :
    complete u L ty num k pos ->
    valid_args ar (Z.of_nat N1) (Z.of_nat N2) (Z.of_nat N3) p1 p2 p3 ->
    0 < N1 -> 0 < N2 -> 0 < N3 ->
    exists s, set_super_cell u ar = Ok s /\ super_spec u s L ty num k pos N1 N2 N3.
  Proof.
    intros HC HV H1 H2 H3.
    rewrite (set_super_cell_gen _ _ _ _ _ _ _ _ _ _ _ _ _ HC HV).
    rewrite super_array_pos by lia. cbn [bind]. eexists. split; [reflexivity|].
    assert (EZ : (Z.of_nat N1 * Z.of_nat N2 * Z.of_nat N3)%Z = Z.of_nat (N1 * N2 * N3)) by lia.
    assert (EN : Z.to_nat (Z.of_nat N1 * Z.of_nat N2 * Z.of_nat N3) = N1 * N2 * N3) by lia.
    split; cbn.
    - reflexivity.
    - rewrite EN. eexists. split; [reflexivity|]. split.
      + apply flat_map_const_length. intros; apply repeat_length.
      + intros i t x y z Hi Hx Hy Hz.
        assert (HB : (x * N2 + y) * N3 + z < N1 * N2 * N3) by (apply copy_lt; assumption).
        erewrite flat_map_const_nth; [apply nth_error_repeat, HB| |exact Hi|exact HB].
        intros; apply repeat_length.
    - rewrite EZ. reflexivity.
    - reflexivity.
    - eexists. split; [reflexivity|].
      assert (EL : forall r, length (map (fun s => vadd r (vmul s (scaled (Z.of_nat N1) (Z.of_nat N2) (Z.of_nat N3) L)))
                 (super_direct (Z.of_nat N1) (Z.of_nat N2) (Z.of_nat N3))) = N1 * N2 * N3).
      { intros r. rewrite map_length, super_direct_length, !Nat2Z.id. ring. }
      split.
      + apply flat_map_const_length. intros; apply EL.
      + intros i r x y z Hi Hx Hy Hz.
        assert (HB : (x * N2 + y) * N3 + z < N1 * N2 * N3) by (apply copy_lt; assumption).
        erewrite flat_map_const_nth; [| |exact Hi|exact HB]; [|intros; apply EL].
        rewrite nth_error_map.
        pose proof (super_direct_nth (Z.of_nat N1) (Z.of_nat N2) (Z.of_nat N3) x y z) as HN.
        rewrite !Nat2Z.id in HN. rewrite (HN Hx Hy Hz). cbn [option_map]. f_equal.
        apply copy_pos_eq; lia.
  Qed.

  (** every copy number is some (x,y,z), exactly one *)
  Lemma copy_index N1 N2 N3 k : k < N1 * N2 * N3 ->
    exists x y z, x < N1 /\ y < N2 /\ z < N3 /\ k = (x * N2 + y) * N3 + z.
  Proof.
    intros H. assert (N3 <> 0) by (intros ->; lia). assert (N2 <> 0) by (intros ->; lia).
    exists (k / N3 / N2), ((k / N3) mod N2), (k mod N3).
    pose proof (Nat.div_mod k N3 ltac:(lia)). pose proof (Nat.div_mod (k / N3) N2 ltac:(lia)).
    pose proof (Nat.mod_upper_bound k N3 ltac:(lia)). pose proof (Nat.mod_upper_bound (k / N3) N2 ltac:(lia)).
    assert (k / N3 / N2 < N1).
    { apply Nat.div_lt_upper_bound; [lia|]. apply Nat.div_lt_upper_bound; [lia|]. nia. }
    repeat split; auto.
    remember (k / N3) as q. remember (k mod N3) as z. remember (q / N2) as x. remember (q mod N2) as y.
    replace (x * N2 + y) with q by lia. lia.
  Qed.
  Lemma copy_index_inj N2 N3 x y z x' y' z' :
    y < N2 -> z < N3 -> y' < N2 -> z' < N3 ->
    (x * N2 + y) * N3 + z = (x' * N2 + y') * N3 + z' -> x = x' /\ y = y' /\ z = z'.
  Proof.
    intros Hy Hz Hy' Hz' E.
    assert (E1 : x * N2 + y = x' * N2 + y').
    { apply (f_equal (fun n => n / N3)) in E.
      rewrite !Nat.div_add_l, !Nat.div_small in E by lia. lia. }
    assert (x = x').
    { apply (f_equal (fun n => n / N2)) in E1.
      rewrite !Nat.div_add_l, !Nat.div_small in E1 by lia. lia. }
    subst x'. assert (y = y') by lia. subst y'. split; [reflexivity|]. split; [reflexivity|]. lia.
  Qed.

  (** ** degenerate enlargements that the argument check lets through *)
  Lemma super_neg u ar L ty num k pos e1 e2 e3 p1 p2 p3 :
    complete u L ty num k pos -> valid_args ar e1 e2 e3 p1 p2 p3 ->
    (e1 * e2 * e3 < 0)%Z -> set_super_cell u ar = Err EValue.
  Proof.
    intros HC HV H. rewrite (set_super_cell_gen _ _ _ _ _ _ _ _ _ _ _ _ _ HC HV).
    unfold super_direct_array. destruct (Z.ltb_spec (e1 * e2 * e3) 0); [reflexivity|lia].
  Qed.
  Lemma super_uninit u ar L ty num k pos e1 e2 e3 p1 p2 p3 :
    complete u L ty num k pos -> valid_args ar e1 e2 e3 p1 p2 p3 ->
    (0 < e1 * e2 * e3)%Z -> (e1 < 0 \/ e2 < 0 \/ e3 < 0)%Z -> set_super_cell u ar = Err EUninit.
  Proof.
    intros HC HV H H0. rewrite (set_super_cell_gen _ _ _ _ _ _ _ _ _ _ _ _ _ HC HV).
    unfold super_direct_array. destruct (Z.ltb_spec (e1 * e2 * e3) 0); [lia|].
    rewrite super_direct_length.
    replace (Z.to_nat e1 * (Z.to_nat e2 * Z.to_nat e3)) with 0.
    - cbn. destruct (Z.ltb_spec 0 (e1 * e2 * e3)); [reflexivity|lia].
    - destruct H0 as [H0|[H0|H0]].
      + replace (Z.to_nat e1) with 0 by lia. lia.
      + replace (Z.to_nat e2) with 0 by lia. lia.
      + replace (Z.to_nat e3) with 0 by lia. lia.
  Qed.
  Lemma super_zero u ar L ty num k pos e1 e2 e3 p1 p2 p3 :
    complete u L ty num k pos -> valid_args ar e1 e2 e3 p1 p2 p3 ->
    (e1 * e2 * e3 = 0)%Z ->
    exists s, set_super_cell u ar = Ok s /\ c_type s = Some [] /\ c_cart s = Some [].
  Proof.
    intros HC HV H. rewrite (set_super_cell_gen _ _ _ _ _ _ _ _ _ _ _ _ _ HC HV).
    rewrite H. unfold super_direct_array. cbn [Z.ltb Z.compare].
    rewrite super_direct_length.
    assert (E : Z.to_nat e1 * (Z.to_nat e2 * Z.to_nat e3) = 0).
    { apply Z.mul_eq_0 in H as [H|H]; [apply Z.mul_eq_0 in H as [H|H]|]; subst; cbn; lia. }
    assert (El : length (super_direct (A:=A) e1 e2 e3) = 0) by (rewrite super_direct_length; exact E).
    rewrite E. destruct (super_direct e1 e2 e3); [|discriminate]. cbn.
    eexists. split; [reflexivity|]. cbn. split; f_equal.
    - clear. induction ty; cbn; auto.
    - clear. induction pos; cbn; auto.
  Qed.

  (** argument check bypassed: a positive enlargement different from 1 along a
      non-periodic direction always raises *)
  Lemma super_bypassed u ar L ty num k pos e1 e2 e3 p1 p2 p3 :
    complete u L ty num k pos ->
    a_enl ar = Some [e1; e2; e3] -> a_pbc ar = Some [p1; p2; p3] ->
    (0 < e1)%Z -> (0 < e2)%Z -> (0 < e3)%Z ->
    ((p1 = 0 /\ e1 <> 1) \/ (p2 = 0 /\ e2 <> 1) \/ (p3 = 0 /\ e3 <> 1))%Z ->
    set_super_cell u ar = Err EIndex.
  Proof.
    intros (HL & Ht & Hn & Hk & Hp & Hl) He Hpb P1 P2 P3 Hm.
    unfold set_super_cell. rewrite HL, He. cbn [of_option bind py_nth nth_error].
    rewrite Hpb. cbn [of_option bind]. rewrite enlarge_mod. cbn [bind].
    rewrite Ht, Hn, Hk, Hp. cbn [of_option bind].
    set (E := ((if (p1 =? 0) then 1 else e1) * (if (p2 =? 0) then 1 else e2) * (if (p3 =? 0) then 1 else e3))%Z).
    assert (HE : (0 < E < e1 * e2 * e3)%Z).
    { unfold E. destruct (Z.eqb_spec p1 0), (Z.eqb_spec p2 0), (Z.eqb_spec p3 0); 
      (split; [nia|]); destruct Hm as [[? ?]|[[? ?]|[? ?]]]; try congruence;
      repeat match goal with
      | |- (1 * _ * _ < _)%Z => rewrite Z.mul_1_l
      end.
      all: assert (1 <= e1 /\ 1 <= e2 /\ 1 <= e3)%Z as (? & ? & ?) by lia.
      all: assert (1 <= e1 * e2 /\ 1 <= e2 * e3 /\ 1 <= e1 * e3)%Z as (? & ? & ?) by nia.
      all: nia. }
    unfold super_direct_array. destruct (Z.ltb_spec E 0); [lia|].
    rewrite super_direct_length.
    assert (EE : Z.of_nat (Z.to_nat e1 * (Z.to_nat e2 * Z.to_nat e3)) = (e1 * e2 * e3)%Z) by (rewrite !Nat2Z.inj_mul, !Z2Nat.id by lia; ring).
    rewrite EE. destruct (Z.ltb_spec (e1 * e2 * e3) E); [lia|].
    destruct (Z.ltb_spec E (e1 * e2 * e3)); [reflexivity|lia].
  Qed.

  (** ** periodicity *)
  Definition lat_comb (L : m3 A) (n1 n2 n3 : Z) : v3 A :=
    vadd (vadd (vscale (fofZ n1) (r1 L)) (vscale (fofZ n2) (r2 L))) (vscale (fofZ n3) (r3 L)).

  Lemma lat_comb_add L a b c a' b' c' :
    vadd (lat_comb L a b c) (lat_comb L a' b' c') = lat_comb L (a + a') (b + b') (c + c').
  Proof.
    unfold lat_comb. rewrite !fofZ_add. vring_gen.
  Qed.
  Lemma lat_comb_scaled L e1 e2 e3 a b c :
    lat_comb (scaled e1 e2 e3 L) a b c = lat_comb L (a * e1) (b * e2) (c * e3).
  Proof.
    unfold lat_comb, scaled. rewrite !fofZ_mul. vring_gen.
  Qed.
  Lemma vadd_cancel_l (u v w : v3 A) : vadd u v = vadd u w -> v = w.
  Proof.
    destruct u as [a b c], v as [d e f], w as [g h i]. unfold vadd; cbn. intros E. injection E as E1 E2 E3.
    assert (K : forall x y z : A, fadd x y = fadd x z -> y = z).
    { intros x y z Ex. replace y with (fsub (fadd x y) x) by ring. rewrite Ex. ring. }
    f_equal; eapply K; eauto.
  Qed.
  Lemma lat_comb_inj L a b c a' b' c' : det L <> f0 ->
    lat_comb L a b c = lat_comb L a' b' c' -> a = a' /\ b = b' /\ c = c'.
  Proof.
    intros HD E.
    assert (G : forall a b c, lat_comb L a b c = vmul (V3 (fofZ a) (fofZ b) (fofZ c)) L) by reflexivity.
    rewrite !G in E.
    apply (f_equal (fun v => vmul v (minv_raw L))) in E.
    rewrite !vmul_assoc, minv_r, !vmul_id in E by exact HD.
    injection E as E1 E2 E3. apply fofZ_inj in E1, E2, E3. auto.
  Qed.

  (** Every crystal atom is congruent, modulo the supercell lattice, to exactly
      one copy. *)
  Lemma crystal_cover L (r : v3 A) (N1 N2 N3 : nat) (n1 n2 n3 : Z) :
    det L <> f0 -> 0 < N1 -> 0 < N2 -> 0 < N3 ->
    exists! xyz : nat * nat * nat,
      let '(x, y, z) := xyz in
      x < N1 /\ y < N2 /\ z < N3 /\
      exists m1 m2 m3,
        vadd r (lat_comb L n1 n2 n3) =
        vadd (copy_pos L r (Z.of_nat x) (Z.of_nat y) (Z.of_nat z))
             (lat_comb (scaled (Z.of_nat N1) (Z.of_nat N2) (Z.of_nat N3) L) m1 m2 m3).
  Proof.
    intros HD H1 H2 H3.
    assert (EX : forall x y z m1 m2 m3,
      vadd (copy_pos L r x y z) (lat_comb (scaled (Z.of_nat N1) (Z.of_nat N2) (Z.of_nat N3) L) m1 m2 m3)
      = vadd r (lat_comb L (x + m1 * Z.of_nat N1) (y + m2 * Z.of_nat N2) (z + m3 * Z.of_nat N3))).
    { intros. rewrite lat_comb_scaled. unfold copy_pos. fold (lat_comb L x y z).
      rewrite <- vadd_assoc, lat_comb_add. reflexivity. }
    assert (DM : forall n N, 0 < N -> exists x m, x < N /\ n = (Z.of_nat x + m * Z.of_nat N)%Z).
    { intros n N HN. exists (Z.to_nat (n mod Z.of_nat N)), (n / Z.of_nat N)%Z.
      pose proof (Z.mod_pos_bound n (Z.of_nat N) ltac:(lia)).
      pose proof (Z.div_mod n (Z.of_nat N) ltac:(lia)). split; [lia|].
      rewrite Z2Nat.id by lia. lia. }
    assert (UQ : forall N x x' m m', x < N -> x' < N ->
       (Z.of_nat x + m * Z.of_nat N = Z.of_nat x' + m' * Z.of_nat N)%Z -> x = x').
    { intros N x x' m m' Hx Hx' E.
      assert (Z.of_nat x = Z.of_nat x').
      { rewrite <- (Z.mod_small (Z.of_nat x) (Z.of_nat N)) by lia.
        rewrite <- (Z.mod_small (Z.of_nat x') (Z.of_nat N)) by lia.
        rewrite <- (Z_mod_plus_full (Z.of_nat x) m), E, Z_mod_plus_full. reflexivity. }
      lia. }
    destruct (DM n1 N1 H1) as (x & m1 & Hx & En1).
    destruct (DM n2 N2 H2) as (y & m2 & Hy & En2).
    destruct (DM n3 N3 H3) as (z & m3 & Hz & En3).
    exists (x, y, z). split.
    - repeat split; auto. exists m1, m2, m3. rewrite EX, En1, En2, En3. reflexivity.
    - intros [[x' y'] z'] (Hx' & Hy' & Hz' & m1' & m2' & m3' & E).
      rewrite EX in E. apply vadd_cancel_l, lat_comb_inj in E; [|exact HD].
      destruct E as (E1 & E2 & E3). rewrite En1 in E1. rewrite En2 in E2. rewrite En3 in E3.
      f_equal; [f_equal|]; eapply UQ; eauto.
  Qed.

  (** ** selection *)
  Lemma super_selection (u s : cell A) ar tr (N1 N2 N3 : nat) p1 p2 p3 :
    valid_args ar (Z.of_nat N1) (Z.of_nat N2) (Z.of_nat N3) p1 p2 p3 ->
    c_true u = Some tr ->
    exists s' ts, set_super_ind_true s u ar = Ok s' /\ c_sel s' = true /\ c_true s' = Some ts /\
      c_cart s' = c_cart s /\ c_type s' = c_type s /\ c_lat s' = c_lat s /\ c_num s' = c_num s /\
      length ts = length tr * (N1 * N2 * N3) /\
      (forall i a k, nth_error tr i = Some a -> k < N1 * N2 * N3 ->
         nth_error ts ((N1 * N2 * N3) * i + k) = Some (a * Z.of_nat (N1 * N2 * N3) + Z.of_nat k)%Z) /\
      (exists xs, c_xyz s' = Some xs /\ length xs = 3 * length ts /\
         forall j a d, nth_error ts j = Some a -> d < 3 -> nth_error xs (3 * j + d) = Some a).
  Proof.
    intros (He & Hpb & Hm) Ht. unfold set_super_ind_true. rewrite He, Hpb. cbn [of_option bind].
    rewrite (enlarge_valid _ _ _ _ _ _ Hm). cbn [bind]. rewrite Ht. cbn [of_option bind].
    replace (Z.of_nat N1 * Z.of_nat N2 * Z.of_nat N3)%Z with (Z.of_nat (N1 * N2 * N3)) by lia.
    set (E := N1 * N2 * N3).
    eexists. eexists. split; [reflexivity|].
    cbn [c_sel c_true c_cart c_type c_lat c_num c_xyz]. repeat (split; [reflexivity|]).
    assert (CL : forall i : Z, In i tr -> length (map (fun k => (i * Z.of_nat E + k)%Z) (py_range (Z.of_nat E))) = E).
    { intros. rewrite map_length, py_range_length. lia. }
    split; [apply flat_map_const_length, CL|]. split.
    - intros i a k Hi Hk. erewrite flat_map_const_nth; [|exact CL|exact Hi|exact Hk].
      rewrite nth_error_map, py_range_nth by lia. reflexivity.
    - eexists. split; [reflexivity|]. split.
      + erewrite flat_map_const_length; [apply Nat.mul_comm|]. reflexivity.
      + intros j a d Hj Hd. erewrite flat_map_const_nth; [|reflexivity|exact Hj|exact Hd].
        destruct d as [|[|[|d]]]; [reflexivity..|lia].
  Qed.
End S.
