(** Property theorems: cells, supercells and displaced cells (C05-C16).
    Models: Cell.v, Super.v, Displace.v.  Scalars are any exact field [Fld A]
    (Qc and R are instances), see DESIGN.md for the float idealisation. *)
From Coq Require Import String Ascii ZArith Arith Bool Lia List Permutation Sorted QArith Qcanon.
From Verif Require Import Base Dec Field Args Cell CellFacts Super SuperFacts Displace DisplaceFacts.
Import ListNotations.
Local Open Scope string_scope.
Local Open Scope list_scope.
Local Open Scope nat_scope.

Definition qz (z : Z) : Qc := Q2Qc (inject_Z z).
Definition vq (x y z : Z) : v3 Qc := V3 (qz x) (qz y) (qz z).

(** A slab with two species used as a witness below. *)
Definition ex_lat : m3 Qc := M3 (vq 3 0 0) (vq 1 4 0) (vq 0 0 20).
Definition ex_unit : cell Qc :=
  mkCell (Some ex_lat) (Some ["Ga"; "As"; "As"]) (Some [1; 2]%Z) true (Some Cartesian)
         (Some [vq 0 0 1; vq 1 2 3; vq 2 2 5]) (Some [0; 2]%Z) (Some [0; 0; 0; 2; 2; 2]%Z) None.
Definition ex_args : args := mkArgs (Some (Q2Qc (1#50))) (Some [2; 3; 1]%Z) (Some [1; 1; 0]%Z).

(** * C05 *)

(** A setter that raises changes nothing, and after any history of assignments
    (exceptions caught) types and positions, if both set, have the same number
    of atoms and the stored selections are sorted. *)
Theorem setter_histories_keep_invariants :
  forall {A} {F : Fld A} (ops : list (cell_op A)),
    let c := run_ops cell_init ops in
    (forall t p, c_type c = Some t -> c_cart c = Some p -> length t = length p) /\
    (forall l, c_true c = Some l -> StronglySorted Z.le l) /\
    (forall l, c_xyz c = Some l -> StronglySorted Z.le l).
Proof. intros A F ops. destruct (history_invariant ops) as (H1 & H2 & H3). auto. Qed.
Print Assumptions setter_histories_keep_invariants.

Theorem raising_setter_changes_nothing :
  forall {A} {F : Fld A} (c : cell A) (o : cell_op A) (e : err),
    run_op c o = Err e -> step_op c o = c.
Proof. intros A F c o e H. unfold step_op. now rewrite H. Qed.
Print Assumptions raising_setter_changes_nothing.

(** Once types and positions are set, no sequence of assignments changes the
    number of atoms, and the selection stays in range. *)
Theorem atom_count_is_stable :
  forall {A} {F : Fld A} (c : cell A) (n : nat) (ops : list (cell_op A)),
    has_atoms c n -> has_atoms (run_ops c ops) n.
Proof. intros A F c n ops. exact (has_atoms_run ops c n). Qed.
Print Assumptions atom_count_is_stable.

Theorem selection_stays_in_range :
  forall {A} {F : Fld A} (c : cell A) (n : nat) (ops : list (cell_op A)),
    has_atoms c n -> selection_in_range c -> selection_in_range (run_ops c ops).
Proof. intros A F c n ops. exact (selection_range_run ops c n). Qed.
Print Assumptions selection_stays_in_range.

Example stable_witness : has_atoms ex_unit 3 /\ selection_in_range ex_unit.
Proof.
  split; [split; eexists; split; reflexivity|]. intros t l Ht Hl. cbn in *. injection Ht as <-. injection Hl as <-.
  repeat constructor; cbn; lia.
Qed.

(** Exactly when each shape-checking setter accepts. *)
Theorem setter_acceptance :
  forall {A} {F : Fld A} (c : cell A),
    (forall t, is_ok (set_atom_type c t) = true <-> (forall p, c_cart c = Some p -> length t = length p)) /\
    (forall n, is_ok (set_num_atom c n) = true <-> (forall p, c_cart c = Some p -> fold_right Z.add 0%Z n = Z.of_nat (length p))) /\
    (forall m, is_ok (set_lattice c m) = true <-> (length m = 3 /\ Forall (fun r => length r = 3) m)) /\
    (forall m, is_ok (set_atom_cart c m) = true <->
       (Forall (fun r => length r = 3) m /\ forall t, c_type c = Some t -> length m = length t /\ 0 < length m)) /\
    (forall m, is_ok (set_atom_direct c m) = true <->
       (Forall (fun r => length r = 3) m /\ c_lat c <> None /\ 0 < length m /\ forall t, c_type c = Some t -> length m = length t)) /\
    (forall l, is_ok (set_mass_true_field c l) = true <-> (forall t, c_true c = Some t -> length l = 3 * length t)) /\
    (forall l, is_ok (set_xyz_true c l) = true <-> (forall t z, c_true c = Some t -> In z l -> In z t)).
Proof.
  intros A F c. split; [|split; [|split; [|apply and_assoc; split; [|split]]]].
  - intros t. unfold set_atom_type. destruct (c_cart c) as [p|].
    + destruct (Nat.eqb_spec (length t) (length p)) as [E|E]; cbn; split.
      * intros _ p' Hp; congruence.
      * reflexivity.
      * discriminate.
      * intros H; exfalso; apply E, H; reflexivity.
    + cbn. split; [intros _; discriminate|reflexivity].
  - intros n. unfold set_num_atom, zsum. destruct (c_cart c) as [p|].
    + destruct (Z.eqb_spec (fold_right Z.add 0%Z n) (Z.of_nat (length p))) as [E|E]; cbn; split.
      * intros _ p' Hp; congruence.
      * reflexivity.
      * discriminate.
      * intros H; exfalso; apply E, H; reflexivity.
    + cbn. split; [intros _; discriminate|reflexivity].
  - assert (R : forall r : list A, (exists v, row3 r = Some v) <-> length r = 3).
    { intros [|a [|b [|c0 [|d r]]]]; cbn; split; try (intros (v & H); discriminate); try discriminate; eauto. }
    intros m. unfold set_lattice. split.
    + destruct m as [|a [|b [|d [|x m]]]]; cbn; try discriminate.
      destruct (row3 a) as [u|] eqn:Ea, (row3 b) as [v|] eqn:Eb, (row3 d) as [w|] eqn:Ed; try discriminate.
      intros _. split; [reflexivity|]. repeat constructor; apply R; eauto.
    + intros (Hl & Hf). destruct m as [|a [|b [|d [|x m]]]]; cbn in Hl; try discriminate.
      inversion Hf as [|? ? Ha Hf1]; inversion Hf1 as [|? ? Hb Hf2]; inversion Hf2 as [|? ? Hd _]; subst.
      apply R in Ha as (u & Ha). apply R in Hb as (v & Hb). apply R in Hd as (w & Hd).
      cbn. rewrite Ha, Hb, Hd. reflexivity.
  - assert (R : forall r : list A, (exists v, row3 r = Some v) <-> length r = 3).
    { intros [|a [|b [|c0 [|d r]]]]; cbn; split; try (intros (v & H); discriminate); try discriminate; eauto. }
    assert (G : forall m : list (list A), (exists p, rows3 m = Some p) <-> Forall (fun r => length r = 3) m).
    { induction m as [|r m IH]; cbn; [split; eauto|].
      split.
      - intros (p & H). destruct (row3 r) eqn:Er; [|discriminate]. destruct (rows3 m) eqn:Em; [|discriminate].
        constructor; [apply R; eauto|apply IH; eauto].
      - intros H. inversion H as [|? ? Hr Hm]; subst. apply R in Hr as (v & ->). apply IH in Hm as (p & ->). eauto. }
    split.
    { intros m. unfold set_atom_cart. destruct (rows3 m) as [p|] eqn:Em.
      + pose proof (rows3_length _ _ Em) as El. assert (HF : Forall (fun r => length r = 3) m) by (apply G; eauto).
        destruct (c_type c) as [t|].
        * destruct (shape_okP t p) as [E|E]; cbn; split.
          -- intros _. split; [exact HF|]. intros t' Ht'. injection Ht' as <-. lia.
          -- reflexivity.
          -- discriminate.
          -- intros (_ & H). exfalso. apply E. rewrite El. apply H; reflexivity.
        * cbn. split; [|reflexivity]. intros _. split; [exact HF|discriminate].
      + cbn. split; [discriminate|]. intros (H & _). apply G in H as (p & Hp). congruence. }
    intros m. unfold set_atom_direct. destruct (rows3 m) as [p|] eqn:Em.
    + pose proof (rows3_length _ _ Em) as El. assert (HF : Forall (fun r => length r = 3) m) by (apply G; eauto).
      destruct (c_type c) as [t|].
      * destruct (shape_okP t p) as [E|E]; cbn [is_ok].
        -- destruct (c_lat c); cbn [is_ok]; split; try discriminate; try reflexivity.
           ++ intros _. split; [exact HF|]. split; [discriminate|]. split; [lia|]. intros t' Ht'. injection Ht' as <-. lia.
           ++ intros (_ & H & _). now contradiction H.
        -- split; [discriminate|]. intros (_ & _ & H0 & H). exfalso. apply E. specialize (H t eq_refl). lia.
      * destruct (Nat.ltb_spec 0 (length p)) as [E|E].
        -- destruct (c_lat c); cbn [is_ok]; split; try discriminate; try reflexivity.
           ++ intros _. split; [exact HF|]. split; [discriminate|]. split; [lia|]. discriminate.
           ++ intros (_ & H & _). now contradiction H.
        -- cbn [is_ok]. split; [discriminate|]. intros (_ & _ & H0 & _). lia.
    + cbn. split; [discriminate|]. intros (H & _). apply G in H as (p & Hp). congruence.
  - intros l. unfold set_mass_true_field. destruct (c_true c) as [p|].
    + destruct (Nat.eqb_spec (length l) (3 * length p)) as [E|E]; cbn [is_ok]; split.
      * intros _ p' Hp; congruence.
      * reflexivity.
      * discriminate.
      * intros H; exfalso; apply E, H; reflexivity.
    + cbn. split; [intros _; discriminate|reflexivity].
  - intros l. unfold set_xyz_true. destruct (c_true c) as [t|].
    + destruct (forallb _ l) eqn:E; cbn; split.
      * intros _ t' z Ht Hz. injection Ht as <-. rewrite forallb_forall in E. apply E in Hz.
        apply existsb_exists in Hz as (w & Hw & Ew). apply Z.eqb_eq in Ew as ->. exact Hw.
      * reflexivity.
      * discriminate.
      * intros H. exfalso. assert (C : forallb (fun z => existsb (Z.eqb z) t) l = true); [|congruence].
        apply forallb_forall. intros z Hz. apply existsb_exists. exists z. split; [eapply H; eauto|apply Z.eqb_refl].
    + cbn. split; [intros _; discriminate|reflexivity].
Qed.
Print Assumptions setter_acceptance.

(** C05: an accepted setter stores the given value in its own field and changes nothing else;
    the coordinate kind is chosen by the first letter alone. *)
Definition same_except (lat ty num sel coo car tru xyz mas : bool) {A} (c c' : cell A) : Prop :=
  (lat = false -> c_lat c' = c_lat c) /\ (ty = false -> c_type c' = c_type c) /\ (num = false -> c_num c' = c_num c) /\
  (sel = false -> c_sel c' = c_sel c) /\ (coo = false -> c_coord c' = c_coord c) /\ (car = false -> c_cart c' = c_cart c) /\
  (tru = false -> c_true c' = c_true c) /\ (xyz = false -> c_xyz c' = c_xyz c) /\ (mas = false -> c_mass c' = c_mass c).
Theorem setters_store_the_value :
  forall {A} {F : Fld A} (c c' : cell A),
    (forall r1 r2 r3, set_lattice c [r1; r2; r3] = Ok c' ->
       same_except true false false false false false false false false c c' /\
       exists a1 a2 a3 b1 b2 b3 d1 d2 d3, r1 = [a1; a2; a3] /\ r2 = [b1; b2; b3] /\ r3 = [d1; d2; d3] /\
         c_lat c' = Some (M3 (V3 a1 a2 a3) (V3 b1 b2 b3) (V3 d1 d2 d3))) /\
    (forall t, set_atom_type c t = Ok c' -> same_except false true false false false false false false false c c' /\ c_type c' = Some t) /\
    (forall n, set_num_atom c n = Ok c' -> same_except false false true false false false false false false c c' /\ c_num c' = Some n) /\
    (forall m, set_atom_cart c m = Ok c' -> same_except false false false false false true false false false c c' /\
       exists p, c_cart c' = Some p /\ Forall2 (fun r v => r = [vx v; vy v; vz v]) m p) /\
    (forall l, set_atom_true c l = Ok c' -> same_except false false false false false false true false false c c' /\ exists s, c_true c' = Some s /\ Permutation l s) /\
    (forall l, set_xyz_true c l = Ok c' -> same_except false false false false false false false true false c c' /\ exists s, c_xyz c' = Some s /\ Permutation l s) /\
    (forall l, set_mass_true_field c l = Ok c' -> same_except false false false false false false false false true c c' /\ c_mass c' = Some l) /\
    (forall s, set_coordinate c s = Ok c' <->
       exists a r, s = String a r /\ same_except false false false false true false false false false c c' /\
         ((In a ["D"; "d"]%char /\ c_coord c' = Some Direct) \/ (In a ["C"; "c"; "K"; "k"]%char /\ c_coord c' = Some Cartesian))).
Proof.
  intros A F c c'.
  assert (PP : forall l : list Z, Permutation l (py_sorted l)).
  { intro l. symmetry. clear. induction l as [|x l IH]; cbn; [constructor|].
    transitivity (x :: py_sorted l); [|now constructor]. unfold py_sorted. generalize (fold_right insert_sorted [] l) as m. clear.
    induction m as [|y m IH]; cbn; [reflexivity|]. destruct (x <=? y)%Z; [reflexivity|]. rewrite IH. constructor. }
  assert (R3 : forall (r : list A) v, row3 r = Some v -> r = [vx v; vy v; vz v]).
  { intros [|a [|b [|d [|x r]]]] v H; cbn in H; try discriminate. now injection H as <-. }
  unfold same_except. split; [|split; [|split; [|split; [|split; [|split; [|split]]]]]].
  - intros r1 r2 r3 H. unfold set_lattice in H. cbn in H.
    destruct (row3 r1) as [u|] eqn:E1, (row3 r2) as [v|] eqn:E2, (row3 r3) as [w|] eqn:E3; try discriminate. injection H as <-. cbn.
    split; [repeat split; congruence|]. apply R3 in E1, E2, E3. destruct u as [u1 u2 u3], v as [v1 v2 v3], w as [w1 w2 w3]. cbn in *.
    exists u1, u2, u3, v1, v2, v3, w1, w2, w3. auto.
  - intros t H. unfold set_atom_type in H. destruct (match c_cart c with None => true | Some p => _ end); [|discriminate]. injection H as <-. cbn. repeat split; congruence.
  - intros t H. unfold set_num_atom in H. destruct (match c_cart c with None => true | Some p => _ end); [|discriminate]. injection H as <-. cbn. repeat split; congruence.
  - intros m H. unfold set_atom_cart in H. destruct (rows3 m) as [p|] eqn:E; [|discriminate].
    destruct (match c_type c with None => true | Some t => _ end); [|discriminate]. injection H as <-. cbn. split; [repeat split; congruence|].
    exists p. split; [reflexivity|]. revert p E. induction m as [|r m IH]; intros p E; cbn in E; [injection E as <-; constructor|].
    destruct (row3 r) as [v|] eqn:Er; [|discriminate]. destruct (rows3 m) as [vs|]; [|discriminate]. injection E as <-. constructor; [now apply R3|now apply IH].
  - intros l H. unfold set_atom_true in H. destruct (match c_type c with None => true | Some t => _ end); [|discriminate]. injection H as <-. cbn.
    split; [repeat split; congruence|]. eexists. split; [reflexivity|apply PP].
  - intros l H. unfold set_xyz_true in H. destruct (match c_true c with None => true | Some t => _ end); [|discriminate]. injection H as <-. cbn.
    split; [repeat split; congruence|]. eexists. split; [reflexivity|apply PP].
  - intros l H. unfold set_mass_true_field in H. destruct (match c_true c with None => true | Some t => _ end); [|discriminate]. injection H as <-. cbn. repeat split; congruence.
  - intro s. destruct s as [|a r]; cbn [set_coordinate].
    { split; [discriminate|]. intros (a & r & E & _). discriminate. }
    assert (EQ : forall k, same_except false false false false true false false false false c c' -> c_coord c' = Some k ->
       c' = mkCell (c_lat c) (c_type c) (c_num c) (c_sel c) (Some k) (c_cart c) (c_true c) (c_xyz c) (c_mass c)).
    { intros k (L1 & L2 & L3 & L4 & _ & L6 & L7 & L8 & L9) K. destruct c'. cbn in *. rewrite L1, L2, L3, L4, K, L6, L7, L8, L9 by reflexivity. reflexivity. }
    assert (ML : forall l : list ascii, In a l <-> existsb (Ascii.eqb a) l = true).
    { intro l. rewrite existsb_exists. split; [intro I1; exists a; split; [exact I1|apply Ascii.eqb_refl]|intros (b & I1 & E); apply Ascii.eqb_eq in E; now subst]. }
    assert (D1 : In a ["D"; "d"]%char <-> (Ascii.eqb a "D" || Ascii.eqb a "d")%bool = true) by (rewrite ML; cbn; now rewrite orb_false_r).
    assert (D2 : In a ["C"; "c"; "K"; "k"]%char <-> (Ascii.eqb a "C" || Ascii.eqb a "c" || Ascii.eqb a "K" || Ascii.eqb a "k")%bool = true) by (rewrite ML; cbn; now rewrite orb_false_r, !orb_assoc).
    assert (DJ : In a ["D"; "d"]%char -> ~ In a ["C"; "c"; "K"; "k"]%char) by (intros [<-|[<-|[]]] [H|[H|[H|[H|[]]]]]; discriminate).
    destruct (Ascii.eqb a "D" || Ascii.eqb a "d")%bool.
    + split.
      * intro H. injection H as <-. exists a, r. split; [reflexivity|]. split; [cbn; repeat split; congruence|]. left. split; [now apply D1|reflexivity].
      * intros (a' & r' & E & S & [[_ K]|[I2 _]]); [now rewrite (EQ _ S K)|]. injection E as <- <-. exfalso. apply DJ; [now apply D1|exact I2].
    + destruct (Ascii.eqb a "C" || Ascii.eqb a "c" || Ascii.eqb a "K" || Ascii.eqb a "k")%bool.
      * split.
        -- intro H. injection H as <-. exists a, r. split; [reflexivity|]. split; [cbn; repeat split; congruence|]. right. split; [now apply D2|reflexivity].
        -- intros (a' & r' & E & S & [[I1 _]|[_ K]]); [|now rewrite (EQ _ S K)]. injection E as <- <-. apply D1 in I1. discriminate.
      * split; [discriminate|]. intros (a' & r' & E & _ & [[I1 _]|[I1 _]]); injection E as <- <-; [apply D1 in I1|apply D2 in I1]; discriminate.
Qed.
Print Assumptions setters_store_the_value.

(** What setters do NOT enforce: counts set before positions are never
    re-checked, and a selection can be left dangling by shrinking the types
    while no positions are set. *)
Theorem counts_and_selection_invariant_refuted :
  exists ops : list (cell_op Qc),
    let c := run_ops cell_init ops in
    exists p n t l, c_cart c = Some p /\ c_num c = Some n /\ c_type c = Some t /\ c_true c = Some l /\
      fold_right Z.add 0%Z n <> Z.of_nat (length p) /\ ~ Forall (fun z => 0 <= z < Z.of_nat (length t))%Z l.
Proof.
  exists [OpNum [5]%Z; OpType ["H"; "H"; "H"]; OpTrue [2]%Z; OpType ["H"]; OpCart [[qz 0; qz 0; qz 0]]].
  do 4 eexists. repeat (split; [vm_compute; reflexivity|]). split; [vm_compute; discriminate|].
  intros H. inversion H as [|? ? H1 _]; subst. cbn in H1. lia.
Qed.
Print Assumptions counts_and_selection_invariant_refuted.

(** * C06 *)
Theorem selection_sorted_and_in_range :
  forall {A} {F : Fld A} (c : cell A) (t : list string) (l : list Z),
    c_type c = Some t ->
    (forall c', set_atom_true c l = Ok c' ->
        exists s, c_true c' = Some s /\ Permutation s l /\ StronglySorted Z.le s /\
                  Forall (fun z => 0 <= z < Z.of_nat (length t))%Z s) /\
    (set_atom_true c l = Err EValue <-> exists z, In z l /\ ~ (0 <= z < Z.of_nat (length t))%Z).
Proof. intros A F c t l. exact (set_atom_true_spec c t l). Qed.
Print Assumptions selection_sorted_and_in_range.

Example selection_witness :
  exists c', set_atom_true ex_unit [2; 0; 1]%Z = Ok c' /\ c_true c' = Some [0; 1; 2]%Z.
Proof. eexists. split; reflexivity. Qed.

(** * C07 *)
Theorem direct_coordinates_roundtrip :
  forall {A} {F : Fld A} (c : cell A) (m : list (list A)) (L : m3 A) (p : list (v3 A)),
    c_lat c = Some L -> det L <> f0 -> rows3 m = Some p ->
    0 < length m -> (forall t, c_type c = Some t -> length t = length m) ->
    exists c', set_atom_direct c m = Ok c' /\
      c_cart c' = Some (map (fun v => vmul v L) p) /\
      get_atom_direct c' = Ok p.
Proof. intros A F. exact direct_roundtrip. Qed.
Print Assumptions direct_coordinates_roundtrip.

Theorem direct_coordinates_defining :
  forall {A} {F : Fld A} (c : cell A) (L : m3 A) (p q : list (v3 A)),
    c_lat c = Some L -> c_cart c = Some p -> get_atom_direct c = Ok q -> map (fun v => vmul v L) q = p.
Proof. intros A F. exact get_direct_defining. Qed.
Print Assumptions direct_coordinates_defining.

Theorem direct_coordinates_singular_rejected :
  forall {A} {F : Fld A} (c : cell A) (L : m3 A) (p : list (v3 A)),
    c_lat c = Some L -> c_cart c = Some p -> det L = f0 -> get_atom_direct c = Err ELinAlg.
Proof. intros A F. exact direct_singular. Qed.
Print Assumptions direct_coordinates_singular_rejected.

Example direct_witness : c_lat ex_unit = Some ex_lat /\ det ex_lat <> f0.
Proof. split; [reflexivity|]. vm_compute. discriminate. Qed.

(** * C08, C09 *)
Theorem supercell_content :
  forall {A} {F : Fld A} (u : cell A) (ar : args) (L : m3 A) (ty : list string) (num : list Z) (k : coord)
         (pos : list (v3 A)) (N1 N2 N3 : nat) (p1 p2 p3 : Z),
    complete u L ty num k pos ->
    valid_args ar (Z.of_nat N1) (Z.of_nat N2) (Z.of_nat N3) p1 p2 p3 ->
    0 < N1 -> 0 < N2 -> 0 < N3 ->
    exists s ts ps,
      set_super_cell u ar = Ok s /\ c_type s = Some ts /\ c_cart s = Some ps /\
      length ts = length ty * (N1 * N2 * N3) /\ length ps = length pos * (N1 * N2 * N3) /\
      forall i t r x y z, nth_error ty i = Some t -> nth_error pos i = Some r ->
        x < N1 -> y < N2 -> z < N3 ->
        let a := (N1 * N2 * N3) * i + ((x * N2 + y) * N3 + z) in
        nth_error ts a = Some t /\
        nth_error ps a =
          Some (vadd r (vadd (vadd (vscale (fofZ (Z.of_nat x)) (r1 L)) (vscale (fofZ (Z.of_nat y)) (r2 L)))
                             (vscale (fofZ (Z.of_nat z)) (r3 L)))).
Proof.
  intros A F u ar L ty num k pos N1 N2 N3 p1 p2 p3 HC HV H1 H2 H3.
  destruct (super_cell_correct u ar L ty num k pos N1 N2 N3 p1 p2 p3 HC HV H1 H2 H3) as (s & E & [S1 (ts & S2 & S2l & S2n) S3 S4 (ps & S5 & S5l & S5n)]).
  exists s, ts, ps. repeat (split; [assumption|]).
  intros i t r x y z Hi Hr Hx Hy Hz. cbn zeta. split; [eapply S2n; eauto|]. eapply S5n; eauto.
Qed.
Print Assumptions supercell_content.

(** every copy number below N1*N2*N3 is one and only one (x,y,z) *)
Theorem supercell_copies_enumerated_once :
  forall N1 N2 N3 k, k < N1 * N2 * N3 ->
    exists! xyz : nat * nat * nat, let '(x, y, z) := xyz in
      x < N1 /\ y < N2 /\ z < N3 /\ k = (x * N2 + y) * N3 + z.
Proof.
  intros N1 N2 N3 k H. destruct (copy_index N1 N2 N3 k H) as (x & y & z & Hx & Hy & Hz & E).
  exists (x, y, z). split; [auto|]. intros [[x' y'] z'] (Hx' & Hy' & Hz' & E').
  destruct (copy_index_inj N2 N3 x y z x' y' z') as (-> & -> & ->); auto; try lia.
Qed.
Print Assumptions supercell_copies_enumerated_once.

Theorem supercell_lattice_and_counts :
  forall {A} {F : Fld A} (u : cell A) (ar : args) (L : m3 A) (ty : list string) (num : list Z) (k : coord)
         (pos : list (v3 A)) (N1 N2 N3 : nat) (p1 p2 p3 : Z),
    complete u L ty num k pos ->
    valid_args ar (Z.of_nat N1) (Z.of_nat N2) (Z.of_nat N3) p1 p2 p3 ->
    0 < N1 -> 0 < N2 -> 0 < N3 ->
    exists s nums, set_super_cell u ar = Ok s /\
      c_lat s = Some (M3 (vscale (fofZ (Z.of_nat N1)) (r1 L)) (vscale (fofZ (Z.of_nat N2)) (r2 L)) (vscale (fofZ (Z.of_nat N3)) (r3 L))) /\
      c_num s = Some nums /\ nums = map (fun n => (n * Z.of_nat (N1 * N2 * N3))%Z) num /\
      (fold_right Z.add 0%Z num = Z.of_nat (length pos) ->
       exists ps, c_cart s = Some ps /\ fold_right Z.add 0%Z nums = Z.of_nat (length ps)).
Proof.
  intros A F u ar L ty num k pos N1 N2 N3 p1 p2 p3 HC HV H1 H2 H3.
  destruct (super_cell_correct u ar L ty num k pos N1 N2 N3 p1 p2 p3 HC HV H1 H2 H3) as (s & E & [S1 S2 S3 S4 (ps & S5 & S5l & S5n)]).
  exists s. eexists. split; [exact E|]. split; [exact S1|]. split; [exact S3|]. split; [reflexivity|].
  intros Hs. exists ps. split; [exact S5|]. rewrite S5l.
  transitivity (Z.of_nat (length pos) * Z.of_nat (N1 * N2 * N3))%Z; [|lia]. rewrite <- Hs. clear.
  induction num as [|n num IH]; cbn [map fold_right]; [lia|]. rewrite IH. lia.
Qed.
Print Assumptions supercell_lattice_and_counts.

Example supercell_witness :
  complete ex_unit ex_lat ["Ga"; "As"; "As"] [1; 2]%Z Cartesian [vq 0 0 1; vq 1 2 3; vq 2 2 5] /\
  valid_args ex_args (Z.of_nat 2) (Z.of_nat 3) (Z.of_nat 1) 1 1 0.
Proof. split; [repeat split; reflexivity|]. split; [reflexivity|]. split; [reflexivity|]. repeat split; intros; lia. Qed.

(** * C10: the supercell represents the whole crystal, each atom once. *)
Theorem supercell_covers_crystal_once :
  forall {A} {F : Fld A} (L : m3 A) (r : v3 A) (N1 N2 N3 : nat) (n1 n2 n3 : Z),
    det L <> f0 -> 0 < N1 -> 0 < N2 -> 0 < N3 ->
    exists! xyz : nat * nat * nat,
      let '(x, y, z) := xyz in
      x < N1 /\ y < N2 /\ z < N3 /\
      exists m1 m2 m3,
        vadd r (lat_comb L n1 n2 n3) =
        vadd (copy_pos L r (Z.of_nat x) (Z.of_nat y) (Z.of_nat z))
             (lat_comb (scaled (Z.of_nat N1) (Z.of_nat N2) (Z.of_nat N3) L) m1 m2 m3).
Proof. intros A F. exact crystal_cover. Qed.
Print Assumptions supercell_covers_crystal_once.

(** * C11 *)
Theorem supercell_selection_correct :
  forall {A} {F : Fld A} (u s : cell A) (ar : args) (tr : list Z) (N1 N2 N3 : nat) (p1 p2 p3 : Z),
    valid_args ar (Z.of_nat N1) (Z.of_nat N2) (Z.of_nat N3) p1 p2 p3 ->
    c_true u = Some tr ->
    exists s' ts, set_super_ind_true s u ar = Ok s' /\ c_sel s' = true /\ c_true s' = Some ts /\
      c_cart s' = c_cart s /\ c_type s' = c_type s /\ c_lat s' = c_lat s /\ c_num s' = c_num s /\
      length ts = length tr * (N1 * N2 * N3) /\
      (forall i a k, nth_error tr i = Some a -> k < N1 * N2 * N3 ->
         nth_error ts ((N1 * N2 * N3) * i + k) = Some (a * Z.of_nat (N1 * N2 * N3) + Z.of_nat k)%Z) /\
      (exists xs, c_xyz s' = Some xs /\ length xs = 3 * length ts /\
         forall j a d, nth_error ts j = Some a -> d < 3 -> nth_error xs (3 * j + d) = Some a).
Proof. intros A F. exact super_selection. Qed.
Print Assumptions supercell_selection_correct.

(** * C12 *)
Theorem bypassed_argument_check_raises :
  forall {A} {F : Fld A} (u : cell A) (ar : args) L ty num k pos e1 e2 e3 p1 p2 p3,
    complete u L ty num k pos ->
    a_enl ar = Some [e1; e2; e3] -> a_pbc ar = Some [p1; p2; p3] ->
    (0 < e1)%Z -> (0 < e2)%Z -> (0 < e3)%Z ->
    ((p1 = 0 /\ e1 <> 1) \/ (p2 = 0 /\ e2 <> 1) \/ (p3 = 0 /\ e3 <> 1))%Z ->
    set_super_cell u ar = Err EIndex.
Proof. intros A F. exact super_bypassed. Qed.
Print Assumptions bypassed_argument_check_raises.

(** accepted but non-positive enlargements *)
Theorem nonpositive_enlargement_outcomes :
  forall {A} {F : Fld A} (u : cell A) (ar : args) L ty num k pos e1 e2 e3 p1 p2 p3,
    complete u L ty num k pos -> valid_args ar e1 e2 e3 p1 p2 p3 ->
    ((e1 * e2 * e3 < 0)%Z -> set_super_cell u ar = Err EValue) /\
    ((e1 * e2 * e3 = 0)%Z -> exists s, set_super_cell u ar = Ok s /\ c_type s = Some [] /\ c_cart s = Some []) /\
    ((0 < e1 * e2 * e3)%Z -> (e1 < 0 \/ e2 < 0 \/ e3 < 0)%Z ->
        set_super_cell u ar = Err EUninit (* reads uninitialised memory *)).
Proof.
  intros A F u ar L ty num k pos e1 e2 e3 p1 p2 p3 HC HV. split; [|split].
  - eapply super_neg; eauto.
  - eapply super_zero; eauto.
  - eapply super_uninit; eauto.
Qed.
Print Assumptions nonpositive_enlargement_outcomes.

Theorem supercell_never_garbage_refuted :
  exists d a', set_user_arg args_init d = Ok a' /\ set_super_cell ex_unit a' = Err EUninit.
Proof.
  exists [("displacement", VStr "0.02"); ("enlargement", VStr "-2 -2 1"); ("periodicity", VStr "1 1 0")].
  eexists. split; [vm_compute; reflexivity|]. vm_compute. reflexivity.
Qed.
Print Assumptions supercell_never_garbage_refuted.

(** * C13: displaced files, no symmetry *)
Theorem displaced_files_without_symmetry :
  forall {A} {F : Fld A} (u s : cell A) (ar : args) (cur : list (v3 A)) (E n : nat) (d : A) (tr : list Z),
    ready s ar cur E n -> c_true u = Some tr -> Forall (fun a => 0 <= a < Z.of_nat n)%Z tr ->
    exists s' files, write_displace_nosym u s ar (Some d) = Ok (s', files) /\
      length files = 6 * length tr /\
      forall i a j, nth_error tr i = Some a -> j < 3 ->
        forall r dir, nth_error cur (E * Z.to_nat a) = Some r ->
          nth_error [V3 f1 f0 f0; V3 f0 f1 f0; V3 f0 f0 f1] j = Some dir ->
          exists ff fb pf pb,
            nth_error files (6 * i + 2 * j) = Some ff /\ nth_error files (6 * i + 2 * j + 1) = Some fb /\
            o_suffix ff = suffix (6 * i + 2 * j + 1) /\ o_suffix fb = suffix (6 * i + 2 * j + 2) /\
            o_comment ff = "Forward Displacement" /\ o_comment fb = "Backward Displacement" /\
            (* same cell except positions and the selective flag *)
            o_cell ff = put_cart (set_selective s false) pf /\ o_cell fb = put_cart (set_selective s false) pb /\
            moved_one cur pf (E * Z.to_nat a) (vadd r (vscale d dir)) /\
            moved_one cur pb (E * Z.to_nat a) (vsub r (vscale d dir)).
Proof.
  intros A F u s ar cur E n d tr HR Ht HF.
  assert (HOK : targets_ok n (map (fun i : Z => (i, eye3 (A:=A))) tr)).
  { unfold targets_ok. apply Forall_forall. intros [a x] Hx. apply in_map_iff in Hx as (b & Eb & Hb).
    injection Eb as <- <-. rewrite Forall_forall in HF. auto. }
  destruct (write_displaced_ok s ar cur E n d _ HR HOK) as (s' & E1 & _).
  exists s'. eexists. split; [unfold write_displace_nosym; rewrite Ht; cbn [of_option bind]; exact E1|].
  rewrite map_map.
  assert (PC : forall l : list Z, pair_count (map (fun x : Z => (E * Z.to_nat x, eye3 (A:=A))) l) = 3 * length l).
  { induction l as [|a l IH]; cbn [map pair_count length]; [reflexivity|]. rewrite IH. cbn [eye3 length]. lia. }
  split.
  { rewrite exp_atoms_length, PC. lia. }
  intros i a j Hi Hj r dir Hr Hd.
  assert (Hi' : nth_error (map (fun x : Z => (E * Z.to_nat x, eye3 (A:=A))) tr) i = Some (E * Z.to_nat a, eye3)).
  { rewrite nth_error_map, Hi. reflexivity. }
  pose proof (exp_atoms_nth (set_selective s false) cur d _ 0 i _ _ j dir Hi' Hd) as HN. cbn zeta in HN.
  rewrite firstn_map, PC in HN.
  assert (Hlen : i < length tr) by (apply nth_error_Some; congruence).
  rewrite firstn_length, Nat.min_l in HN by lia.
  replace (2 * (3 * i + j)) with (6 * i + 2 * j) in HN by lia. cbn [Nat.add] in HN.
  assert (Er : nth (E * Z.to_nat a) cur v3z = r) by (apply nth_error_nth; exact Hr).
  rewrite Er in HN. destruct HN as (HN1 & HN2).
  assert (Hk : E * Z.to_nat a < length cur) by (apply nth_error_Some; congruence).
  do 4 eexists. split; [exact HN1|]. split; [exact HN2|]. cbn [o_suffix o_comment o_cell].
  repeat (split; [reflexivity|]). split; apply moved_one_set_nth; exact Hk.
Qed.
Print Assumptions displaced_files_without_symmetry.

(** * C14: displaced files for an arbitrary list of atoms with directions, as
    produced by the symmetry search. *)
Theorem displaced_files_with_symmetry :
  forall {A} {F : Fld A} (u s : cell A) (ar : args) (cur : list (v3 A)) (E n : nat) (d : A) (tr : list Z)
         (req : list (nat * (v3 A * list (v3 A)))),
    ready s ar cur E n -> c_true u = Some tr -> Forall (fun a => 0 <= a < Z.of_nat n)%Z tr ->
    Forall (fun '(k, _) => k < length tr) req ->
    exists s' files, write_displace_sym u s ar (Some d) req = Ok (s', files) /\
      length files = 2 * list_sum (map (fun '(_, (_, more)) => S (length more)) req) /\
      (forall k f, nth_error files k = Some f -> o_suffix f = suffix (k + 1)) /\
      forall t k d1 more a j dir r,
        nth_error req t = Some (k, (d1, more)) -> nth_error tr k = Some a ->
        nth_error (d1 :: more) j = Some dir -> nth_error cur (E * Z.to_nat a) = Some r ->
        let m := 2 * (list_sum (map (fun '(_, (_, more)) => S (length more)) (firstn t req)) + j) in
        exists ff fb pf pb,
          nth_error files m = Some ff /\ nth_error files (m + 1) = Some fb /\
          o_comment ff = "Forward Displacement" /\ o_comment fb = "Backward Displacement" /\
          o_cell ff = put_cart (set_selective s false) pf /\ o_cell fb = put_cart (set_selective s false) pb /\
          moved_one cur pf (E * Z.to_nat a) (vadd r (vscale d dir)) /\
          moved_one cur pb (E * Z.to_nat a) (vsub r (vscale d dir)).
Proof.
  intros A F u s ar cur E n d tr req HR Ht HF HQ.
  set (tgt := fun q : nat * (v3 A * list (v3 A)) => let '(k, (d1, more)) := q in (nth k tr 0%Z, d1 :: more)).
  assert (HM : mapM (fun '(k, (d1, more)) => let! i := py_nth tr k in Ok (i, d1 :: more)) req = Ok (map tgt req)).
  { apply mapM_total. intros [k [d1 more]] Hin. rewrite Forall_forall in HQ. specialize (HQ _ Hin). cbn in HQ.
    unfold py_nth. rewrite (nth_error_nth' tr 0%Z HQ). reflexivity. }
  assert (HOK : targets_ok n (map tgt req)).
  { unfold targets_ok. apply Forall_forall. intros [a x] Hx. apply in_map_iff in Hx as ([k [d1 more]] & Eb & Hb).
    cbn in Eb. injection Eb as <- <-. rewrite Forall_forall in HF, HQ. apply HF, nth_In. exact (HQ _ Hb). }
  destruct (write_displaced_ok s ar cur E n d _ HR HOK) as (s' & E1 & _).
  exists s'. eexists. split.
  { unfold write_displace_sym. rewrite Ht. cbn [of_option bind]. rewrite HM. cbn [bind]. exact E1. }
  rewrite map_map.
  set (tg2 := fun x => let '(a, dirs) := tgt x in (E * Z.to_nat a, dirs)).
  change (map (fun x => let '(a, dirs) := tgt x in (E * Z.to_nat a, dirs)) req) with (map tg2 req).
  assert (PC : forall l, pair_count (map tg2 l) = list_sum (map (fun '(_, (_, more)) => S (length more)) l)).
  { induction l as [|[k [d1 more]] l IH]; cbn [map pair_count]; [reflexivity|].
    unfold tg2 at 1, tgt at 1. cbn [list_sum fold_right]. rewrite IH. reflexivity. }
  split; [rewrite exp_atoms_length, PC; reflexivity|]. split.
  { intros k f Hf. apply exp_atoms_suffix in Hf. rewrite Hf. f_equal. }
  intros t k d1 more a j dir r Hq Ha Hj Hr. cbn zeta.
  assert (Hq' : nth_error (map tg2 req) t = Some (E * Z.to_nat a, d1 :: more)).
  { rewrite nth_error_map, Hq. unfold tg2, tgt. cbn. rewrite (nth_error_nth _ _ 0%Z Ha). reflexivity. }
  pose proof (exp_atoms_nth (set_selective s false) cur d _ 0 t _ _ j dir Hq' Hj) as HN. cbn zeta in HN.
  rewrite firstn_map, PC in HN.
  assert (Er : nth (E * Z.to_nat a) cur v3z = r) by (apply nth_error_nth; exact Hr).
  rewrite Er in HN. destruct HN as (HN1 & HN2).
  assert (Hk : E * Z.to_nat a < length cur) by (apply nth_error_Some; congruence).
  do 4 eexists. split; [exact HN1|]. split; [exact HN2|]. cbn [o_suffix o_comment o_cell].
  repeat (split; [reflexivity|]). split; apply moved_one_set_nth; exact Hk.
Qed.
Print Assumptions displaced_files_with_symmetry.

(** The hypotheses hold for a supercell built by the code itself. *)
Theorem built_supercell_is_ready :
  forall {A} {F : Fld A} (u : cell A) (ar : args) L ty num k pos tr (N1 N2 N3 : nat) p1 p2 p3,
    complete u L ty num k pos -> c_true u = Some tr ->
    valid_args ar (Z.of_nat N1) (Z.of_nat N2) (Z.of_nat N3) p1 p2 p3 ->
    0 < N1 -> 0 < N2 -> 0 < N3 ->
    exists s cur, build_super u ar = Ok s /\ ready s ar cur (N1 * N2 * N3) (length pos).
Proof.
  intros A F u ar L ty num k pos tr N1 N2 N3 p1 p2 p3 HC HT HV H1 H2 H3.
  destruct (super_cell_correct u ar L ty num k pos N1 N2 N3 p1 p2 p3 HC HV H1 H2 H3) as (s & E & [S1 (ts & S2 & S2l & _) S3 S4 (ps & S5 & S5l & _)]).
  destruct (super_selection u s ar tr N1 N2 N3 p1 p2 p3 HV HT) as (s' & trs & E2 & Q1 & Q2 & Q3 & Q4 & _).
  exists s', ps. unfold build_super. rewrite E. cbn [bind]. split; [exact E2|].
  split.
  - congruence.
  - exact S5l.
  - intros t Ht. rewrite Q4, S2 in Ht. injection Ht as <-. rewrite S2l. destruct HC as (_ & _ & _ & _ & _ & ->). reflexivity.
  - destruct HV as (V1 & V2 & V3). do 2 eexists. split; [exact V1|]. split; [exact V2|].
    rewrite (enlarge_valid _ _ _ _ _ _ V3). f_equal. lia.
  - apply Nat.mul_pos_pos; [apply Nat.mul_pos_pos|]; assumption.
Qed.
Print Assumptions built_supercell_is_ready.

(** * C15 *)
Theorem displaced_names_distinct :
  forall n m, suffix n = suffix m -> n = m.
Proof. exact suffix_inj. Qed.
Print Assumptions displaced_names_distinct.

Theorem displaced_names_sort_numerically :
  forall n m, (0 < Z.of_nat n <= 9999)%Z -> (0 < Z.of_nat m <= 9999)%Z ->
    (str_lt (suffix n) (suffix m) <-> n < m).
Proof. intros n m Hn Hm. apply suffix_order; lia. Qed.
Print Assumptions displaced_names_sort_numerically.

Theorem displaced_names_sort_refuted_beyond_9999 :
  forall m, (1001 <= Z.of_nat m <= 9999)%Z -> str_lt (suffix (Z.to_nat 10000)) (suffix m).
Proof. intros m Hm. apply suffix_overflow. lia. Qed.
Print Assumptions displaced_names_sort_refuted_beyond_9999.

(** * C16: state of process.super_cell after writing without symmetry. *)
Theorem supercell_left_displaced :
  forall {A} {F : Fld A} (u s : cell A) (ar : args) (cur : list (v3 A)) (E n : nat) (d : A) (tr : list Z) (a : Z),
    ready s ar cur E n -> c_true u = Some (tr ++ [a]) -> Forall (fun a => 0 <= a < Z.of_nat n)%Z (tr ++ [a]) ->
    exists s' files ps r, write_displace_nosym u s ar (Some d) = Ok (s', files) /\
      nth_error cur (E * Z.to_nat a) = Some r /\
      s' = put_cart (set_selective s false) ps /\
      moved_one cur ps (E * Z.to_nat a) (vsub r (vscale d (V3 f0 f0 f1))) /\
      (d <> f0 -> ps <> cur).
Proof.
  intros A F u s ar cur E n d tr a HR Ht HF.
  assert (HOK : targets_ok n (map (fun i : Z => (i, eye3 (A:=A))) (tr ++ [a]))).
  { unfold targets_ok. apply Forall_forall. intros [b x] Hx. apply in_map_iff in Hx as (b' & Eb & Hb).
    injection Eb as <- <-. rewrite Forall_forall in HF. auto. }
  destruct (write_displaced_ok s ar cur E n d _ HR HOK) as (s' & E1 & E2).
  rewrite <- map_rev, rev_app_distr in E2. cbn [rev app map eye3] in E2.
  assert (Ha : (0 <= a < Z.of_nat n)%Z) by (rewrite Forall_forall in HF; apply HF, in_or_app; right; left; reflexivity).
  assert (Hk : E * Z.to_nat a < length cur).
  { destruct HR as [_ -> _ _ HP]. replace (n * E) with (E * n) by lia. apply Nat.mul_lt_mono_pos_l; lia. }
  exists s'. do 3 eexists. split; [unfold write_displace_nosym; rewrite Ht; cbn [of_option bind]; exact E1|].
  split; [apply nth_error_nth'; exact Hk|]. split; [exact E2|]. split; [apply moved_one_set_nth, Hk|].
  intros Hd C. apply Hd.
  pose proof (set_nth_same (E * Z.to_nat a) (vsub (nth (E * Z.to_nat a) cur v3z) (vscale d (V3 f0 f0 f1))) cur Hk) as HN.
  rewrite C in HN. rewrite (nth_error_nth' cur v3z Hk) in HN. injection HN as HN.
  apply (f_equal vz) in HN. cbn in HN. revert HN.
  generalize (vz (nth (E * Z.to_nat a) cur v3z)). intros z HN.
  eapply fsub_self_zero; eauto.
Qed.
Print Assumptions supercell_left_displaced.
