(** Property theorems: consistency checks of the post-process (C24, C25).
    Model: Check.v. *)
From Coq Require Import String Ascii ZArith Arith QArith Qcanon Qabs Qcabs Lqa Bool Lia List.
From Verif Require Import Base Dec Field Args Cell CellFacts Super SuperFacts Displace DisplaceFacts Text TextFacts TextRound PropsText Check CheckFacts PropsCell.
Import ListNotations.
Local Open Scope string_scope.
Local Open Scope list_scope.
Local Open Scope nat_scope.

(** * Specification: the numpy tolerance |a - b| <= 1e-8 + 1e-5 |b| *)
Definition near (a b : Qc) : Prop := (Qcabs (a - b) <= Q2Qc (1 # 100000000) + Q2Qc (1 # 100000) * Qcabs b)%Qc.
Definition vnear (a b : v3 Qc) : Prop := near (vx a) (vx b) /\ near (vy a) (vy b) /\ near (vz a) (vz b).
(** all rows near; a single row on either side is compared with every row *)
Definition positions_near (p q : list (v3 Qc)) : Prop :=
  (length p = length q /\ Forall2 vnear p q) \/
  (length p <> length q /\ exists a, p = [a] /\ Forall (vnear a) q) \/
  (length p <> length q /\ exists b, q = [b] /\ Forall (fun a => vnear a b) p).

Lemma qcabs_eq x : qcabs x = Qcabs x.
Proof.
  apply Qc_is_canon. unfold qcabs. change (this (Qcabs x)) with (Qabs x). destruct (Qcleb 0 x) eqn:E.
  - apply Qcleb_le in E. symmetry. apply Qabs_pos. exact E.
  - assert (N : ~ (0 <= x)%Qc) by (rewrite <- Qcleb_le; congruence). apply Qcnot_le_lt in N. unfold Qclt in N.
    rewrite Qabs_neg by (apply Qlt_le_weak; exact N). unfold Qcopp, Q2Qc. cbn [this]. apply Qred_correct.
Qed.
Lemma near_iff a b : isclose a b = true <-> near a b.
Proof. unfold isclose, near. rewrite Qcleb_le, !qcabs_eq. reflexivity. Qed.
Lemma vnear_iff a b : isclose3 a b = true <-> vnear a b.
Proof. unfold isclose3, vnear. rewrite !andb_true_iff, !near_iff. tauto. Qed.
Lemma allclose_iff p q : allclose p q = Ok true <-> positions_near p q.
Proof.
  unfold allclose, positions_near. destruct (Nat.eqb_spec (length p) (length q)) as [E|N].
  - split.
    + intros H. left. split; [exact E|]. injection H as H. apply all2_forall2 in H; [|exact E].
      clear E. induction H; constructor; auto. now apply vnear_iff.
    + intros [(_ & H)|[(N & _)|(N & _)]]; try congruence. f_equal. apply all2_forall2; [exact E|].
      clear E. induction H; constructor; auto. now apply vnear_iff.
  - split.
    + intros H. right. destruct p as [|a [|a' p]]; destruct q as [|b [|b' q]]; try discriminate H; try (cbn [length] in N; congruence).
      * right. split; [exact N|]. exists b. split; [reflexivity|]. constructor.
      * left. split; [exact N|]. exists a. split; [reflexivity|]. constructor.
      * left. split; [exact N|]. exists a. split; [reflexivity|].
        assert (G : forallb (fun b => isclose3 a b) (b :: b' :: q) = true) by congruence.
        apply Forall_forall. intros y Hy. rewrite <- vnear_iff. rewrite forallb_forall in G. auto.
      * right. split; [exact N|]. exists b. split; [reflexivity|].
        assert (G : forallb (fun a => isclose3 a b) (a :: a' :: p) = true) by congruence.
        apply Forall_forall. intros y Hy. rewrite <- vnear_iff. rewrite forallb_forall in G. auto.
    + intros [(E & _)|[(_ & a & -> & H)|(_ & b & -> & H)]]; [congruence| |].
      * f_equal. rewrite Forall_forall in H. apply forallb_forall. intros y Hy. apply vnear_iff. auto.
      * rewrite Forall_forall in H. destruct p as [|a [|a' p]]; [reflexivity|cbn in N; congruence|].
        f_equal. apply forallb_forall. intros y Hy. apply vnear_iff. auto.
Qed.

(** * C24 *)
(** Acceptance is exactly "every supercell lattice vector is, within tolerance,
    the unit-cell vector times the enlargement". *)
Theorem match_check_characterised :
  forall (u s : cell Qc) ar U SL e1 e2 e3 p1 p2 p3,
    c_lat u = Some U -> c_lat s = Some SL -> a_enl ar = Some [e1; e2; e3] -> a_pbc ar = Some [p1; p2; p3] ->
    (check_match_argument u s ar = Ok tt <->
       vnear (vscale (fofZ e1) (r1 U)) (r1 SL) /\ vnear (vscale (fofZ e2) (r2 U)) (r2 SL) /\ vnear (vscale (fofZ e3) (r3 U)) (r3 SL)) /\
    (check_match_argument u s ar <> Ok tt -> check_match_argument u s ar = Err EMismatchENLARGEpost).
Proof.
  intros u s ar U SL e1 e2 e3 p1 p2 p3 HU HS HE HP. unfold check_match_argument. rewrite HU, HS, HE, HP. cbn [of_option bind py_nth nth_error].
  rewrite <- !vnear_iff.
  assert (EN : exists E, enlarge [e1; e2; e3] [p1; p2; p3] = Ok E).
  { unfold enlarge. cbn [enlarge_from]. destruct (p1 =? 0)%Z, (p2 =? 0)%Z, (p3 =? 0)%Z; cbn; eauto. }
  destruct EN as (E & EN). rewrite EN. cbn [bind].
  destruct (isclose3 _ (r1 SL)); cbn [negb]; [|split; [split; [discriminate|intros (X & _); discriminate]|reflexivity]].
  destruct (isclose3 _ (r2 SL)); cbn [negb]; [|split; [split; [discriminate|intros (_ & X & _); discriminate]|reflexivity]].
  destruct (isclose3 _ (r3 SL)); cbn [negb]; [|split; [split; [discriminate|intros (_ & _ & X); discriminate]|reflexivity]].
  split; [tauto|congruence].
Qed.
Print Assumptions match_check_characterised.

Definition diff16 (x y : Qc) : Prop := (Qcopp (Q2Qc (1 # 20000000000000000)) <= y - x)%Qc /\ (y - x <= Q2Qc (1 # 20000000000000000))%Qc.
Lemma within_diff x y : within16 x y -> diff16 x y.
Proof. intros (A & B & _). split; assumption. Qed.

Lemma scaled_close (e : Z) u u' w : (0 < e <= 10000000)%Z -> diff16 u u' -> diff16 (Qcmult (fofZ e) u) w -> near (Qcmult (fofZ e) u') w.
Proof.
  intros He H1 H2. apply near_iff. revert H1 H2. change (fofZ e) with (Q2Qc (inject_Z e)).
  assert (A : (0 < inject_Z e <= 10000000)%Q) by (split; [change 0%Q with (inject_Z 0); rewrite <- Zlt_Qlt|change (10000000)%Q with (inject_Z 10000000); rewrite <- Zle_Qle]; lia).
  destruct A as (A1 & A2). revert A1 A2. generalize (inject_Z e). intros q A1 A2 (H1 & H2) (H3 & H4).
  apply close_isclose.
  - qcq. revert H1 H2 H3 H4. generalize (this u) (this u') (this w). clear u u' w. intros u u' w H1 H2 H3 H4.
    assert (M : (q * (u' - u) <= q * (1 # 20000000000000000))%Q) by (apply Qmult_le_l; lra). nra.
  - qcq. revert H1 H2 H3 H4. generalize (this u) (this u') (this w). clear u u' w. intros u u' w H1 H2 H3 H4.
    assert (M : (q * (-(1 # 20000000000000000)) <= q * (u' - u))%Q) by (apply Qmult_le_l; lra). nra.
Qed.

(** The supercell generated from the same unit cell with the same arguments is
    accepted, also when both cells went through files (16 decimals). *)
Theorem generated_supercell_accepted :
  forall (u u' s s' : cell Qc) ar L ty num k pos tr (N1 N2 N3 : nat) p1 p2 p3 L' SL SL',
    complete u L ty num k pos -> c_true u = Some tr ->
    valid_args ar (Z.of_nat N1) (Z.of_nat N2) (Z.of_nat N3) p1 p2 p3 ->
    0 < N1 -> 0 < N2 -> 0 < N3 -> (Z.of_nat N1 <= 10000000)%Z -> (Z.of_nat N2 <= 10000000)%Z -> (Z.of_nat N3 <= 10000000)%Z ->
    build_super u ar = Ok s -> c_lat s = Some SL ->
    (c_lat u' = Some L' /\ mwithin L L') -> (c_lat s' = Some SL' /\ mwithin SL SL') ->
    check_match_argument u' s' ar = Ok tt.
Proof.
  intros u u' s s' ar L ty num k pos tr N1 N2 N3 p1 p2 p3 L' SL SL' HC HT HV H1 H2 H3 B1 B2 B3 HB HSL (HL' & W1) (HS' & W2).
  destruct (super_cell_correct u ar L ty num k pos N1 N2 N3 p1 p2 p3 HC HV H1 H2 H3) as (s0 & E & SP).
  destruct (super_selection u s0 ar tr N1 N2 N3 p1 p2 p3 HV HT) as (s1 & trs & E2 & _ & _ & _ & _ & Q5 & _).
  unfold build_super in HB. rewrite E in HB. cbn [bind] in HB. rewrite E2 in HB. injection HB as <-.
  pose proof HV as (V1 & V2 & _).
  assert (ES : SL = scaled (Z.of_nat N1) (Z.of_nat N2) (Z.of_nat N3) L).
  { rewrite Q5 in HSL. rewrite (set_super_cell_gen _ _ _ _ _ _ _ _ _ _ _ _ _ HC HV) in E.
    destruct (super_direct_array _ _ _ _) in E; [|discriminate]. cbn [bind] in E. injection E as <-. cbn in HSL. congruence. }
  subst SL. apply (match_check_characterised u' s' ar L' SL' _ _ _ _ _ _ HL' HS' V1 V2).
  destruct W1 as ((A1 & A2 & A3) & (A4 & A5 & A6) & (A7 & A8 & A9)). destruct W2 as ((C1 & C2 & C3) & (C4 & C5 & C6) & (C7 & C8 & C9)).
  unfold scaled in *. cbn [r1 r2 r3 vscale vx vy vz] in *.
  repeat split; (eapply scaled_close; [lia|apply within_diff; eassumption|apply within_diff; assumption]).
Qed.
Print Assumptions generated_supercell_accepted.

(** Only the lattices are compared: the outcome does not depend on the atoms at
    all, so a supercell file with missing or extra atoms is accepted. *)
Theorem match_check_ignores_atoms :
  forall (u u' s s' : cell Qc) ar, c_lat u = c_lat u' -> c_lat s = c_lat s' ->
    check_match_argument u s ar = check_match_argument u' s' ar.
Proof. intros u u' s s' ar H1 H2. unfold check_match_argument. now rewrite H1, H2. Qed.
Print Assumptions match_check_ignores_atoms.
Theorem match_check_detects_atom_count_refuted :
  exists (u s : cell Qc) ar, check_match_argument u s ar = Ok tt /\
    exists nu ns E, c_num u = Some nu /\ c_num s = Some ns /\ enlarge [2; 3; 1]%Z [1; 1; 0]%Z = Ok E /\ a_enl ar = Some [2; 3; 1]%Z /\
      a_pbc ar = Some [1; 1; 0]%Z /\ ns <> map (fun n => (n * E)%Z) nu.
Proof.
  set (s := mkCell (Some (scaled 2 3 1 ex_lat)) (Some ["Ga"]) (Some [1%Z]) false (Some Cartesian) (Some [vq 0 0 1]) None None None).
  exists ex_unit, s, ex_args. split; [vm_compute; reflexivity|].
  exists [1; 2]%Z, [1%Z], 6%Z. repeat split; try reflexivity. discriminate.
Qed.
Print Assumptions match_check_detects_atom_count_refuted.

Example match_check_witness :
  complete ex_unit ex_lat ["Ga"; "As"; "As"] [1; 2]%Z Cartesian [vq 0 0 1; vq 1 2 3; vq 2 2 5] /\
  valid_args ex_args (Z.of_nat 2) (Z.of_nat 3) (Z.of_nat 1) 1 1 0 /\
  exists s SL, build_super ex_unit ex_args = Ok s /\ c_lat s = Some SL /\ mwithin SL SL /\ mwithin ex_lat ex_lat.
Proof.
  assert (WR : forall x, within16 x x).
  { intros x. unfold within16. replace (x - x)%Qc with 0%Qc by ring. split; [discriminate|]. split; [discriminate|]. reflexivity. }
  split; [repeat split|]. split; [repeat split; intros; try lia|]. do 2 eexists. split; [reflexivity|]. split; [reflexivity|]. split; repeat split; apply WR.
Qed.

(** * C25 *)
(** File [m] of the list, read successfully, agrees with [expected]. *)
Definition agrees (files : list (result (list (v3 Qc)))) (m : nat) (expected : list (v3 Qc)) : Prop :=
  exists p, nth_error files m = Some (Ok p) /\ positions_near expected p.
Lemma matches_agrees files m e : matches files m e <-> agrees files m e.
Proof. unfold matches, agrees. split; intros (p & H & H'); exists p; (split; [exact H|]); now apply allclose_iff. Qed.

(** Acceptance is exactly: for the i-th selected atom a and axis j, file 6i+2j
    shows the supercell with copy 0 of atom a moved by +d along the axis and file
    6i+2j+1 by -d, within the numpy tolerance. *)
Theorem file_order_check_characterised :
  forall (u s : cell Qc) ar cur E n d tr files,
    ready s ar cur E n -> c_true u = Some tr -> Forall (fun a => 0 <= a < Z.of_nat n)%Z tr ->
    (check_file_order_nosym u s ar (Some d) files = Ok tt <->
     forall i a j row dir, nth_error tr i = Some a -> nth_error cur (E * Z.to_nat a) = Some row ->
       nth_error [V3 1%Qc 0%Qc 0%Qc; V3 0%Qc 1%Qc 0%Qc; V3 0%Qc 0%Qc 1%Qc] j = Some dir ->
       (forall ef, moved_one cur ef (E * Z.to_nat a) (vadd row (vscale d dir)) -> agrees files (6 * i + 2 * j) ef) /\
       (forall eb, moved_one cur eb (E * Z.to_nat a) (vsub row (vscale d dir)) -> agrees files (6 * i + 2 * j + 1) eb)).
Proof.
  intros u s ar cur E n d tr files [Hc Hl _ (enl & pbc & He & Hp & HE) HP] Ht HF.
  assert (MU : forall e k v, k < length cur -> moved_one cur e k v -> e = set_nth k v cur).
  { intros e k v Hk (M1 & M2 & M3). apply nth_error_ext. intros m. destruct (Nat.eq_dec m k) as [->|N].
    - rewrite M2. symmetry. now apply set_nth_same.
    - rewrite M3 by exact N. symmetry. apply set_nth_other. congruence. }
  assert (HK : forall a, In a tr -> E * Z.to_nat a < length cur).
  { intros a Ha. rewrite Forall_forall in HF. specialize (HF a Ha). rewrite Hl. replace (n * E) with (E * n) by lia. apply Nat.mul_lt_mono_pos_l; lia. }
  unfold check_file_order_nosym, check_order. rewrite Ht, Hc, Hp, He. cbn [of_option bind]. rewrite HE. cbn [bind].
  destruct tr as [|a0 tr0] eqn:Etr.
  { split; [intros _ i a j row dir Hi; destruct i; discriminate|reflexivity]. }
  rewrite <- Etr in *. clear Etr a0 tr0.
  assert (CT := check_targets_iff files cur d E n (map (fun i => (i, eye3)) tr) Hl HP).
  assert (PB : forall (l : list Z) t, t <= length l -> pairs_before (map (fun i => (i, eye3 (A:=Qc))) l) t = 3 * t).
  { induction l as [|a l IH]; intros [|t] Hlt; cbn [length] in Hlt; try reflexivity; try lia. cbn [map pairs_before]. rewrite IH by lia. cbn [eye3 length]. lia. }
  specialize (CT ltac:(apply Forall_forall; intros [a x] Hx; apply in_map_iff in Hx as (b & Eb & Hb); injection Eb as <- <-; rewrite Forall_forall in HF; auto) 0).
  set (T := map (fun i => (i, eye3)) tr) in *.
  assert (G : (match T with [] => Ok tt | _ :: _ => check_targets files cur d (map (fun '(i, dirs) => ((Z.of_nat E * i)%Z, dirs)) T) 0 end)
     = check_targets files cur d (map (fun '(i, dirs) => ((Z.of_nat E * i)%Z, dirs)) T) 0) by (destruct T; reflexivity).
  cbn [bind of_option]. rewrite G, CT. clear G CT. split.
  - intros H i a j row dir Hi Hrow Hd.
    assert (Hi' : nth_error T i = Some (a, eye3)) by (unfold T; rewrite nth_error_map, Hi; reflexivity).
    destruct (H i a eye3 j dir Hi' Hd row Hrow) as (M1 & M2).
    assert (Hlen : i < length tr) by (apply nth_error_Some; congruence).
    unfold T in M1, M2. rewrite PB in M1, M2 by lia. replace (2 * (0 + 3 * i + j)) with (6 * i + 2 * j) in M1, M2 by lia.
    assert (Hk := HK a (nth_error_In _ _ Hi)).
    split; intros e He'; apply MU in He'; try exact Hk; subst e; now apply matches_agrees.
  - intros H i a dirs j dir Hi Hj row Hrow. unfold T in Hi. rewrite nth_error_map in Hi. destruct (nth_error tr i) as [a'|] eqn:Ea; [|discriminate].
    cbn in Hi. injection Hi as -> <-.
    assert (Hlen : i < length tr) by (apply nth_error_Some; congruence).
    unfold T. rewrite PB by lia. replace (2 * (0 + 3 * i + j)) with (6 * i + 2 * j) by lia.
    destruct (H i a j row dir Ea Hrow Hj) as (M1 & M2).
    assert (Hk := HK a (nth_error_In _ _ Ea)).
    split; apply matches_agrees; [apply M1|apply M2]; now apply moved_one_set_nth.
Qed.
Print Assumptions file_order_check_characterised.

(** With symmetry: the t-th required atom (position k in the selection) has
    directions d1 :: more; pair number m = (number of directions of the previous
    atoms) + j is at places 2m and 2m+1. *)
Theorem file_order_check_characterised_sym :
  forall (u s : cell Qc) ar cur E n d tr req files,
    ready s ar cur E n -> c_true u = Some tr -> Forall (fun a => 0 <= a < Z.of_nat n)%Z tr ->
    Forall (fun '(k, _) => k < length tr) req ->
    (check_file_order_sym u s ar (Some d) req files = Ok tt <->
     forall t k d1 more a j row dir, nth_error req t = Some (k, (d1, more)) -> nth_error tr k = Some a ->
       nth_error cur (E * Z.to_nat a) = Some row -> nth_error (d1 :: more) j = Some dir ->
       let m := 2 * (list_sum (map (fun '(_, (_, more)) => S (length more)) (firstn t req)) + j) in
       (forall ef, moved_one cur ef (E * Z.to_nat a) (vadd row (vscale d dir)) -> agrees files m ef) /\
       (forall eb, moved_one cur eb (E * Z.to_nat a) (vsub row (vscale d dir)) -> agrees files (m + 1) eb)).
Proof.
  intros u s ar cur E n d tr req files [Hc Hl _ (enl & pbc & He & Hp & HE) HP] Ht HF HQ.
  assert (MU : forall e k v, k < length cur -> moved_one cur e k v -> e = set_nth k v cur).
  { intros e k v Hk (M1 & M2 & M3). apply nth_error_ext. intros m. destruct (Nat.eq_dec m k) as [->|N].
    - rewrite M2. symmetry. now apply set_nth_same.
    - rewrite M3 by exact N. symmetry. apply set_nth_other. congruence. }
  assert (HK : forall a, In a tr -> E * Z.to_nat a < length cur).
  { intros a Ha. rewrite Forall_forall in HF. specialize (HF a Ha). rewrite Hl. replace (n * E) with (E * n) by lia. apply Nat.mul_lt_mono_pos_l; lia. }
  set (tgt := fun q : nat * (v3 Qc * list (v3 Qc)) => let '(k, (d1, more)) := q in (nth k tr 0%Z, d1 :: more)).
  assert (HM : mapM (fun '(k, (d1, more)) => let! i := py_nth tr k in Ok (i, d1 :: more)) req = Ok (map tgt req)).
  { apply mapM_total. intros [k [d1 more]] Hin. rewrite Forall_forall in HQ. specialize (HQ _ Hin). cbn in HQ.
    unfold py_nth. rewrite (nth_error_nth' tr 0%Z HQ). reflexivity. }
  unfold check_file_order_sym, check_order. rewrite Ht. cbn [of_option bind]. rewrite HM. cbn [bind]. rewrite Hc, Hp, He. cbn [of_option bind]. rewrite HE. cbn [bind].
  assert (CT := check_targets_iff files cur d E n (map tgt req) Hl HP).
  assert (PB : forall (l : list (nat * (v3 Qc * list (v3 Qc)))) t, pairs_before (map tgt l) t = list_sum (map (fun '(_, (_, more)) => S (length more)) (firstn t l))).
  { induction l as [|[k [d1 more]] l IH]; intros [|t]; try reflexivity. cbn [map pairs_before tgt firstn]. rewrite IH. reflexivity. }
  specialize (CT ltac:(apply Forall_forall; intros [a x] Hx; apply in_map_iff in Hx as ([k [d1 more]] & Eb & Hb); cbn in Eb; injection Eb as <- <-;
    rewrite Forall_forall in HF, HQ; apply HF, nth_In; exact (HQ _ Hb)) 0).
  set (T := map tgt req) in *.
  assert (G : (match T with [] => Ok tt | _ :: _ => check_targets files cur d (map (fun '(i, dirs) => ((Z.of_nat E * i)%Z, dirs)) T) 0 end)
     = check_targets files cur d (map (fun '(i, dirs) => ((Z.of_nat E * i)%Z, dirs)) T) 0) by (destruct T; reflexivity).
  rewrite G, CT. clear G CT. cbn zeta. split.
  - intros H t k d1 more a j row dir Hq Ha Hrow Hd.
    assert (Hi' : nth_error T t = Some (a, d1 :: more)).
    { unfold T. rewrite nth_error_map, Hq. unfold tgt. cbn [option_map]. now rewrite (nth_error_nth _ _ 0%Z Ha). }
    destruct (H t a _ j dir Hi' Hd row Hrow) as (M1 & M2). unfold T in M1, M2. rewrite PB in M1, M2. cbn [Nat.add] in M1, M2.
    assert (Hk := HK a (nth_error_In _ _ Ha)).
    split; intros e He'; apply MU in He'; try exact Hk; subst e; now apply matches_agrees.
  - intros H t a dirs j dir Hi Hj row Hrow. unfold T in Hi. rewrite nth_error_map in Hi. destruct (nth_error req t) as [[k [d1 more]]|] eqn:Eq; [|discriminate].
    cbn in Hi. injection Hi as <- <-.
    assert (Hkt : k < length tr) by (rewrite Forall_forall in HQ; exact (HQ _ (nth_error_In _ _ Eq))).
    unfold T. rewrite PB. cbn [Nat.add].
    destruct (H t k d1 more _ j row dir Eq (nth_error_nth' tr 0%Z Hkt) Hrow Hj) as (M1 & M2).
    assert (Hk := HK _ (nth_In tr 0%Z Hkt)).
    split; apply matches_agrees; [apply M1|apply M2]; now apply moved_one_set_nth.
Qed.
Print Assumptions file_order_check_characterised_sym.

(** Completeness: the files written by the pre-process are accepted in order,
    when every structure went through 16-decimal text. *)
Lemma diff_chain (x x' y z : Qc) : diff16 x x' -> diff16 (x + y) z -> near (x' + y) z.
Proof. intros (A & B) (C & D). apply near_iff, close_isclose; clear -A B C D; qcq; lra. Qed.
Lemma diff_near (x x' z : Qc) : diff16 x x' -> diff16 x z -> near x' z.
Proof. intros (A & B) (C & D). apply near_iff, close_isclose; clear -A B C D; qcq; lra. Qed.
Lemma set_nth_near k (cur cur' p : list (v3 Qc)) (w row row' : v3 Qc) :
  Forall2 vwithin cur cur' -> nth_error cur k = Some row -> nth_error cur' k = Some row' ->
  Forall2 vwithin (set_nth k (vadd row w) cur) p -> Forall2 vnear (set_nth k (vadd row' w) cur') p.
Proof.
  intros H. revert k p. induction H as [|a a' l l' Ha Hl IH]; intros k p Hr Hr' Hp; [destruct k; discriminate|].
  destruct k as [|k]; cbn [nth_error set_nth] in *.
  - injection Hr as <-. injection Hr' as <-. inversion Hp as [|? b ? q Hb Hq]; subst. constructor.
    + destruct Ha as (A1 & A2 & A3), Hb as (B1 & B2 & B3). cbn [vadd vx vy vz] in *.
      split; [|split]; cbn [vadd vx vy vz]; eapply diff_chain; apply within_diff; eassumption.
    + clear - Hl Hq. revert q Hq. induction Hl as [|c c' l l' Hc Hl IH]; intros q Hq; inversion Hq; subst; constructor; auto.
      destruct Hc as (A1 & A2 & A3). match goal with X : vwithin c _ |- _ => destruct X as (B1 & B2 & B3) end.
      split; [|split]; eapply diff_near; apply within_diff; eassumption.
  - inversion Hp as [|? b ? q Hb Hq]; subst. constructor; [|now apply IH].
    destruct Ha as (A1 & A2 & A3), Hb as (B1 & B2 & B3). split; [|split]; eapply diff_near; apply within_diff; eassumption.
Qed.
Lemma vsub_vadd (a b : v3 Qc) : vsub a b = vadd a (V3 (- vx b) (- vy b) (- vz b))%Qc.
Proof. destruct a, b; cbn. unfold vsub, vadd. cbn. f_equal; cbn; unfold Qcminus; reflexivity. Qed.
Lemma F2_nth {A B} (R : A -> B -> Prop) l l' k a b : Forall2 R l l' -> nth_error l k = Some a -> nth_error l' k = Some b -> R a b.
Proof. intros H. revert k. induction H; intros [|k] H1 H2; cbn in *; try discriminate; [congruence|eauto]. Qed.

Theorem written_files_accepted :
  forall (u s s' sw : cell Qc) ar cur cur' E n d tr (written : list (out Qc)) files,
    ready s ar cur E n -> c_true u = Some tr -> Forall (fun a => 0 <= a < Z.of_nat n)%Z tr ->
    write_displace_nosym u s ar (Some d) = Ok (sw, written) ->
    (* the supercell of the post-process is the one of the pre-process, rounded *)
    ready s' ar cur' E n -> Forall2 vwithin cur cur' ->
    (* every listed directory holds its file, rounded *)
    (forall m f w, nth_error written m = Some f -> c_cart (o_cell f) = Some w ->
       exists p, nth_error files m = Some (Ok p) /\ Forall2 vwithin w p) ->
    check_file_order_nosym u s' ar (Some d) files = Ok tt.
Proof.
  intros u s s' sw ar cur cur' E n d tr written files HR Ht HF HW HR' HC Hfiles.
  destruct (displaced_files_without_symmetry u s ar cur E n d tr HR Ht HF) as (s2 & fs & EW & _ & HN).
  rewrite HW in EW. injection EW as -> ->.
  apply (file_order_check_characterised u s' ar cur' E n d tr files HR' Ht HF).
  intros i a j row' dir Hi Hrow' Hd.
  assert (Hj : j < 3) by (destruct j as [|[|[|j]]]; [lia|lia|lia|]; cbn in Hd; destruct j; discriminate).
  assert (Hrow : exists row, nth_error cur (E * Z.to_nat a) = Some row).
  { destruct (nth_error cur (E * Z.to_nat a)) eqn:N; [eauto|]. apply nth_error_None in N.
    assert (L := F2_length _ _ _ HC). assert (E * Z.to_nat a < length cur') by (apply nth_error_Some; congruence). lia. }
  destruct Hrow as (row & Hrow).
  destruct (HN i a j Hi Hj row dir Hrow Hd) as (ff & fb & pf & pb & N1 & N2 & _ & _ & _ & _ & C1 & C2 & M1 & M2).
  assert (Hk : E * Z.to_nat a < length cur) by (apply nth_error_Some; congruence).
  assert (Hk' : E * Z.to_nat a < length cur') by (apply nth_error_Some; congruence).
  assert (MU : forall (c e : list (v3 Qc)) k v, k < length c -> moved_one c e k v -> e = set_nth k v c).
  { intros c e k v Hk0 (X1 & X2 & X3). apply nth_error_ext. intros m. destruct (Nat.eq_dec m k) as [->|N].
    - rewrite X2. symmetry. now apply set_nth_same.
    - rewrite X3 by exact N. symmetry. apply set_nth_other. congruence. }
  apply MU in M1; [|exact Hk]. apply MU in M2; [|exact Hk]. subst pf pb.
  destruct (Hfiles _ ff _ N1 ltac:(rewrite C1; reflexivity)) as (p1 & F1 & W1).
  destruct (Hfiles _ fb _ N2 ltac:(rewrite C2; reflexivity)) as (p2 & F2 & W2).
  split; intros e He; apply MU in He; try exact Hk'; subst e.
  - exists p1. split; [exact F1|]. pose proof (set_nth_near _ _ _ _ _ _ _ HC Hrow Hrow' W1) as NN. left. split; [exact (F2_length _ _ _ NN)|exact NN].
  - exists p2. split; [exact F2|]. rewrite vsub_vadd in W2 |- *. pose proof (set_nth_near _ _ _ _ _ _ _ HC Hrow Hrow' W2) as NN. left. split; [exact (F2_length _ _ _ NN)|exact NN].
Qed.
Print Assumptions written_files_accepted.

(** Soundness: a forward place holding a file whose displaced coordinate is the
    backward one (e.g. a swapped pair) is rejected as soon as 2|d| exceeds the
    tolerance at that coordinate, whatever the other files are. *)
Definition coord_of (j : nat) (v : v3 Qc) : Qc := match j with 0 => vx v | 1 => vy v | _ => vz v end.
Theorem swapped_pair_rejected :
  forall (u s : cell Qc) ar cur E n d tr files i a j row p v,
    ready s ar cur E n -> 1 < n * E -> c_true u = Some tr -> Forall (fun a => 0 <= a < Z.of_nat n)%Z tr ->
    nth_error tr i = Some a -> j < 3 -> nth_error cur (E * Z.to_nat a) = Some row ->
    nth_error files (6 * i + 2 * j) = Some (Ok p) -> length p <> 1 ->
    nth_error p (E * Z.to_nat a) = Some v -> coord_of j v = (coord_of j row - d)%Qc ->
    (Q2Qc (1 # 100000000) + Q2Qc (1 # 100000) * Qcabs (coord_of j row - d) < Qcabs (d + d))%Qc ->
    check_file_order_nosym u s ar (Some d) files <> Ok tt.
Proof.
  intros u s ar cur E n d tr files i a j row p v HR Hn Ht HF Hi Hj Hrow Hf Hp Hv Hc Ht' C.
  pose proof HR as [_ Hl _ _ _].
  rewrite (file_order_check_characterised u s ar cur E n d tr files HR Ht HF) in C.
  assert (Hd : exists dir, nth_error [V3 1%Qc 0%Qc 0%Qc; V3 0%Qc 1%Qc 0%Qc; V3 0%Qc 0%Qc 1%Qc] j = Some dir /\ coord_of j dir = 1%Qc).
  { destruct j as [|[|[|j]]]; [| | |lia]; eexists; split; reflexivity. }
  destruct Hd as (dir & Hd & Hd1).
  destruct (C i a j row dir Hi Hrow Hd) as (CF & _). clear C.
  assert (Hk : E * Z.to_nat a < length cur) by (apply nth_error_Some; congruence).
  destruct (CF _ (moved_one_set_nth cur _ _ Hk)) as (p' & Hf' & PN). rewrite Hf in Hf'. injection Hf' as <-.
  destruct PN as [(_ & PN)|[(_ & b & PE & _)|(_ & b & PE & _)]].
  - pose proof (F2_nth _ _ _ _ _ _ PN (set_nth_same _ _ _ Hk) Hv) as (N1 & N2 & N3).
    assert (NC : near (coord_of j (vadd row (vscale d dir))) (coord_of j v)) by (destruct j as [|[|j]]; assumption).
    assert (EC : coord_of j (vadd row (vscale d dir)) = (coord_of j row + d)%Qc).
    { transitivity (coord_of j row + d * coord_of j dir)%Qc; [destruct j as [|[|j]]; reflexivity|]. rewrite Hd1. ring. }
    rewrite EC, Hc in NC. unfold near in NC.
    replace (coord_of j row + d - (coord_of j row - d))%Qc with (d + d)%Qc in NC by ring.
    exact (Qclt_not_le _ _ Ht' NC).
  - apply (f_equal (@length _)) in PE. rewrite set_nth_length in PE. cbn [length] in PE. lia.
  - apply (f_equal (@length _)) in PE. cbn [length] in PE. lia.
Qed.
Print Assumptions swapped_pair_rejected.

(** witness: the hypotheses of the three theorems hold for a generated supercell *)
Example file_order_witness :
  exists s cur, build_super ex_unit ex_args = Ok s /\ ready s ex_args cur 6 3 /\ c_true ex_unit = Some [0; 2]%Z /\
    Forall (fun a => 0 <= a < Z.of_nat 3)%Z [0; 2]%Z /\ 1 < 3 * 6.
Proof.
  destruct (built_supercell_is_ready ex_unit ex_args ex_lat ["Ga"; "As"; "As"] [1; 2]%Z Cartesian [vq 0 0 1; vq 1 2 3; vq 2 2 5] [0; 2]%Z 2 3 1 1 1 0)%Z
    as (s & cur & H1 & H2); [repeat split|reflexivity|repeat split; intros; lia|lia|lia|lia|].
  exists s, cur. split; [exact H1|]. split; [exact H2|]. split; [reflexivity|]. split; [repeat constructor; lia|lia].
Qed.
