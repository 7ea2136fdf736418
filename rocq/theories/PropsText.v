(** Property theorems: structure and force files (C17-C23, C57).
    Models: Text.v (readers and writers of InterPhon/inout), Cell.v (setters). *)
From Coq Require Import String Ascii ZArith Arith Bool Lia List Sorted QArith Qcanon.
From Verif Require Import Base Dec Field Cell Text TextFacts TextRound.
Import ListNotations.
Local Open Scope string_scope.
Local Open Scope list_scope.
Local Open Scope nat_scope.

(** * Specification vocabulary *)

(** [y] is [x] up to half a unit of the 16th decimal, and exactly [x] when [x] is
    a multiple of 1e-16. *)
Definition within16 (x y : Qc) : Prop :=
  (Qcopp (Q2Qc (1 # 20000000000000000)) <= y - x)%Qc /\ (y - x <= Q2Qc (1 # 20000000000000000))%Qc /\
  (forall k : Z, x = Q2Qc (k # 10000000000000000) -> y = x).
Definition vwithin (u v : v3 Qc) : Prop := within16 (vx u) (vx v) /\ within16 (vy u) (vy v) /\ within16 (vz u) (vz v).
Definition mwithin (a b : m3 Qc) : Prop := vwithin (r1 a) (r1 b) /\ vwithin (r2 a) (r2 b) /\ vwithin (r3 a) (r3 b).

(** The type list described by (type, count) groups, and the counts. *)
Fixpoint ungroup (gs : list (string * nat)) : list string :=
  match gs with [] => [] | (t, n) :: r => repeat t n ++ ungroup r end.
Fixpoint group_sizes (gs : list (string * nat)) : list Z :=
  match gs with [] => [] | (_, n) :: r => Z.of_nat n :: group_sizes r end.
(** consecutive groups have different types, sizes are positive *)
Fixpoint maximal_runs (gs : list (string * nat)) : Prop :=
  match gs with
  | [] => True
  | (t, n) :: r => 0 < n /\ match r with [] => True | (t', _) :: _ => t <> t' end /\ maximal_runs r
  end.

(** What "the same structure was read back" means.  [n]: atoms; [sel],[tr]: the
    selective flag and the selection of the written cell. *)
Definition same_geometry (L : m3 Qc) (ty : list string) (pos : list (v3 Qc)) (c : cell Qc) : Prop :=
  (exists L', c_lat c = Some L' /\ mwithin L L') /\ c_type c = Some ty /\
  (exists pos', c_cart c = Some pos' /\ Forall2 vwithin pos pos') /\ c_coord c = Some Cartesian.
Definition same_selection (sel : bool) (tr : list Z) (n : nat) (c : cell Qc) : Prop :=
  exists tr', c_true c = Some tr' /\ NoDup tr' /\ StronglySorted Z.lt tr' /\
    (forall z, In z tr' <-> ((0 <= z < Z.of_nat n)%Z /\ (sel = true -> In z tr))) /\
    c_xyz c = Some (flat_map (fun i => [i; i; i]) tr').

(** text tokens: non-empty, without blanks *)
Definition token (s : string) : Prop := word s.

(** * C17 *)
Theorem coordinate_text_accuracy :
  forall x : Qc, exists y, parse_float (fmt16 x) = Some y /\ within16 x y.
Proof.
  intros x. exists (rnd x). split; [apply fmt16_parse|]. destruct (rnd_close x) as (A & B & C).
  split; [exact A|]. split; [exact B|]. intros k Hk. apply C. exists k. exact Hk.
Qed.
Print Assumptions coordinate_text_accuracy.

(** The format is a fixed-point literal: at least 18 characters, 16 decimals. *)
Theorem coordinate_text_shape :
  forall x : Qc, exists sgn ip fp, fmt16 x = (sgn ++ ip ++ "." ++ fp)%string /\ (sgn = "" \/ sgn = "-")%string /\
    ip <> ""%string /\ all_digits ip = true /\ all_digits fp = true /\ String.length fp = 16.
Proof.
  intros x. unfold fmt16. fold (rnd_units x). pose proof (rnd_units_nonneg x) as NN.
  set (m := rnd_units x) in *. unfold fmt16_unsigned.
  assert (D : (0 <= m / ten16)%Z) by (apply Z.div_pos; [exact NN|reflexivity]).
  destruct (nat_digits_spec _ D) as (D1 & _ & D3).
  destruct (fix16_ok (m mod ten16)) as (F1 & F2 & _); [apply Z.mod_pos_bound; reflexivity|].
  exists (if (Qnum (this x) <? 0)%Z then "-" else "")%string, (nat_digits (m / ten16)), (fix_digits 16 (m mod ten16) "").
  split; [destruct (_ <? 0)%Z; reflexivity|]. split; [destruct (_ <? 0)%Z; auto|]. auto.
Qed.
Print Assumptions coordinate_text_shape.

Example coordinate_text_witness : fmt16 (Q2Qc (-1 # 3)) = "-0.3333333333333333"%string /\ fmt16 (Q2Qc (5 # 2)) = "2.5000000000000000"%string.
Proof. split; reflexivity. Qed.

(** * bridging to the proof files *)
Lemma within_rnd x : within16 x (rnd x).
Proof.
  destruct (rnd_close x) as (A & B & C). split; [exact A|]. split; [exact B|]. intros k Hk. apply C. exists k. exact Hk.
Qed.
Lemma vwithin_rnd v : vwithin v (vrnd v).
Proof. repeat split; apply within_rnd. Qed.
Lemma Forall2_rnd l : Forall2 vwithin l (map vrnd l).
Proof. induction l; constructor; auto using vwithin_rnd. Qed.
Lemma ungroup_expand gs : expand gs = ungroup gs.
Proof. unfold expand. induction gs as [|[t n] gs IH]; [reflexivity|]. cbn [map concat ungroup fst snd]. now rewrite IH. Qed.
Lemma sizes_counts gs : counts gs = group_sizes gs.
Proof. unfold counts. induction gs as [|[t n] gs IH]; [reflexivity|]. cbn [map group_sizes snd]. now rewrite IH. Qed.
Lemma maximal_iff gs : maximal_runs gs <-> Forall (fun g => 0 < snd g) gs /\ distinct_neighbours (map fst gs).
Proof.
  induction gs as [|[t n] gs IH]; [split; [split; [constructor|exact I]|intros; exact I]|].
  cbn [maximal_runs map fst]. rewrite IH. destruct gs as [|[t' n'] gs]; cbn [map fst distinct_neighbours].
  - split.
    + intros (H & _ & _ & _). split; [constructor; [exact H|constructor]|exact I].
    + intros (H & _). inversion H; subst. repeat split; auto.
  - split.
    + intros (H & N & F & D). split; [constructor; assumption|split; assumption].
    + intros (F & N & D). inversion F; subst. auto.
Qed.
Lemma read_back_geometry L ty num sel pos tr : same_geometry L ty pos (read_back L ty num sel pos tr).
Proof.
  unfold same_geometry, read_back. cbn [c_lat c_type c_cart c_coord].
  split; [eexists; split; [reflexivity|repeat split; apply within_rnd]|]. split; [reflexivity|].
  split; [|reflexivity]. eexists. split; [reflexivity|apply Forall2_rnd].
Qed.
Lemma in_sel_In tr i : in_sel tr i = true <-> In (Z.of_nat i) tr.
Proof. unfold in_sel. rewrite existsb_exists. split; [intros (z & H & E); apply Z.eqb_eq in E; now subst|intros H; exists (Z.of_nat i); split; [exact H|apply Z.eqb_refl]]. Qed.
Lemma filter_seq_lt (g : nat -> bool) n : forall i, StronglySorted Z.lt (map Z.of_nat (filter g (seq i n))).
Proof.
  induction n as [|n IH]; intros i; cbn [seq filter]; [constructor|].
  destruct (g i); [|apply IH]. cbn [map]. constructor; [apply IH|].
  apply Forall_forall. intros z Hz. apply in_map_iff in Hz as (k & <- & Hk). apply filter_In in Hk as (Hk & _). apply in_seq in Hk. lia.
Qed.
Lemma slt_nodup l : StronglySorted Z.lt l -> NoDup l.
Proof.
  induction 1 as [|a l Hl IH Ha]; constructor; [|exact IH]. intros Hin. rewrite Forall_forall in Ha. specialize (Ha _ Hin). lia.
Qed.
Lemma xyz_map l : map Z.of_nat (xyz_of l) = flat_map (fun i => [i; i; i]) (map Z.of_nat l).
Proof. unfold xyz_of. induction l as [|a l IH]; [reflexivity|]. cbn [flat_map map app]. now rewrite IH. Qed.
Lemma read_back_selection L ty num s pos sel tr :
  same_selection sel tr (length pos) (read_back L ty num s pos (kept sel tr (length pos))).
Proof.
  unfold same_selection, read_back. cbn [c_true c_xyz]. eexists. split; [reflexivity|].
  assert (S : StronglySorted Z.lt (map Z.of_nat (kept sel tr (length pos)))) by (rewrite kept_spec; apply filter_seq_lt).
  split; [apply slt_nodup, S|]. split; [exact S|]. split; [|now rewrite xyz_map].
  intros z. rewrite kept_spec, in_map_iff. split.
  - intros (k & <- & Hk). apply filter_In in Hk as (Hk & Hs). apply in_seq in Hk. split; [lia|]. intros ->.
    cbn [andb] in Hs. rewrite negb_involutive in Hs. now apply in_sel_In.
  - intros (Hz & Hs). exists (Z.to_nat z). rewrite Z2Nat.id by lia. split; [reflexivity|]. apply filter_In. split; [apply in_seq; lia|].
    destruct sel; [|reflexivity]. cbn [andb]. rewrite negb_involutive. apply in_sel_In. rewrite Z2Nat.id by lia. auto.
Qed.

(** * C18 *)
Theorem vasp_file_roundtrip :
  forall (c : cell Qc) comment L gs pos tr before,
    c_lat c = Some L -> c_type c = Some (ungroup gs) -> c_num c = Some (group_sizes gs) ->
    c_cart c = Some pos -> c_true c = Some tr ->
    gs <> [] -> (forall t n, In (t, n) gs -> token t /\ 0 < n) -> length (ungroup gs) = length pos ->
    no_nl comment = true ->
    exists lines c', vasp_write c comment = Ok lines /\
      read_unit_cell vasp_read before (to_text lines) = (c', None) /\
      same_geometry L (ungroup gs) pos c' /\ c_num c' = Some (group_sizes gs) /\
      c_sel c' = c_sel c /\ same_selection (c_sel c) tr (length pos) c'.
Proof.
  intros c comment L gs pos tr before H1 H2 H3 H4 H5 Hne Hg Hl Hc.
  rewrite <- ungroup_expand in *. rewrite <- sizes_counts in *.
  destruct (vasp_roundtrip c comment L gs pos tr before) as (lines & W & R); auto.
  { apply Forall_forall. intros [t n] Hin. apply (Hg t n Hin). }
  exists lines. eexists. split; [exact W|]. split; [exact R|]. split; [apply read_back_geometry|]. split; [reflexivity|]. split; [reflexivity|].
  apply read_back_selection.
Qed.
Print Assumptions vasp_file_roundtrip.

(** * C19, C20: species names for which the reader's tags cannot be confused. *)
(** Quantum ESPRESSO: no underscore, not containing "nat", not the token "0". *)
Definition espresso_species (a : string) : Prop :=
  token a /\ free "_" a = true /\ contains "nat" a = false /\ a <> "0"%string.
(** FHI-aims: no underscore. *)
Definition aims_species (a : string) : Prop := token a /\ free "_" a = true.

(** the selective flag is inferred by these readers: set iff some atom is fixed *)
Definition some_fixed (sel : bool) (tr : list Z) (n : nat) : Prop :=
  sel = true /\ exists i, i < n /\ ~ In (Z.of_nat i) tr.
Lemma fixed_some_iff sel tr n : fixed_some sel tr n = true <-> some_fixed sel tr n.
Proof.
  unfold fixed_some, some_fixed. rewrite andb_true_iff, existsb_exists. split.
  - intros (-> & i & Hi & Hn). split; [reflexivity|]. exists i. apply in_seq in Hi. split; [lia|]. rewrite <- in_sel_In. intros E. now rewrite E in Hn.
  - intros (-> & i & Hi & Hn). split; [reflexivity|]. exists i. split; [apply in_seq; lia|]. rewrite <- in_sel_In in Hn. destruct (in_sel tr i); [congruence|reflexivity].
Qed.

Theorem espresso_file_roundtrip :
  forall (c : cell Qc) species wt L ty pos tr before,
    c_lat c = Some L -> c_type c = Some ty -> c_cart c = Some pos -> c_true c = Some tr ->
    0 < length pos -> length ty = length pos -> (forall a, In a ty -> espresso_species a) ->
    (forall a, In a species -> In a ty) -> (forall a, In a species -> num_text (wt a)) ->
    exists lines c', espresso_write species wt c = Ok lines /\
      read_unit_cell espresso_read before (to_text lines) = (c', None) /\
      same_geometry L ty pos c' /\
      (c_sel c' = true <-> some_fixed (c_sel c) tr (length pos)) /\ same_selection (c_sel c) tr (length pos) c' /\
      (forall gs, ty = ungroup gs -> maximal_runs gs -> gs <> [] -> c_num c' = Some (group_sizes gs)).
Proof.
  intros c species wt L ty pos tr before H1 H2 H3 H4 H0 Hl Hn Hs Hw.
  destruct (espresso_roundtrip species wt c L ty pos tr before) as (lines & W & R); auto.
  { apply Forall_forall. exact Hn. }
  exists lines. eexists. split; [exact W|]. split; [exact R|]. split; [apply read_back_geometry|]. split; [cbn; apply fixed_some_iff|].
  split; [apply read_back_selection|]. intros gs -> M Hne. cbn [c_num read_back]. f_equal.
  rewrite <- ungroup_expand, <- sizes_counts. apply maximal_iff in M as (M1 & M2). now apply run_lengths_expand.
Qed.
Print Assumptions espresso_file_roundtrip.

Theorem aims_file_roundtrip :
  forall (c : cell Qc) L ty pos tr before,
    c_lat c = Some L -> c_type c = Some ty -> c_cart c = Some pos -> c_true c = Some tr ->
    0 < length pos -> length ty = length pos -> (forall a, In a ty -> aims_species a) ->
    exists lines c', aims_write c = Ok lines /\
      read_unit_cell aims_read before (to_text lines) = (c', None) /\
      same_geometry L ty pos c' /\
      (c_sel c' = true <-> some_fixed (c_sel c) tr (length pos)) /\ same_selection (c_sel c) tr (length pos) c' /\
      (forall gs, ty = ungroup gs -> maximal_runs gs -> gs <> [] -> c_num c' = Some (group_sizes gs)).
Proof.
  intros c L ty pos tr before H1 H2 H3 H4 H0 Hl Hn.
  destruct (aims_roundtrip c L ty pos tr before) as (lines & W & R); auto.
  { apply Forall_forall. exact Hn. }
  exists lines. eexists. split; [exact W|]. split; [exact R|]. split; [apply read_back_geometry|]. split; [cbn; apply fixed_some_iff|].
  split; [apply read_back_selection|]. intros gs -> M Hne. cbn [c_num read_back]. f_equal.
  rewrite <- ungroup_expand, <- sizes_counts. apply maximal_iff in M as (M1 & M2). now apply run_lengths_expand.
Qed.
Print Assumptions aims_file_roundtrip.

(** The written Quantum ESPRESSO file never drops the selective flag silently?  It
    does: a selective cell in which every atom is selected is read back as
    non-selective (the selection itself survives). *)
Theorem selective_flag_roundtrip_refuted :
  exists (c : cell Qc) lines c', c_sel c = true /\ aims_write c = Ok lines /\
    read_unit_cell aims_read cell_init (to_text lines) = (c', None) /\ c_sel c' = false.
Proof.
  set (o := Q2Qc 1). set (z := Q2Qc 0).
  set (L := M3 (V3 o z z) (V3 z o z) (V3 z z o)).
  set (c := mkCell (Some L) (Some ["Si"]) (Some [1%Z]) true (Some Cartesian) (Some [V3 z z o]) (Some [0%Z]) (Some [0; 0; 0]%Z) None).
  destruct (aims_roundtrip c L ["Si"] [V3 z z o] [0%Z] cell_init) as (lines & W & R); try reflexivity.
  { cbn; lia. }
  { repeat constructor; discriminate. }
  exists c, lines. eexists. split; [reflexivity|]. split; [exact W|]. split; [exact R|]. reflexivity.
Qed.
Print Assumptions selective_flag_roundtrip_refuted.

(** witness for the three round trips: two species, one fixed atom *)
Section Witness.
  Let q (a : Z) (b : positive) := Q2Qc (a # b).
  Definition wit_L : m3 Qc := M3 (V3 (q 7 3) (q 0 1) (q 0 1)) (V3 (q (-1) 2) (q 4 1) (q 0 1)) (V3 (q 0 1) (q 0 1) (q 20 1)).
  Definition wit_pos : list (v3 Qc) := [V3 (q 0 1) (q 1 3) (q 1 1); V3 (q 1 7) (q 2 1) (q 3 1); V3 (q 2 1) (q 2 1) (q 5 1)].
  Definition wit_gs : list (string * nat) := [("Ga", 1); ("As", 2)].
  Definition wit_cell : cell Qc :=
    mkCell (Some wit_L) (Some (ungroup wit_gs)) (Some (group_sizes wit_gs)) true (Some Cartesian) (Some wit_pos) (Some [0; 2]%Z) (Some [0; 0; 0; 2; 2; 2]%Z) None.
End Witness.
Example roundtrip_witness :
  wit_gs <> [] /\ (forall t n, In (t, n) wit_gs -> token t /\ 0 < n) /\ length (ungroup wit_gs) = length wit_pos /\
  maximal_runs wit_gs /\ (forall a, In a (ungroup wit_gs) -> espresso_species a /\ aims_species a) /\
  some_fixed (c_sel wit_cell) [0; 2]%Z (length wit_pos).
Proof.
  split; [discriminate|]. split.
  { intros t n [H|[H|[]]]; injection H as <- <-; (split; [split; [discriminate|reflexivity]|lia]). }
  split; [reflexivity|]. split; [cbn; repeat split; try lia; discriminate|]. split.
  { intros a H. cbn in H. destruct H as [<-|[<-|[<-|[]]]]; repeat split; try discriminate; reflexivity. }
  split; [reflexivity|]. exists 1. split; [cbn; lia|]. cbn. intros [H|[H|[]]]; discriminate.
Qed.

(** * C21 *)
Theorem run_length_counts :
  forall l, l <> [] -> exists gs, run_lengths l = group_sizes gs /\ ungroup gs = l /\ maximal_runs gs.
Proof.
  intros l H. destruct (run_lengths_spec l H) as (gs & E1 & E2 & E3 & E4). exists gs.
  rewrite <- sizes_counts, <- ungroup_expand. rewrite maximal_iff. auto.
Qed.
Print Assumptions run_length_counts.

(** maximal runs are determined by the type sequence, so the counts are THE
    run-length encoding *)
Theorem run_length_unique :
  forall gs gs', maximal_runs gs -> maximal_runs gs' -> ungroup gs = ungroup gs' -> group_sizes gs = group_sizes gs'.
Proof.
  intros gs gs' M M' E.
  destruct gs as [|g gs].
  - destruct gs' as [|[t n] gs']; [reflexivity|]. cbn in M', E. destruct n; [lia|discriminate].
  - assert (gs' <> []) by (intros ->; destruct g as [t n]; cbn in M, E; destruct n; [lia|discriminate]).
    rewrite <- !sizes_counts. rewrite <- (run_lengths_expand (g :: gs)); [|apply maximal_iff; exact M|apply maximal_iff; exact M|discriminate].
    rewrite <- (run_lengths_expand gs'); [|apply maximal_iff; exact M'|apply maximal_iff; exact M'|assumption].
    rewrite !ungroup_expand. now rewrite E.
Qed.
Print Assumptions run_length_unique.

Theorem run_length_total : forall l, fold_right Z.add 0%Z (run_lengths l) = Z.of_nat (length l).
Proof. exact run_lengths_sum. Qed.
Print Assumptions run_length_total.

Example run_length_witness : run_lengths ["O"; "O"; "Ti"; "O"] = [2; 1; 1]%Z.
Proof. reflexivity. Qed.

(** * C22, C23: force files *)

(** [l] is a line whose tokens number c, c+1, c+2 are the three numbers of [f]. *)
Definition force_line (c : nat) (l : string) (f : v3 Qc) : Prop :=
  exists before tx ty tz after, split_ws l = before ++ tx :: ty :: tz :: after /\ length before = c /\
    parse_float tx = Some (vx f) /\ parse_float ty = Some (vy f) /\ parse_float tz = Some (vz f).
Definition scaled_row (k : Qc) (f : v3 Qc) : list Qc := [(vx f * k)%Qc; (vy f * k)%Qc; (vz f * k)%Qc].

Lemma F2_length {A B} (R : A -> B -> Prop) l l' : Forall2 R l l' -> length l = length l'.
Proof. induction 1; cbn; congruence. Qed.
Lemma find_first pre tag tl rest : (forall l, In l pre -> contains tag l = false) -> contains tag tl = true ->
  find_line (contains tag) (pre ++ tl :: rest) = Some (length pre).
Proof.
  intros Hp Ht. induction pre as [|a pre IH]; cbn [app find_line length]; [now rewrite Ht|].
  rewrite (Hp a) by (left; reflexivity). rewrite IH by (intros; apply Hp; right; assumption). reflexivity.
Qed.
Lemma find_none tag ls : (forall l, In l ls -> contains tag l = false) -> find_line (contains tag) ls = None.
Proof.
  intros H. induction ls as [|a ls IH]; [reflexivity|]. cbn [find_line]. rewrite (H a) by (left; reflexivity).
  rewrite IH by (intros; apply H; right; assumption). reflexivity.
Qed.
Lemma force_rows c rows fs : Forall2 (force_line c) rows fs ->
  asfarray (map (fun l => tslice c (c + 3) (split_ws l)) rows) = Ok (map vrow fs).
Proof.
  intros H. unfold asfarray.
  assert (M : mapM parse_row (map (fun l => tslice c (c + 3) (split_ws l)) rows) = Ok (map vrow fs)).
  { induction H as [|l f rows fs (b & tx & ty & tz & a & E & Hc & P1 & P2 & P3) _ IH]; [reflexivity|].
    cbn [map mapM]. rewrite E. assert (TS : tslice c (c + 3) (b ++ tx :: ty :: tz :: a) = [tx; ty; tz]).
    { unfold tslice. replace (c + 3 - c) with 3 by lia. rewrite (skipn_app_exact b) by (symmetry; exact Hc). reflexivity. }
    rewrite TS. unfold parse_row at 1. cbn [mapM]. rewrite P1, P2, P3. cbn [of_option bind].
    rewrite IH. reflexivity. }
  rewrite M. cbn [bind]. replace (rectangular (map vrow fs)) with true; [reflexivity|].
  destruct fs as [|f fs]; [reflexivity|]. cbn [map rectangular]. symmetry. apply forallb_forall. intros x Hx.
  apply in_map_iff in Hx as (v & <- & _). reflexivity.
Qed.
Lemma scale_vrow k fs : scale_rows k (map vrow fs) = map (scaled_row k) fs.
Proof. unfold scale_rows. rewrite map_map. apply map_ext. intros [x y z]. reflexivity. Qed.

Lemma force_block_ok tag skip c k n pre tl hdr rows post fs :
  (forall l, In l pre -> contains tag l = false) -> contains tag tl = true -> S (length hdr) = skip ->
  (length rows = n \/ (length rows <= n /\ post = [])) -> Forall2 (force_line c) rows fs ->
  force_block tag skip c (c + 3) k (pre ++ tl :: hdr ++ rows ++ post) n = Ok (map (scaled_row k) fs).
Proof.
  intros Hp Ht Hs Hr Hf. unfold force_block. rewrite find_first by assumption.
  replace (pre ++ tl :: hdr ++ rows ++ post) with ((pre ++ tl :: hdr) ++ rows ++ post) by (rewrite <- app_assoc; reflexivity).
  assert (LP : length pre + skip = length (pre ++ tl :: hdr)) by (rewrite app_length; cbn [length]; lia).
  rewrite LP.
  assert (SL : py_slice ((pre ++ tl :: hdr) ++ rows ++ post) (length (pre ++ tl :: hdr)) (Z.of_nat (length (pre ++ tl :: hdr) + n)) = rows).
  { destruct Hr as [E|(E & ->)].
    - rewrite Nat2Z.inj_add, <- E. apply py_slice_mid.
    - rewrite app_nil_r. apply py_slice_ge. lia. }
  rewrite SL, (force_rows c rows fs Hf). cbn [bind]. now rewrite scale_vrow.
Qed.

(** eV/Angstrom in J/m, and Rydberg/bohr with the constants of the code *)
Definition eV_per_Angstrom : Qc := Q2Qc (1602 # 1000000000000).
Lemma ev_ang_eq : ev_ang = eV_per_Angstrom.
Proof. apply Qc_is_canon. reflexivity. Qed.
Definition Ry_per_bohr : Qc := Q2Qc ((13605662 * 1602) # (529177 * 1000000000000)).
Lemma ry_au_eq : ry_au = Ry_per_bohr.
Proof. apply Qc_is_canon. reflexivity. Qed.

Theorem vasprun_forces_read :
  forall n pre tagline rows post fs,
    (forall l, In l pre -> contains "forces" l = false) -> contains "forces" tagline = true ->
    length rows = n -> Forall2 (force_line 1) rows fs ->
    vasp_forces "vasprun.xml" (pre ++ tagline :: rows ++ post) n = Ok (map (scaled_row eV_per_Angstrom) fs).
Proof.
  intros n pre tl rows post fs Hp Ht Hr Hf. unfold vasp_forces. cbn [String.eqb Ascii.eqb Bool.eqb].
  rewrite <- ev_ang_eq. now apply (force_block_ok "forces" 1 1 ev_ang n pre tl [] rows post fs); auto.
Qed.
Print Assumptions vasprun_forces_read.

Theorem outcar_forces_read :
  forall n pre tagline ruler rows post fs,
    (forall l, In l pre -> contains "TOTAL-FORCE" l = false) -> contains "TOTAL-FORCE" tagline = true ->
    length rows = n -> Forall2 (force_line 3) rows fs ->
    vasp_forces "OUTCAR" (pre ++ tagline :: ruler :: rows ++ post) n = Ok (map (scaled_row eV_per_Angstrom) fs).
Proof.
  intros n pre tl ruler rows post fs Hp Ht Hr Hf. unfold vasp_forces. cbn [String.eqb Ascii.eqb Bool.eqb].
  rewrite <- ev_ang_eq. now apply (force_block_ok "TOTAL-FORCE" 2 3 ev_ang n pre tl [ruler] rows post fs); auto.
Qed.
Print Assumptions outcar_forces_read.

Theorem espresso_forces_read :
  forall n pre tagline blank rows post fs,
    (forall l, In l pre -> contains "Forces acting on atoms" l = false) -> contains "Forces acting on atoms" tagline = true ->
    length rows = n -> Forall2 (force_line 6) rows fs ->
    espresso_forces (pre ++ tagline :: blank :: rows ++ post) n = Ok (map (scaled_row Ry_per_bohr) fs).
Proof.
  intros n pre tl blank rows post fs Hp Ht Hr Hf. unfold espresso_forces. rewrite <- ry_au_eq.
  now apply (force_block_ok "Forces acting on atoms" 2 6 ry_au n pre tl [blank] rows post fs); auto.
Qed.
Print Assumptions espresso_forces_read.

Theorem aims_forces_read :
  forall n pre tagline rows post fs,
    (forall l, In l pre -> contains "Total atomic forces" l = false) -> contains "Total atomic forces" tagline = true ->
    length rows = n -> Forall2 (force_line 2) rows fs ->
    aims_forces (pre ++ tagline :: rows ++ post) n = Ok (map (scaled_row eV_per_Angstrom) fs).
Proof.
  intros n pre tl rows post fs Hp Ht Hr Hf. unfold aims_forces. rewrite <- ev_ang_eq.
  now apply (force_block_ok "Total atomic forces" 1 2 ev_ang n pre tl [] rows post fs); auto.
Qed.
Print Assumptions aims_forces_read.

(** Consequence: in a run with several ionic steps it is the FIRST step's forces
    that are used ([later] may contain further blocks). *)
Theorem first_force_block_wins :
  forall n pre t1 rows1 later t2 rows2 post fs1,
    (forall l, In l pre -> contains "forces" l = false) -> contains "forces" t1 = true -> contains "forces" t2 = true ->
    length rows1 = n -> Forall2 (force_line 1) rows1 fs1 ->
    vasp_forces "vasprun.xml" (pre ++ t1 :: rows1 ++ later ++ t2 :: rows2 ++ post) n = Ok (map (scaled_row eV_per_Angstrom) fs1).
Proof. intros. now apply vasprun_forces_read. Qed.
Print Assumptions first_force_block_wins.

Example forces_witness :
  let ls := ["<calculation>"; "<varray name=""forces"" >"; " <v>  0.10 -0.20  1.5e-1 </v>"; " <v> 0 1 2 </v>"; "</varray>"]%string in
  (forall l, In l ["<calculation>"%string] -> contains "forces" l = false) /\
  contains "forces" "<varray name=""forces"" >" = true /\
  Forall2 (force_line 1) [" <v>  0.10 -0.20  1.5e-1 </v>"; " <v> 0 1 2 </v>"]%string
     [V3 (Q2Qc (1 # 10)) (Q2Qc (-1 # 5)) (Q2Qc (3 # 20)); V3 (Q2Qc 0) (Q2Qc 1) (Q2Qc 2)].
Proof.
  split; [intros l [<-|[]]; reflexivity|]. split; [reflexivity|].
  assert (P : forall s q, match parse_float s with Some r => Qeq_bool r q | None => false end = true -> parse_float s = Some (Q2Qc q)).
  { intros s q H. destruct (parse_float s) as [r|]; [|discriminate]. f_equal. apply Qc_is_canon. apply Qeq_bool_iff in H. rewrite H. cbn. symmetry; apply Qred_correct. }
  constructor; [|constructor; [|constructor]].
  - exists ["<v>"%string], "0.10"%string, "-0.20"%string, "1.5e-1"%string, ["</v>"%string]. split; [reflexivity|]. split; [reflexivity|].
    split; [|split]; apply P; vm_compute; reflexivity.
  - exists ["<v>"%string], "0"%string, "1"%string, "2"%string, ["</v>"%string]. split; [reflexivity|]. split; [reflexivity|].
    split; [|split]; apply P; vm_compute; reflexivity.
Qed.

(** C23 *)
Theorem force_file_without_tag_rejected :
  forall ls n,
    ((forall l, In l ls -> contains "forces" l = false) -> vasp_forces "vasprun.xml" ls n = Err EAssert) /\
    ((forall l, In l ls -> contains "TOTAL-FORCE" l = false) -> vasp_forces "OUTCAR" ls n = Err EAssert) /\
    ((forall l, In l ls -> contains "Forces acting on atoms" l = false) -> espresso_forces ls n = Err EAssert) /\
    ((forall l, In l ls -> contains "Total atomic forces" l = false) -> aims_forces ls n = Err EAssert).
Proof.
  intros ls n. repeat split; intros H;
    [unfold vasp_forces; cbn [String.eqb Ascii.eqb Bool.eqb] | unfold vasp_forces; cbn [String.eqb Ascii.eqb Bool.eqb] | unfold espresso_forces | unfold aims_forces];
    unfold force_block; now rewrite find_none.
Qed.
Print Assumptions force_file_without_tag_rejected.

Theorem other_vasp_file_names_rejected :
  forall fname ls n, fname <> "vasprun.xml"%string -> fname <> "OUTCAR"%string -> vasp_forces fname ls n = Err EUnbound.
Proof.
  intros f ls n H1 H2. unfold vasp_forces. destruct (String.eqb_spec f "vasprun.xml"); [congruence|].
  destruct (String.eqb_spec f "OUTCAR"); [congruence|reflexivity].
Qed.
Print Assumptions other_vasp_file_names_rejected.

(** A force block cut off by the end of the file is accepted with fewer rows. *)
Theorem truncated_force_files_accepted :
  forall n pre rows fs, length rows < n ->
    (forall tl, (forall l, In l pre -> contains "forces" l = false) -> contains "forces" tl = true -> Forall2 (force_line 1) rows fs ->
       exists m, vasp_forces "vasprun.xml" (pre ++ tl :: rows) n = Ok m /\ length m < n) /\
    (forall tl ruler, (forall l, In l pre -> contains "TOTAL-FORCE" l = false) -> contains "TOTAL-FORCE" tl = true -> Forall2 (force_line 3) rows fs ->
       exists m, vasp_forces "OUTCAR" (pre ++ tl :: ruler :: rows) n = Ok m /\ length m < n) /\
    (forall tl blank, (forall l, In l pre -> contains "Forces acting on atoms" l = false) -> contains "Forces acting on atoms" tl = true -> Forall2 (force_line 6) rows fs ->
       exists m, espresso_forces (pre ++ tl :: blank :: rows) n = Ok m /\ length m < n) /\
    (forall tl, (forall l, In l pre -> contains "Total atomic forces" l = false) -> contains "Total atomic forces" tl = true -> Forall2 (force_line 2) rows fs ->
       exists m, aims_forces (pre ++ tl :: rows) n = Ok m /\ length m < n).
Proof.
  intros n pre rows fs Hn.
  assert (LF : forall c k, Forall2 (force_line c) rows fs -> length (map (scaled_row k) fs) < n).
  { intros c k H. rewrite map_length, <- (F2_length _ _ _ H). exact Hn. }
  assert (R0 : rows = rows ++ []) by (symmetry; apply app_nil_r).
  repeat split.
  - intros tl Hp Ht Hf. eexists. split; [|exact (LF 1 ev_ang Hf)]. unfold vasp_forces. cbn [String.eqb Ascii.eqb Bool.eqb]. rewrite R0.
    apply (force_block_ok "forces" 1 1 ev_ang n pre tl [] rows []); auto. right. split; [lia|reflexivity].
  - intros tl ru Hp Ht Hf. eexists. split; [|exact (LF 3 ev_ang Hf)]. unfold vasp_forces. cbn [String.eqb Ascii.eqb Bool.eqb]. rewrite R0.
    apply (force_block_ok "TOTAL-FORCE" 2 3 ev_ang n pre tl [ru] rows []); auto. right. split; [lia|reflexivity].
  - intros tl ru Hp Ht Hf. eexists. split; [|exact (LF 6 ry_au Hf)]. unfold espresso_forces. rewrite R0.
    apply (force_block_ok "Forces acting on atoms" 2 6 ry_au n pre tl [ru] rows []); auto. right. split; [lia|reflexivity].
  - intros tl Hp Ht Hf. eexists. split; [|exact (LF 2 ev_ang Hf)]. unfold aims_forces. rewrite R0.
    apply (force_block_ok "Total atomic forces" 1 2 ev_ang n pre tl [] rows []); auto. right. split; [lia|reflexivity].
Qed.
Print Assumptions truncated_force_files_accepted.

(** * C57: truncated structure files *)
Lemma enum_firstn {B} (l : list B) : forall k i, firstn k (enumerate_from i l) = enumerate_from i (firstn k l).
Proof. induction l as [|a l IH]; intros [|k] i; cbn [enumerate_from firstn]; [reflexivity..|]. f_equal. apply IH. Qed.

(** VASP: a POSCAR that ends inside the position block is always rejected, and the
    object keeps lattice, types and counts but no positions. *)
Theorem truncated_vasp_file_rejected :
  forall (c : cell Qc) comment L gs pos tr before lines k,
    c_lat c = Some L -> c_type c = Some (ungroup gs) -> c_num c = Some (group_sizes gs) ->
    c_cart c = Some pos -> c_true c = Some tr ->
    gs <> [] -> (forall t n, In (t, n) gs -> token t /\ 0 < n) -> length (ungroup gs) = length pos ->
    no_nl comment = true -> vasp_write c comment = Ok lines -> k < length pos ->
    exists c', read_unit_cell vasp_read before (to_text (firstn (length lines - length pos + k) lines)) = (c', Some EValue) /\
      c_cart c' = None /\ c_true c' = None /\ c_type c' = Some (ungroup gs) /\ c_num c' = Some (group_sizes gs).
Proof.
  intros c comment L gs pos tr before lines k H1 H2 H3 H4 H5 Hne Hg Hl Hc W Hk.
  rewrite <- ungroup_expand in *. rewrite <- sizes_counts in *.
  assert (Hw : Forall (fun g => word (fst g)) gs) by (apply Forall_forall; intros [t n] Hin; apply (Hg t n Hin)).
  assert (Hp : Forall (fun g => 0 < snd g) gs) by (apply Forall_forall; intros [t n] Hin; apply (Hg t n Hin)).
  rewrite (vasp_write_ok c comment L gs pos tr H1 H2 H3 H4 H5 Hne Hp) in W. injection W as <-.
  assert (E : firstn (length (vasp_lines comment L gs (c_sel c) tr pos) - length pos + k) (vasp_lines comment L gs (c_sel c) tr pos)
     = vasp_lines comment L gs (c_sel c) tr (firstn k pos)).
  { unfold vasp_lines. destruct (c_sel c).
    - cbn [length]. rewrite map_length, (enumerate_from_length pos 0 : length (enumerate pos) = _).
      replace (S (S (S (S (S (S (S (S (S (length pos))))))))) - length pos + k) with (9 + k) by lia.
      cbn [firstn Nat.add]. rewrite firstn_map. unfold enumerate. rewrite enum_firstn. reflexivity.
    - cbn [length]. rewrite map_length.
      replace (S (S (S (S (S (S (S (S (length pos)))))))) - length pos + k) with (8 + k) by lia.
      cbn [firstn Nat.add]. rewrite firstn_map. reflexivity. }
  rewrite E. unfold read_unit_cell. rewrite readlines_text by (apply vasp_lines_no_nl; assumption).
  assert (LK : length (firstn k pos) = k) by (rewrite firstn_length; lia).
  rewrite vasp_read_ok by (assumption || lia).
  unfold rd_ops. cbn [rd_lat rd_type rd_num rd_sel rd_coord rd_cart rd_true rd_xyz].
  cbn [assign_all run_op]. unfold set_lattice. cbn [map mat33 row3 vrow].
  unfold set_atom_type; cbn [c_cart cell_init].
  unfold set_num_atom; cbn [c_cart]. unfold set_selective; cbn [c_lat c_type c_num c_sel c_coord c_cart c_true c_xyz c_mass].
  unfold set_coordinate. cbn [Ascii.eqb Bool.eqb orb c_lat c_type c_num c_sel c_coord c_cart c_true c_xyz c_mass].
  unfold set_atom_cart. rewrite rows3_vrow. cbn [c_type c_lat c_num c_sel c_coord c_cart c_true c_xyz c_mass].
  unfold shape_ok. rewrite map_length, LK. replace (k =? length (expand gs)) with false by (symmetry; apply Nat.eqb_neq; lia).
  eexists. split; [reflexivity|]. repeat split; reflexivity.
Qed.
Print Assumptions truncated_vasp_file_rejected.

(** Quantum ESPRESSO: the same truncation is accepted silently and yields the
    structure of the first k atoms, although the header announces more atoms. *)
Theorem truncated_espresso_file_accepted :
  forall (c : cell Qc) species wt L ty pos tr before lines k,
    c_lat c = Some L -> c_type c = Some ty -> c_cart c = Some pos -> c_true c = Some tr ->
    length ty = length pos -> (forall a, In a ty -> espresso_species a) ->
    (forall a, In a species -> In a ty) -> (forall a, In a species -> num_text (wt a)) ->
    espresso_write species wt c = Ok lines -> 0 < k < length pos ->
    exists c', read_unit_cell espresso_read before (to_text (firstn (length lines - length pos + k) lines)) = (c', None) /\
      same_geometry L (firstn k ty) (firstn k pos) c'.
Proof.
  intros c species wt L ty pos tr before lines k H1 H2 H3 H4 Hl Hn Hs Hw W Hk.
  rewrite (espresso_write_ok species wt c L ty pos tr H1 H2 H3 H4) in W. injection W as <-.
  set (hd := qe_pre species wt (length ty) ++ [qe_field "nat" (z_string (Z.of_nat (length ty)))] ++ qe_mid species wt ++ ["CELL_PARAMETERS angstrom"%string]
     ++ qe_lat L ++ ["ATOMIC_POSITIONS angstrom"%string]).
  assert (HQ : forall l, qe_lines species wt (length ty) L (c_sel c) tr l = hd ++ map (qe_row (c_sel c) tr) (enumerate_from 0 l)).
  { intros l. unfold qe_lines, hd. repeat rewrite <- app_assoc. reflexivity. }
  assert (E : firstn (length (qe_lines species wt (length ty) L (c_sel c) tr (combine ty pos)) - length pos + k) (qe_lines species wt (length ty) L (c_sel c) tr (combine ty pos))
    = qe_lines species wt (length ty) L (c_sel c) tr (combine (firstn k ty) (firstn k pos))).
  { rewrite !HQ, app_length, map_length, enumerate_from_length, combine_length.
    replace (length hd + Nat.min (length ty) (length pos) - length pos + k) with (length hd + k) by lia.
    rewrite firstn_app_2, firstn_map, enum_firstn, combine_firstn. reflexivity. }
  rewrite E.
  assert (Hn' : Forall qe_name (firstn k ty)).
  { apply Forall_forall. intros a Ha. apply Hn. rewrite <- (firstn_skipn k ty). apply in_or_app. left; exact Ha. }
  assert (Hs' : Forall qe_name species) by (apply Forall_forall; intros a Ha; apply Hn, Hs, Ha).
  assert (Hl' : length (firstn k ty) = length (firstn k pos)) by (rewrite !firstn_length; lia).
  unfold read_unit_cell. rewrite readlines_text by (now apply qe_lines_no_nl).
  rewrite espresso_read_ok by (try assumption; rewrite firstn_length; lia).
  rewrite assign_rd; [|rewrite firstn_length; lia|exact Hl'|rewrite run_lengths_sum; lia|apply kept_sorted|apply kept_below].
  eexists. split; [reflexivity|]. exact (read_back_geometry L (firstn k ty) _ _ (firstn k pos) _).
Qed.
Print Assumptions truncated_espresso_file_accepted.
