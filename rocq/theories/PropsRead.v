(** C77, C78, C79: reading structure files written by the user (not by InterPhon):
    what VASP, Quantum ESPRESSO and FHI-aims files mean for the unit cell. *)
From Coq Require Import String Ascii ZArith Arith Bool Lia List Sorted QArith Qcanon.
From Verif Require Import Base Dec Field Cell CellFacts Text TextFacts TextRound PropsText.
Import ListNotations.
Local Open Scope string_scope.
Local Open Scope list_scope.
Local Open Scope nat_scope.

(** * Specification *)

(** A line with three numbers, then further words. *)
Definition three_numbers (ws : list string) (v : v3 Qc) (rest : list string) : Prop :=
  exists a b c, ws = a :: b :: c :: rest /\
    parse_float a = Some (vx v) /\ parse_float b = Some (vy v) /\ parse_float c = Some (vz v).
(** The first word of the line begins with one of the letters. *)
Definition begins_with (l : string) (letters : list ascii) : Prop :=
  exists c w r, split_ws l = String c w :: r /\ In c letters.

(** The selection of the cell: the free atoms in increasing order, and each of
    them three times in xyz_true. *)
Definition selects (n : nat) (free : nat -> Prop) (c : cell Qc) : Prop :=
  exists tr, c_true c = Some tr /\ StronglySorted Z.lt tr /\
    (forall z, In z tr <-> exists i, z = Z.of_nat i /\ i < n /\ free i) /\
    c_xyz c = Some (flat_map (fun i => [i; i; i]) tr).

(** The content of a VASP 5 POSCAR. *)
Record poscar : Type := mkPoscar {
  p_scale : Qc;                         (* second line *)
  p_lattice : m3 Qc;                    (* the three vectors as written *)
  p_groups : list (string * nat);       (* species and counts *)
  p_selective : bool;
  p_direct : bool;
  p_atoms : list (v3 Qc * list string)  (* coordinates as written, the words after them *) }.

(** The lines of a file with that content: comment, scale, vectors, species (more
    names than counts are allowed), counts, optionally a line beginning with S, a
    line beginning with D (direct) or C or K (Cartesian), one line per atom, and
    anything after that. *)
Definition poscar_lines (p : poscar) (lines after : list string) : Prop :=
  exists comment ls la lb lc lt ln sel kind rows ea eb ec es et,
    lines = comment :: ls :: la :: lb :: lc :: lt :: ln :: sel ++ kind :: rows ++ after /\
    (exists t, split_ws ls = t :: es /\ parse_float t = Some (p_scale p)) /\
    three_numbers (split_ws la) (r1 (p_lattice p)) ea /\
    three_numbers (split_ws lb) (r2 (p_lattice p)) eb /\
    three_numbers (split_ws lc) (r3 (p_lattice p)) ec /\
    split_ws lt = map fst (p_groups p) ++ et /\
    Forall2 (fun w g => parse_int w = Some (Z.of_nat (snd g))) (split_ws ln) (p_groups p) /\
    (if p_selective p then exists s, sel = [s] /\ begins_with s ["S"; "s"]%char else sel = []) /\
    begins_with kind (if p_direct p then ["D"; "d"]%char else ["C"; "c"; "K"; "k"]%char) /\
    Forall2 (fun l a => three_numbers (split_ws l) (fst a) (snd a)) rows (p_atoms p) /\ p_atoms p <> [].
(** A complete file: as many atoms as announced. *)
Definition poscar_file (p : poscar) (lines : list string) : Prop :=
  exists after, poscar_lines p lines after /\ length (p_atoms p) = length (ungroup (p_groups p)).

Definition scaled (k : Qc) (v : v3 Qc) : v3 Qc := V3 (k * vx v)%Qc (k * vy v)%Qc (k * vz v)%Qc.
Definition scaled_lattice (k : Qc) (L : m3 Qc) : m3 Qc := M3 (scaled k (r1 L)) (scaled k (r2 L)) (scaled k (r3 L)).
(** x a + y b + z c *)
Definition combination (v : v3 Qc) (L : m3 Qc) : v3 Qc :=
  V3 (vx v * vx (r1 L) + vy v * vx (r2 L) + vz v * vx (r3 L))%Qc
     (vx v * vy (r1 L) + vy v * vy (r2 L) + vz v * vy (r3 L))%Qc
     (vx v * vz (r1 L) + vy v * vz (r2 L) + vz v * vz (r3 L))%Qc.

(** What the cell must hold after reading that file. *)
Definition poscar_cell (p : poscar) (c : cell Qc) : Prop :=
  let L := scaled_lattice (p_scale p) (p_lattice p) in
  c_lat c = Some L /\
  c_type c = Some (ungroup (p_groups p)) /\
  c_num c = Some (group_sizes (p_groups p)) /\
  c_sel c = p_selective p /\
  c_coord c = Some (if p_direct p then Direct else Cartesian) /\
  c_cart c = Some (map (fun a => if p_direct p then combination (fst a) L else fst a) (p_atoms p)) /\
  selects (length (p_atoms p)) (fun i => p_selective p = true -> exists a, nth_error (p_atoms p) i = Some a /\ In "T"%string (snd a)) c.

(** * Proofs *)
Lemma parse_three ws v rest : three_numbers ws v rest -> parse_row (tslice 0 3 ws) = Ok (vrow v).
Proof.
  intros (a & b & c & -> & Ha & Hb & Hc). unfold tslice, parse_row. cbn [skipn firstn Nat.sub mapM].
  rewrite Ha, Hb, Hc. reflexivity.
Qed.
Lemma mem_string_In s l : mem_string s l = true <-> In s l.
Proof.
  unfold mem_string. rewrite existsb_exists. split.
  - intros (x & Hx & E). apply String.eqb_eq in E. now subst.
  - intros H. exists s. split; [exact H|apply String.eqb_refl].
Qed.
Lemma parse_float_T : parse_float "T" = None. Proof. reflexivity. Qed.
Lemma three_T ws v rest : three_numbers ws v rest -> (mem_string "T" ws = true <-> In "T"%string rest).
Proof.
  intros (a & b & c & -> & Ha & Hb & Hc). rewrite mem_string_In. cbn [In]. split; [|tauto].
  pose proof parse_float_T as HT.
  intros [E|[E|[E|H]]]; [subst; congruence..|exact H].
Qed.

Lemma asfarray_rows (f : string -> list string) (ls : list string) (vs : list (v3 Qc)) :
  Forall2 (fun l v => parse_row (f l) = Ok (vrow v)) ls vs -> asfarray (map f ls) = Ok (map vrow vs).
Proof.
  intros H. unfold asfarray.
  assert (M : mapM parse_row (map f ls) = Ok (map vrow vs)).
  { induction H as [|l v ls vs E _ IH]; [reflexivity|]. cbn [map mapM]. rewrite E. cbn [bind]. rewrite IH. reflexivity. }
  rewrite M. cbn [bind].
  assert (R : rectangular (map vrow vs) = true).
  { destruct vs as [|v vs]; [reflexivity|]. cbn [map rectangular]. apply forallb_forall. intros x Hx.
    apply in_map_iff in Hx as (w & <- & _). reflexivity. }
  now rewrite R.
Qed.
Lemma rows3_vrow_gen (vs : list (v3 Qc)) : rows3 (map vrow vs) = Some vs.
Proof. induction vs as [|[x y z] vs IH]; [reflexivity|]. cbn [map rows3 vrow row3 vx vy vz]. now rewrite IH. Qed.
Lemma mat33_vrow (L : m3 Qc) : mat33 (map vrow [r1 L; r2 L; r3 L]) = Some L.
Proof. destruct L as [[a b c] [d e f] [g h i]]. reflexivity. Qed.

(** What is stored when the reader returns a consistent tuple. *)
Lemma assign_gen L ty num sel (dir : bool) vs tr :
  0 < length vs -> length ty = length vs ->
  StronglySorted Z.le (map Z.of_nat tr) -> Forall (fun i => i < length vs) tr ->
  assign_all cell_init (rd_ops (mkRd (map vrow [r1 L; r2 L; r3 L]) ty num sel (if dir then "direct" else "cartesian") (map vrow vs) tr (xyz_of tr)))
  = (mkCell (Some L) (Some ty) (Some num) sel (Some (if dir then Direct else Cartesian))
            (Some vs) (Some (map Z.of_nat tr)) (Some (map Z.of_nat (xyz_of tr))) None, None).
Proof.
  intros H0 Hl Ht Hr. unfold rd_ops. cbn [rd_lat rd_type rd_num rd_sel rd_coord rd_cart rd_true rd_xyz].
  cbn [assign_all run_op]. unfold set_lattice. rewrite mat33_vrow.
  unfold set_atom_type; cbn [c_cart cell_init].
  unfold set_num_atom; cbn [c_cart]. unfold set_selective; cbn [c_lat c_type c_num c_sel c_coord c_cart c_true c_xyz c_mass].
  assert (CO : forall c : cell Qc, set_coordinate c (if dir then "direct" else "cartesian") =
     Ok (mkCell (c_lat c) (c_type c) (c_num c) (c_sel c) (Some (if dir then Direct else Cartesian)) (c_cart c) (c_true c) (c_xyz c) (c_mass c)))
    by (intros c; destruct dir; reflexivity).
  rewrite CO. cbn [c_lat c_type c_num c_sel c_coord c_cart c_true c_xyz c_mass].
  unfold set_atom_cart. rewrite rows3_vrow_gen. cbn [c_type c_lat c_num c_sel c_coord c_cart c_true c_xyz c_mass].
  unfold shape_ok. rewrite Hl, Nat.eqb_refl, (proj2 (Nat.ltb_lt _ _) H0). cbn [andb].
  unfold set_atom_true, put_cart. cbn [c_type c_lat c_num c_sel c_coord c_cart c_true c_xyz c_mass].
  assert (IR : forallb (in_range (length ty)) (map Z.of_nat tr) = true).
  { apply forallb_forall. intros z Hz. apply in_map_iff in Hz as (k & <- & Hk). rewrite Forall_forall in Hr. specialize (Hr _ Hk).
    unfold in_range. apply andb_true_iff. split; [apply Z.leb_le|apply Z.ltb_lt]; lia. }
  rewrite IR. unfold set_xyz_true. cbn [c_type c_lat c_num c_sel c_coord c_cart c_true c_xyz c_mass].
  rewrite (py_sorted_sorted _ Ht).
  assert (IX : forallb (fun z => existsb (Z.eqb z) (map Z.of_nat tr)) (map Z.of_nat (xyz_of tr)) = true).
  { apply forallb_forall. intros z Hz. apply existsb_exists. exists z. split; [|apply Z.eqb_refl].
    apply in_map_iff in Hz as (k & <- & Hk). apply in_flat_map in Hk as (b & Hb & Hk). apply in_map_iff. exists k. split; [reflexivity|].
    cbn in Hk. destruct Hk as [<-|[<-|[<-|[]]]]; exact Hb. }
  rewrite IX. rewrite (py_sorted_sorted _ (xyz_sorted _ Ht)). reflexivity.
Qed.

Lemma vasp_types_ok_prefix ls l gs et :
  py_nth ls 5 = Ok l -> split_ws l = map fst gs ++ et -> vasp_types ls (counts gs) = Ok (expand gs).
Proof.
  intros H5 Hs. unfold vasp_types, enumerate.
  assert (G : forall gs' k, (forall j g, nth_error gs' j = Some g -> nth_error (split_ws l) (k + j) = Some (fst g)) ->
     mapM (fun '(i, n) => mapM (fun _ : unit => let! l := py_nth ls 5 in py_nth (split_ws l) i) (repeat tt (Z.to_nat n)))
       (enumerate_from k (counts gs')) = Ok (map (fun g => repeat (fst g) (snd g)) gs')).
  { induction gs' as [|g gs' IH]; intros k Hk; [reflexivity|].
    cbn [counts map enumerate_from mapM]. fold (counts gs').
    rewrite (mapM_const _ (fst g)).
    - cbn [bind]. rewrite IH.
      + cbn [bind]. rewrite Nat2Z.id. reflexivity.
      + intros j g' Hj. replace (S k + j) with (k + S j) by lia. apply Hk. exact Hj.
    - rewrite H5. cbn [bind]. unfold py_nth. rewrite <- (Nat.add_0_r k), (Hk 0 g eq_refl). reflexivity. }
  rewrite (G gs 0); [reflexivity|].
  intros j g Hj. rewrite Hs. cbn [Nat.add]. rewrite nth_error_app1 by (rewrite map_length; apply nth_error_Some; congruence).
  rewrite nth_error_map, Hj. reflexivity.
Qed.

Lemma first_char_at ls k l cs : nth_error ls k = Some l -> begins_with l cs ->
  exists c, first_char ls k = Ok c /\ In c cs.
Proof.
  intros H (c & w & r & E & Hc). exists c. split; [|exact Hc]. unfold first_char, py_nth. rewrite H. cbn [of_option bind]. now rewrite E.
Qed.
Lemma char_in_spec c l : char_in c l = true <-> In c l.
Proof.
  unfold char_in. rewrite existsb_exists. split.
  - intros (x & Hx & E). apply Ascii.eqb_eq in E. now subst.
  - intros H. exists c. split; [exact H|apply Ascii.eqb_refl].
Qed.
Lemma char_notin c l l' : In c l -> (forall x, In x l -> ~ In x l') -> char_in c l' = false.
Proof. intros H D. destruct (char_in c l') eqn:E; [|reflexivity]. apply char_in_spec in E. now contradiction (D c H). Qed.

Lemma indices_where_sorted p pos : StronglySorted Z.lt (map Z.of_nat (indices_where p pos)) /\
  (forall i, In i (indices_where p pos) <-> exists l, nth_error pos i = Some l /\ p l = true).
Proof.
  unfold indices_where, enumerate.
  assert (G : forall k, StronglySorted Z.lt (map Z.of_nat (map fst (filter (fun iv => p (snd iv)) (enumerate_from k pos)))) /\
     (forall i, In i (map fst (filter (fun iv => p (snd iv)) (enumerate_from k pos))) <-> k <= i /\ exists l, nth_error pos (i - k) = Some l /\ p l = true)).
  { induction pos as [|l pos IH]; intros k; cbn [enumerate_from filter map].
    - split; [constructor|]. intros i. split; [intros []|]. intros (_ & x & H & _). destruct (i - k); discriminate.
    - destruct (IH (S k)) as (S1 & M1). cbn [snd].
      assert (M : forall i, (exists x, nth_error (l :: pos) (i - k) = Some x /\ p x = true) /\ k <= i <->
         (i = k /\ p l = true) \/ (S k <= i /\ exists x, nth_error pos (i - S k) = Some x /\ p x = true)).
      { intros i. split.
        - intros ((x & Hx & Px) & Hk). destruct (Nat.eq_dec i k) as [->|N].
          + rewrite Nat.sub_diag in Hx. cbn in Hx. injection Hx as ->. now left.
          + right. split; [lia|]. exists x. replace (i - k) with (S (i - S k)) in Hx by lia. auto.
        - intros [(-> & Px)|(Hk & x & Hx & Px)].
          + split; [|lia]. exists l. rewrite Nat.sub_diag. auto.
          + split; [|lia]. exists x. replace (i - k) with (S (i - S k)) by lia. auto. }
      destruct (p l) eqn:Pl.
      + cbn [map fst]. split.
        * constructor; [exact S1|]. apply Forall_forall. intros z Hz. apply in_map_iff in Hz as (j & <- & Hj). apply M1 in Hj. lia.
        * intros i. cbn [In]. rewrite M1. specialize (M i). split.
          -- intros [<-|H]; [apply and_comm, M; auto|apply and_comm, M; auto].
          -- intros (H1 & H2). destruct (proj1 M (conj H2 H1)) as [(-> & _)|H]; auto.
      + split; [exact S1|]. intros i. rewrite M1. specialize (M i). split.
        * intros H. apply and_comm, M. now right.
        * intros (H1 & H2). destruct (proj1 M (conj H2 H1)) as [(_ & C)|H]; [discriminate|exact H]. }
  destruct (G 0) as (S0 & M0). split; [exact S0|]. intros i. rewrite M0, Nat.sub_0_r. split; [tauto|]. intros H. split; [lia|exact H].
Qed.
Lemma slt_sle l : StronglySorted Z.lt l -> StronglySorted Z.le l.
Proof. induction 1 as [|a l Hl IH Ha]; constructor; [exact IH|]. eapply Forall_impl; [|exact Ha]. cbn. lia. Qed.

Lemma selects_intro (n : nat) (free : nat -> Prop) L ty num sel co vs (tr : list nat) :
  StronglySorted Z.lt (map Z.of_nat tr) -> (forall i, In i tr <-> i < n /\ free i) ->
  selects n free (mkCell L ty num sel co vs (Some (map Z.of_nat tr)) (Some (map Z.of_nat (xyz_of tr))) None).
Proof.
  intros HS HM. exists (map Z.of_nat tr). cbn [c_true c_xyz]. split; [reflexivity|]. split; [exact HS|]. split; [|now rewrite xyz_map].
  intros z. rewrite in_map_iff. split.
  - intros (i & <- & Hi). exists i. apply HM in Hi. tauto.
  - intros (i & -> & Hi). exists i. split; [reflexivity|]. now apply HM.
Qed.

Lemma vmul_combination v L : vmul v L = combination v L.
Proof. destruct v as [x y z], L as [[a b c] [d e f] [g h i]]. reflexivity. Qed.

Lemma scale_rows_vrow k (vs : list (v3 Qc)) : scale_rows k (map vrow vs) = map vrow (map (scaled k) vs).
Proof.
  unfold scale_rows. rewrite !map_map. apply map_ext. intros [x y z]. unfold vrow, scaled. cbn [map vx vy vz].
  rewrite (Qcmult_comm x), (Qcmult_comm y), (Qcmult_comm z). reflexivity.
Qed.
Lemma dot_rows_vrow vs L : vs <> [] -> dot_rows (map vrow vs) (map vrow [r1 L; r2 L; r3 L]) = Ok (map vrow (map (fun v => combination v L) vs)).
Proof.
  intros Hne. unfold dot_rows. destruct vs as [|v vs]; [contradiction|]. cbn [map].
  change (vrow v :: map vrow vs) with (map vrow (v :: vs)). rewrite rows3_vrow_gen.
  change [vrow (r1 L); vrow (r2 L); vrow (r3 L)] with (map vrow [r1 L; r2 L; r3 L]). rewrite mat33_vrow.
  f_equal. change (vrow (combination v L) :: map vrow (map (fun w => combination w L) vs)) with (map vrow (map (fun w => combination w L) (v :: vs))).
  rewrite map_map. apply map_ext. intros w. rewrite vmul_combination. reflexivity.
Qed.

Lemma vasp_coords_ok lines k kind (dir : bool) L pos atoms :
  nth_error lines k = Some kind -> begins_with kind (if dir then ["D"; "d"]%char else ["C"; "c"; "K"; "k"]%char) ->
  Forall2 (fun l a => three_numbers (split_ws l) (fst a) (snd a)) pos atoms -> atoms <> [] ->
  vasp_coords lines k (map vrow [r1 L; r2 L; r3 L]) pos =
    Ok (if dir then "direct" else "cartesian", map vrow (map (fun a : v3 Qc * list string => if dir then combination (fst a) L else fst a) atoms)).
Proof.
  intros Hk Hb Hr Hne. destruct (first_char_at lines k kind _ Hk Hb) as (c & Hc & Hin).
  unfold vasp_coords. rewrite Hc. cbn [bind].
  assert (AF : asfarray (map (fun p => tslice 0 3 (split_ws p)) pos) = Ok (map vrow (map fst atoms))).
  { apply asfarray_rows. clear -Hr. induction Hr as [|l a ls as' H _ IH]; cbn [map]; constructor; [|exact IH]. eapply parse_three, H. }
  rewrite AF. cbn [bind]. destruct dir.
  - apply char_in_spec in Hin. rewrite Hin. rewrite dot_rows_vrow by (destruct atoms; [contradiction|discriminate]). cbn [bind].
    now rewrite (map_map fst).
  - rewrite (char_notin c _ ["D"; "d"]%char Hin).
    2: { intros x Hx Hy. cbn in Hx, Hy. intuition (subst; discriminate). }
    apply char_in_spec in Hin. rewrite Hin. reflexivity.
Qed.

(** the tuple returned by the reader *)
Definition poscar_tuple (p : poscar) (tr : list nat) : rd :=
  let L := scaled_lattice (p_scale p) (p_lattice p) in
  mkRd (map vrow [r1 L; r2 L; r3 L]) (expand (p_groups p)) (counts (p_groups p)) (p_selective p)
      (if p_direct p then "direct" else "cartesian")
      (map vrow (map (fun a : v3 Qc * list string => if p_direct p then combination (fst a) L else fst a) (p_atoms p))) tr (xyz_of tr).
Definition poscar_free (p : poscar) (i : nat) : Prop :=
  p_selective p = true -> exists a, nth_error (p_atoms p) i = Some a /\ In "T"%string (snd a).

Lemma vasp_tuple p lines after : poscar_lines p lines after ->
  length (p_atoms p) = length (ungroup (p_groups p)) \/ (after = [] /\ length (p_atoms p) <= length (ungroup (p_groups p))) ->
  exists tr, vasp_read lines = Ok (poscar_tuple p tr) /\ StronglySorted Z.lt (map Z.of_nat tr) /\
    forall i, In i tr <-> i < length (p_atoms p) /\ poscar_free p i.
Proof.
  intros (comment & ls & la & lb & lc & lt & ln & sel & kind & rows & ea & eb & ec & es & et &
    E & (t & Hs & Hsc) & Ha & Hb & Hc & Hlt & Hln & Hsel & Hkind & Hrows & Hne) Hlen.
  set (gs := p_groups p) in *. set (L := scaled_lattice (p_scale p) (p_lattice p)).
  assert (N1 : py_nth lines 1 = Ok ls) by (rewrite E; reflexivity).
  assert (N6 : py_nth lines 6 = Ok ln) by (rewrite E; reflexivity).
  assert (N5 : py_nth lines 5 = Ok lt) by (rewrite E; reflexivity).
  assert (LAT : asfarray (map (fun l => tslice 0 3 (split_ws l)) (py_slice lines 2 5)) = Ok (map vrow [r1 (p_lattice p); r2 (p_lattice p); r3 (p_lattice p)])).
  { assert (P3 : py_slice lines 2 5 = [la; lb; lc]) by (rewrite E; reflexivity). rewrite P3.
    apply asfarray_rows. repeat constructor; eapply parse_three; eassumption. }
  assert (NUM : mapM (fun w => of_option EValue (parse_int w)) (split_ws ln) = Ok (counts gs)).
  { clear -Hln. unfold counts. induction Hln as [|w g ws gs' H _ IH]; [reflexivity|]. cbn [mapM map]. rewrite H. cbn [of_option bind]. now rewrite IH. }
  assert (TY : vasp_types lines (counts gs) = Ok (expand gs)) by (eapply vasp_types_ok_prefix; eassumption).
  set (N := length (ungroup gs)) in *.
  assert (TOT : fold_left Z.add (counts gs) 0%Z = Z.of_nat N).
  { rewrite fold_left_add, counts_sum, Z.add_0_l, ungroup_expand. reflexivity. }
  assert (LR : length rows = length (p_atoms p)) by (clear -Hrows; induction Hrows; cbn; congruence).
  assert (SL : forall pre : list string, py_slice (pre ++ rows ++ after) (length pre) (Z.of_nat (length pre) + Z.of_nat N) = rows).
  { intros pre. destruct Hlen as [Hl|(-> & Hl)].
    - rewrite <- Hl, <- LR. apply py_slice_mid.
    - rewrite app_nil_r. apply py_slice_ge. lia. }
  exists (if p_selective p then indices_where (fun v => mem_string "T" (split_ws v)) rows else seq 0 (length rows)).
  split.
  { unfold vasp_read. rewrite N1. cbn [bind]. rewrite Hs. cbn [py_nth nth_error of_option bind]. rewrite Hsc. cbn [of_option bind].
    rewrite LAT. cbn [bind]. rewrite N6. cbn [bind]. rewrite NUM. cbn [bind]. rewrite TY. cbn [bind].
    rewrite scale_rows_vrow.
    change (map vrow (map (scaled (p_scale p)) [r1 (p_lattice p); r2 (p_lattice p); r3 (p_lattice p)])) with (map vrow [r1 L; r2 L; r3 L]).
    rewrite TOT. unfold poscar_tuple. destruct (p_selective p) eqn:Esel.
    - destruct Hsel as (s & -> & Hbs).
      assert (N7 : nth_error lines 7 = Some s) by (rewrite E; reflexivity).
      assert (N8 : nth_error lines 8 = Some kind) by (rewrite E; reflexivity).
      destruct (first_char_at lines 7 s _ N7 Hbs) as (c7 & -> & Hin7). cbn [bind]. apply char_in_spec in Hin7. rewrite Hin7.
      assert (PS : py_slice lines 9 (9 + Z.of_nat N) = rows) by (rewrite E; exact (SL [comment; ls; la; lb; lc; lt; ln; s; kind])).
      rewrite PS. rewrite (vasp_coords_ok lines 8 kind (p_direct p) L rows (p_atoms p) N8 Hkind Hrows Hne). reflexivity.
    - subst sel.
      assert (N7 : nth_error lines 7 = Some kind) by (rewrite E; reflexivity).
      destruct (first_char_at lines 7 kind _ N7 Hkind) as (c7 & Hc7 & Hin7). rewrite Hc7. cbn [bind].
      rewrite (char_notin c7 _ ["S"; "s"]%char Hin7).
      2: { intros x Hx Hy. destruct (p_direct p); cbn in Hx, Hy; intuition (subst; discriminate). }
      assert (PS : py_slice lines 8 (8 + Z.of_nat N) = rows) by (rewrite E; exact (SL [comment; ls; la; lb; lc; lt; ln; kind])).
      rewrite PS. rewrite (vasp_coords_ok lines 7 kind (p_direct p) L rows (p_atoms p) N7 Hkind Hrows Hne). reflexivity. }
  unfold poscar_free. destruct (p_selective p).
  - destruct (indices_where_sorted (fun v => mem_string "T" (split_ws v)) rows) as (S1 & M1). split; [exact S1|].
    intros i. rewrite M1. clear -Hrows LR. split.
    + intros (l & Hl & HT).
      assert (exists a, nth_error (p_atoms p) i = Some a /\ three_numbers (split_ws l) (fst a) (snd a)) as (a & Ha & H3).
      { clear -Hrows Hl. revert i Hl. induction Hrows as [|x y xs ys H _ IH]; intros [|i] Hi; try discriminate; cbn in *.
        - injection Hi as ->. eauto.
        - apply IH, Hi. }
      split; [apply nth_error_Some; congruence|]. intros _. exists a. split; [exact Ha|]. now apply (three_T _ _ _ H3).
    + intros (_ & H). destruct (H eq_refl) as (a & Ha & HT).
      assert (exists l, nth_error rows i = Some l /\ three_numbers (split_ws l) (fst a) (snd a)) as (l & Hl & H3).
      { clear -Hrows Ha. revert i Ha. induction Hrows as [|x y xs ys H _ IH]; intros [|i] Hi; try discriminate; cbn in *.
        - injection Hi as ->. eauto.
        - apply IH, Hi. }
      exists l. split; [exact Hl|]. now apply (three_T _ _ _ H3).
  - split; [rewrite <- (filter_all (fun _ => true) (seq 0 (length rows)) ltac:(reflexivity)); apply filter_seq_lt|].
    intros i. rewrite in_seq, LR. split; [intros H; split; [lia|discriminate]|intros (H & _); lia].
Qed.

(** * C77: VASP *)
Theorem vasp_file_meaning :
  forall (p : poscar) (text : string) (before : cell Qc),
    poscar_file p (readlines text) ->
    exists c, read_unit_cell vasp_read before text = (c, None) /\ poscar_cell p c.
Proof.
  intros p text before (after & H & Hlen). destruct (vasp_tuple p _ _ H (or_introl Hlen)) as (tr & RD & TS & TM).
  assert (Hne : p_atoms p <> []) by (destruct H as (? & ? & ? & ? & ? & ? & ? & ? & ? & ? & ? & ? & ? & ? & ? & H); tauto).
  unfold read_unit_cell. rewrite RD. eexists. split.
  { apply (assign_gen (scaled_lattice (p_scale p) (p_lattice p)) _ _ _ (p_direct p)).
    - rewrite map_length. destruct (p_atoms p); [contradiction|cbn; lia].
    - rewrite map_length, ungroup_expand. symmetry. exact Hlen.
    - apply slt_sle, TS.
    - apply Forall_forall. intros i Hi. apply TM in Hi. rewrite map_length. tauto. }
  unfold poscar_cell. cbn [c_lat c_type c_num c_sel c_coord c_cart].
  rewrite ungroup_expand, sizes_counts. repeat (split; [reflexivity|]).
  now apply selects_intro.
Qed.
Print Assumptions vasp_file_meaning.

(** A file with fewer position lines than atoms announced is refused. *)
Theorem vasp_missing_positions_rejected :
  forall (p : poscar) (text : string) (before : cell Qc),
    poscar_lines p (readlines text) [] -> length (p_atoms p) < length (ungroup (p_groups p)) ->
    snd (read_unit_cell vasp_read before text) = Some EValue.
Proof.
  intros p text before H Hlen. destruct (vasp_tuple p _ _ H ltac:(right; split; [reflexivity|lia])) as (tr & RD & TS & TM).
  unfold read_unit_cell. rewrite RD. unfold poscar_tuple, rd_ops. cbn [rd_lat rd_type rd_num rd_sel rd_coord rd_cart rd_true rd_xyz].
  cbn [assign_all run_op]. unfold set_lattice. rewrite mat33_vrow.
  unfold set_atom_type; cbn [c_cart cell_init].
  unfold set_num_atom; cbn [c_cart]. unfold set_selective; cbn [c_lat c_type c_num c_sel c_coord c_cart c_true c_xyz c_mass].
  assert (CO : forall c : cell Qc, set_coordinate c (if p_direct p then "direct" else "cartesian") =
     Ok (mkCell (c_lat c) (c_type c) (c_num c) (c_sel c) (Some (if p_direct p then Direct else Cartesian)) (c_cart c) (c_true c) (c_xyz c) (c_mass c)))
    by (intros c; destruct (p_direct p); reflexivity).
  rewrite CO. cbn [c_lat c_type c_num c_sel c_coord c_cart c_true c_xyz c_mass].
  unfold set_atom_cart. rewrite rows3_vrow_gen. cbn [c_type c_lat c_num c_sel c_coord c_cart c_true c_xyz c_mass].
  unfold shape_ok. rewrite map_length, ungroup_expand. replace (length (p_atoms p) =? length (ungroup (p_groups p))) with false by (symmetry; apply Nat.eqb_neq; lia).
  reflexivity.
Qed.
Print Assumptions vasp_missing_positions_rejected.

(** VASP 4 files (no species line): the sixth line then holds the counts and the
    seventh the word Direct or Selective, which is no integer. *)
Theorem vasp4_file_rejected :
  forall comment ls la lb lc lcounts lkind rest text before a b c t es ea eb ec w ws,
    readlines text = comment :: ls :: la :: lb :: lc :: lcounts :: lkind :: rest ->
    split_ws ls = t :: es -> parse_float t <> None ->
    three_numbers (split_ws la) a ea -> three_numbers (split_ws lb) b eb -> three_numbers (split_ws lc) c ec ->
    split_ws lkind = w :: ws -> parse_int w = None ->
    read_unit_cell vasp_read before text = (cell_init, Some EValue).
Proof.
  intros comment ls la lb lc lcounts lkind rest text before a b c t es ea eb ec w ws E Hs Ht Ha Hb Hc Hw Hp.
  unfold read_unit_cell. rewrite E. unfold vasp_read. cbn [py_nth nth_error of_option bind]. rewrite Hs. cbn [py_nth nth_error of_option bind].
  destruct (parse_float t); [|contradiction]. cbn [of_option bind].
  match goal with |- context [py_slice ?l 2 5] => change (py_slice l 2 5) with [la; lb; lc] end.
  rewrite (asfarray_rows (fun l => tslice 0 3 (split_ws l)) [la; lb; lc] [a; b; c]) by (repeat constructor; eapply parse_three; eassumption).
  cbn [bind]. rewrite Hw. cbn [mapM]. rewrite Hp. reflexivity.
Qed.
Print Assumptions vasp4_file_rejected.

(** The scale factor multiplies the lattice vectors and direct coordinates, but not
    Cartesian ones (in VASP it does): two files with the same content but for
    the scale yield the same Cartesian positions in different lattices. *)
Theorem vasp_cartesian_positions_unscaled :
  forall (p : poscar) (k : Qc) (text text' : string) (before : cell Qc) c c',
    p_direct p = false ->
    poscar_file p (readlines text) ->
    poscar_file (mkPoscar k (p_lattice p) (p_groups p) (p_selective p) (p_direct p) (p_atoms p)) (readlines text') ->
    read_unit_cell vasp_read before text = (c, None) -> read_unit_cell vasp_read before text' = (c', None) ->
    c_cart c = c_cart c' /\ c_cart c = Some (map fst (p_atoms p)) /\
    c_lat c = Some (scaled_lattice (p_scale p) (p_lattice p)) /\ c_lat c' = Some (scaled_lattice k (p_lattice p)).
Proof.
  intros p k text text' before c c' Hd H H' R R'.
  destruct (vasp_file_meaning _ _ before H) as (c1 & R1 & P1). rewrite R in R1. injection R1 as <-.
  destruct (vasp_file_meaning _ _ before H') as (c2 & R2 & P2). rewrite R' in R2. injection R2 as <-.
  unfold poscar_cell in P1, P2. cbn [p_direct p_atoms p_scale p_lattice] in P2. rewrite Hd in P1, P2.
  destruct P1 as (A1 & _ & _ & _ & _ & C1 & _), P2 as (A2 & _ & _ & _ & _ & C2 & _).
  split; [congruence|]. split; [exact C1|]. split; assumption.
Qed.
Print Assumptions vasp_cartesian_positions_unscaled.

(** witness: direct coordinates, scale 2, selective dynamics with mixed flags *)
Section PoscarWitness.
  Let q (a : Z) (b : positive) := Q2Qc (a # b).
  Definition wit_poscar_text : string := to_text
    ["GaAs slab"; " 2.0"; " 1.5 0 0"; "0 1.5 0 extra"; "0.0 0.0 10"; "Ga As"; "1 2"; "selective"; "direct";
     "0.5 0.25 1e-1 T T T"; "0 0 0 F F F"; "0.5 0.5 0.5 T F F"; ""; "0 0 0"].
  Definition wit_poscar : poscar :=
    mkPoscar (q 2 1) (M3 (V3 (q 3 2) (q 0 1) (q 0 1)) (V3 (q 0 1) (q 3 2) (q 0 1)) (V3 (q 0 1) (q 0 1) (q 10 1)))
      [("Ga", 1); ("As", 2)] true true
      [(V3 (q 1 2) (q 1 4) (q 1 10), ["T"; "T"; "T"]); (V3 (q 0 1) (q 0 1) (q 0 1), ["F"; "F"; "F"]);
       (V3 (q 1 2) (q 1 2) (q 1 2), ["T"; "F"; "F"])].
End PoscarWitness.
Ltac three3 := do 3 eexists; split; [vm_compute; reflexivity|]; repeat split; vm_compute; f_equal; apply Qc_is_canon; reflexivity.
Example poscar_witness : poscar_file wit_poscar (readlines wit_poscar_text).
Proof.
  exists [addnl ""; addnl "0 0 0"]. split; [|reflexivity].
  exists (addnl "GaAs slab"), (addnl " 2.0"), (addnl " 1.5 0 0"), (addnl "0 1.5 0 extra"), (addnl "0.0 0.0 10"), (addnl "Ga As"), (addnl "1 2"),
    [addnl "selective"], (addnl "direct"), (map addnl ["0.5 0.25 1e-1 T T T"; "0 0 0 F F F"; "0.5 0.5 0.5 T F F"]).
  do 5 eexists. split; [reflexivity|].
  split; [eexists; split; [vm_compute; reflexivity|vm_compute; f_equal; apply Qc_is_canon; reflexivity]|].
  split; [three3|]. split; [three3|]. split; [three3|].
  split; [vm_compute; instantiate (1 := []); reflexivity|].
  split; [vm_compute; repeat constructor|].
  split; [exists (addnl "selective"); split; [reflexivity|]; do 3 eexists; split; [vm_compute; reflexivity|cbn; auto]|].
  split; [do 3 eexists; split; [vm_compute; reflexivity|cbn; auto]|].
  split; [repeat (constructor; [three3|]); constructor|discriminate].
Qed.
(** the atom of the mixed line is free in all directions *)
Example poscar_witness_read :
  exists c, read_unit_cell vasp_read cell_init wit_poscar_text = (c, None) /\ c_true c = Some [0; 2]%Z /\ c_xyz c = Some [0; 0; 0; 2; 2; 2]%Z.
Proof. eexists. split; [vm_compute; reflexivity|]. split; reflexivity. Qed.
Example poscar_missing_witness :
  exists p text, poscar_lines p (readlines text) [] /\ length (p_atoms p) < length (ungroup (p_groups p)) /\
    snd (read_unit_cell vasp_read cell_init text) = Some EValue.
Proof.
  exists (mkPoscar (p_scale wit_poscar) (p_lattice wit_poscar) (p_groups wit_poscar) true true (firstn 1 (p_atoms wit_poscar))).
  exists (to_text ["GaAs slab"; " 2.0"; " 1.5 0 0"; "0 1.5 0 extra"; "0.0 0.0 10"; "Ga As"; "1 2"; "selective"; "direct"; "0.5 0.25 1e-1 T T T"]).
  split; [|split; [cbn; lia|vm_compute; reflexivity]].
  exists (addnl "GaAs slab"), (addnl " 2.0"), (addnl " 1.5 0 0"), (addnl "0 1.5 0 extra"), (addnl "0.0 0.0 10"), (addnl "Ga As"), (addnl "1 2"),
    [addnl "selective"], (addnl "direct"), (map addnl ["0.5 0.25 1e-1 T T T"]).
  do 5 eexists. split; [reflexivity|].
  split; [eexists; split; [vm_compute; reflexivity|vm_compute; f_equal; apply Qc_is_canon; reflexivity]|].
  split; [three3|]. split; [three3|]. split; [three3|].
  split; [vm_compute; instantiate (1 := []); reflexivity|].
  split; [vm_compute; repeat constructor|].
  split; [exists (addnl "selective"); split; [reflexivity|]; do 3 eexists; split; [vm_compute; reflexivity|cbn; auto]|].
  split; [do 3 eexists; split; [vm_compute; reflexivity|cbn; auto]|].
  split; [repeat (constructor; [three3|]); constructor|discriminate].
Qed.
Example vasp4_witness :
  snd (read_unit_cell vasp_read cell_init (to_text ["c"; "1.0"; "1 0 0"; "0 1 0"; "0 0 1"; "1"; "Direct"; "0 0 0"])) = Some EValue.
Proof. vm_compute. reflexivity. Qed.

(** * Quantum ESPRESSO: specification *)

(** [l] is line number [i] and the only one with the property. *)
Definition only_line (lines : list string) (i : nat) (l : string) (P : string -> Prop) : Prop :=
  nth_error lines i = Some l /\ P l /\ forall j l', nth_error lines j = Some l' -> P l' -> j = i.
Definition mentions (tag l : string) : Prop := exists a b, l = (a ++ tag ++ b)%string.
Definition blank_line : string := String nl "".

(** Content: lattice vectors as written; per atom the words of its line (species,
    three numbers, flags) and the three numbers. *)
Record qe_input : Type := mkQe { q_lattice : m3 Qc; q_atoms : list (list string * v3 Qc) }.
Definition qe_atom_line (l : string) (a : list string * v3 Qc) : Prop :=
  split_ws l = fst a /\ exists name ws rest, fst a = name :: ws /\ three_numbers ws (snd a) rest.
Definition qe_species (q : qe_input) : list string := map (fun a => hd ""%string (fst a)) (q_atoms q).
Definition qe_file (q : qe_input) (lines : list string) : Prop :=
  exists ni nline ci cline pi pline w1 w2 w3 wr b1 la lb lc ea eb ec r1' b2 rows r2',
    only_line lines ni nline (mentions "nat") /\ only_line lines ci cline (mentions "CELL_PARAMETERS") /\
    only_line lines pi pline (mentions "ATOMIC_POSITIONS") /\ ni <> ci /\ ni <> pi /\ ci <> pi /\
    split_ws nline = w1 :: w2 :: w3 :: wr /\ parse_int w3 = Some (Z.of_nat (length (q_atoms q))) /\
    skipn (S ci) lines = b1 ++ la :: lb :: lc :: r1' /\ Forall (eq blank_line) b1 /\
    three_numbers (split_ws la) (r1 (q_lattice q)) ea /\ three_numbers (split_ws lb) (r2 (q_lattice q)) eb /\ three_numbers (split_ws lc) (r3 (q_lattice q)) ec /\
    skipn (S pi) lines = b2 ++ rows ++ r2' /\ Forall (eq blank_line) b2 /\
    Forall2 qe_atom_line rows (q_atoms q) /\ q_atoms q <> [].
(** An atom is fixed when the word 0 stands anywhere on its line. *)
Definition qe_fixed (a : list string * v3 Qc) : Prop := In "0"%string (fst a).
Definition qe_cell (q : qe_input) (c : cell Qc) : Prop :=
  c_lat c = Some (q_lattice q) /\ c_type c = Some (qe_species q) /\
  (forall gs, qe_species q = ungroup gs -> maximal_runs gs -> c_num c = Some (group_sizes gs)) /\
  (c_sel c = true <-> exists a, In a (q_atoms q) /\ qe_fixed a) /\
  c_coord c = Some Cartesian /\ c_cart c = Some (map snd (q_atoms q)) /\
  selects (length (q_atoms q)) (fun i => exists a, nth_error (q_atoms q) i = Some a /\ ~ qe_fixed a) c.

(** ** Proofs *)
Lemma mentions_iff tag l : contains tag l = true <-> mentions tag l.
Proof. rewrite contains_app. reflexivity. Qed.

Definition scan_ok (n : Z) (l : string) : Prop :=
  contains "nat" l = true -> exists w1 w2 w3 wr, split_ws l = w1 :: w2 :: w3 :: wr /\ parse_int w3 = Some n.
Definition is_cell (l : string) : bool := (negb (contains "nat" l) && contains "CELL_PARAMETERS" l)%bool.
Definition is_pos (l : string) : bool := (negb (contains "nat" l) && negb (contains "CELL_PARAMETERS" l) && contains "ATOMIC_POSITIONS" l)%bool.

Lemma scan_spec n ci pi ls : forall i st,
  Forall (scan_ok n) ls ->
  (forall j l, nth_error ls j = Some l -> is_cell l = true -> i + j = ci) ->
  (forall j l, nth_error ls j = Some l -> is_pos l = true -> i + j = pi) ->
  qe_scan_lines i st ls = Ok (mkScan (if existsb (contains "nat") ls then Some n else q_nat st)
     (if existsb is_cell ls then Some ci else q_lat st) (if existsb is_pos ls then Some pi else q_pos st)).
Proof.
  induction ls as [|l ls IH]; intros i st HN HC HP; [destruct st; reflexivity|].
  inversion HN as [|? ? H1 H2]; subst.
  assert (HC' : forall j l0, nth_error ls j = Some l0 -> is_cell l0 = true -> S i + j = ci) by (intros j l0 A B; specialize (HC (S j) l0 A B); lia).
  assert (HP' : forall j l0, nth_error ls j = Some l0 -> is_pos l0 = true -> S i + j = pi) by (intros j l0 A B; specialize (HP (S j) l0 A B); lia).
  pose proof (HC 0 l eq_refl) as C0. pose proof (HP 0 l eq_refl) as P0. rewrite Nat.add_0_r in C0, P0.
  cbn [qe_scan_lines existsb]. unfold is_cell at 1, is_pos at 1. unfold is_cell in C0. unfold is_pos in P0. unfold scan_ok in H1.
  destruct (contains "nat" l).
  - destruct (H1 eq_refl) as (w1 & w2 & w3 & wr & -> & Hp). cbn [py_nth nth_error of_option bind]. rewrite Hp. cbn [of_option bind negb andb orb].
    rewrite (IH _ _ H2 HC' HP'). cbn [q_nat q_lat q_pos]. destruct (existsb (contains "nat") ls); reflexivity.
  - cbn [negb andb] in *. destruct (contains "CELL_PARAMETERS" l).
    + cbn [negb andb orb] in *. rewrite (IH _ _ H2 HC' HP'). cbn [q_nat q_lat q_pos]. rewrite (C0 eq_refl). destruct (existsb is_cell ls); reflexivity.
    + cbn [negb andb orb] in *. destruct (contains "ATOMIC_POSITIONS" l).
      * cbn [orb]. rewrite (IH _ _ H2 HC' HP'). cbn [q_nat q_lat q_pos]. rewrite (P0 eq_refl). destruct (existsb is_pos ls); reflexivity.
      * cbn [orb]. apply (IH _ _ H2 HC' HP').
Qed.
Lemma blank_prefix_app b l r : Forall (eq blank_line) b -> l <> blank_line -> blank_prefix (b ++ l :: r) = length b.
Proof.
  intros H Hl. induction H as [|x b <- _ IH]; cbn [app blank_prefix length].
  - destruct (String.eqb_spec l (String nl "")) as [E|E]; [contradiction|reflexivity].
  - change (String.eqb blank_line (String nl "")) with true. cbn iota. now rewrite IH.
Qed.
Lemma blank_no_words : split_ws blank_line = []. Proof. reflexivity. Qed.
Lemma three_not_blank l v r : three_numbers (split_ws l) v r -> l <> blank_line.
Proof. intros (a & b & c & E & _) ->. discriminate. Qed.
Lemma atom_line_not_blank l a : qe_atom_line l a -> l <> blank_line.
Proof. intros (E & n & ws & r & E2 & _) ->. rewrite E2 in E. discriminate. Qed.

Lemma skipn_skipn' {A} (a b : nat) (l : list A) : skipn a (skipn b l) = skipn (b + a) l.
Proof. revert l; induction b as [|b IH]; intros l; [reflexivity|]. destruct l; [now rewrite !skipn_nil|]. cbn [skipn Nat.add]. apply IH. Qed.
Lemma py_slice_at {A} (ls pre body rest : list A) (a : nat) :
  skipn a ls = pre ++ body ++ rest ->
  py_slice ls (a + length pre) (Z.of_nat (a + length pre) + Z.of_nat (length body)) = body.
Proof.
  intros H. unfold py_slice. destruct (Z.ltb_spec (Z.of_nat (a + length pre) + Z.of_nat (length body)) 0); [lia|].
  replace (Z.to_nat _) with (length body) by lia.
  rewrite <- skipn_skipn', H, (skipn_app_exact pre (body ++ rest) (length pre) eq_refl).
  rewrite firstn_app, Nat.sub_diag, firstn_all, firstn_O, app_nil_r. reflexivity.
Qed.

Definition qe_free_index (q : qe_input) : list nat :=
  map fst (filter (fun ia => negb (mem_string "0" (fst (snd ia)))) (enumerate (q_atoms q))).
Definition qe_result (q : qe_input) : cell Qc :=
  mkCell (Some (q_lattice q)) (Some (qe_species q)) (Some (run_lengths (qe_species q))) (existsb (fun a => mem_string "0" (fst a)) (q_atoms q))
    (Some Cartesian) (Some (map snd (q_atoms q))) (Some (map Z.of_nat (qe_free_index q))) (Some (map Z.of_nat (xyz_of (qe_free_index q)))) None.

Lemma rows_free (rows : list string) (atoms : list (list string * v3 Qc)) : Forall2 qe_atom_line rows atoms -> forall k,
  map fst (filter (fun iv => negb (mem_string "0" (split_ws (snd iv)))) (enumerate_from k rows)) =
  map fst (filter (fun ia => negb (mem_string "0" (fst (snd ia)))) (enumerate_from k atoms)).
Proof.
  induction 1 as [|l a ls as' (E & _) _ IH]; intros k; [reflexivity|]. cbn [enumerate_from filter snd]. rewrite E.
  destruct (negb _); cbn [map fst]; now rewrite IH.
Qed.
Lemma free_index_spec (atoms : list (list string * v3 Qc)) : forall k,
  StronglySorted Z.lt (map Z.of_nat (map fst (filter (fun ia => negb (mem_string "0" (fst (snd ia)))) (enumerate_from k atoms)))) /\
  forall i, In i (map fst (filter (fun ia => negb (mem_string "0" (fst (snd ia)))) (enumerate_from k atoms))) <->
    k <= i /\ exists a, nth_error atoms (i - k) = Some a /\ ~ qe_fixed a.
Proof.
  induction atoms as [|a as' IH]; intros k; cbn [enumerate_from filter map snd].
  - split; [constructor|]. intros i. split; [intros []|]. intros (_ & a & H & _). destruct (i - k); discriminate.
  - destruct (IH (S k)) as (S1 & M1).
    assert (Q : negb (mem_string "0" (fst a)) = true <-> ~ qe_fixed a).
    { unfold qe_fixed. rewrite <- mem_string_In. destruct (mem_string "0" (fst a)); cbn; split; congruence. }
    assert (M : forall i, (k <= i /\ exists x, nth_error (a :: as') (i - k) = Some x /\ ~ qe_fixed x) <->
         (i = k /\ ~ qe_fixed a) \/ (S k <= i /\ exists x, nth_error as' (i - S k) = Some x /\ ~ qe_fixed x)).
    { intros i. split.
      - intros (Hk & x & Hx & Px). destruct (Nat.eq_dec i k) as [->|N].
        + rewrite Nat.sub_diag in Hx. cbn in Hx. injection Hx as ->. now left.
        + right. split; [lia|]. exists x. replace (i - k) with (S (i - S k)) in Hx by lia. auto.
      - intros [(-> & Px)|(Hk & x & Hx & Px)].
        + split; [lia|]. exists a. rewrite Nat.sub_diag. auto.
        + split; [lia|]. exists x. replace (i - k) with (S (i - S k)) by lia. auto. }
    destruct (negb (mem_string "0" (fst a))) eqn:N.
    + cbn [map fst]. split.
      * constructor; [exact S1|]. apply Forall_forall. intros z Hz. apply in_map_iff in Hz as (j & <- & Hj). apply M1 in Hj. lia.
      * intros i. cbn [In]. rewrite M1, M. split; [intros [<-|H]; [left; split; [reflexivity|now apply Q]|right; exact H]|intros [(-> & _)|H]; auto].
    + split; [exact S1|]. intros i. rewrite M1, M. split; [auto|]. intros [(_ & C)|H]; [apply Q in C; congruence|exact H].
Qed.

Lemma only_existsb lines i l P p : (forall x, p x = true <-> P x) -> only_line lines i l P -> existsb p lines = true.
Proof. intros H (A & B & _). apply existsb_exists. exists l. split; [eapply nth_error_In, A|now apply H]. Qed.

Lemma run_lengths_ungroup gs : maximal_runs gs -> ungroup gs <> [] -> run_lengths (ungroup gs) = group_sizes gs.
Proof.
  intros M Hne. rewrite <- ungroup_expand, <- sizes_counts. apply maximal_iff in M as (M1 & M2). apply run_lengths_expand; auto.
  intros ->. now apply Hne.
Qed.

Lemma espresso_result q text before : qe_file q (readlines text) -> read_unit_cell espresso_read before text = (qe_result q, None).
Proof.
  intros (ni & nline & ci & cline & pi & pline & w1 & w2 & w3 & wr & b1 & la & lb & lc & ea & eb & ec & rest1 & b2 & rows & rest2 &
    ON & OC & OP & N1 & N2 & N3 & Hn & Hnum & Hc & Hb1 & Ha & Hb & Hc3 & Hp & Hb2 & Hrows & Hne).
  unfold read_unit_cell. set (lines := readlines text) in *. clearbody lines.
  assert (LR : length rows = length (q_atoms q)) by (clear -Hrows; induction Hrows; cbn; congruence).
  assert (SC : qe_scan_lines 0 (mkScan None None None) lines = Ok (mkScan (Some (Z.of_nat (length (q_atoms q)))) (Some ci) (Some pi))).
  { rewrite (scan_spec (Z.of_nat (length (q_atoms q))) ci pi).
    - rewrite (only_existsb lines ni nline _ _ (mentions_iff "nat") ON).
      assert (EC : existsb is_cell lines = true).
      { apply existsb_exists. exists cline. destruct OC as (A & B & _). split; [eapply nth_error_In, A|].
        unfold is_cell. apply mentions_iff in B. rewrite B, andb_true_r. destruct (contains "nat" cline) eqn:E; [|reflexivity].
        apply mentions_iff in E. destruct ON as (_ & _ & U). specialize (U _ _ A E). congruence. }
      assert (EP : existsb is_pos lines = true).
      { apply existsb_exists. exists pline. destruct OP as (A & B & _). split; [eapply nth_error_In, A|].
        unfold is_pos. apply mentions_iff in B. rewrite B, andb_true_r.
        destruct (contains "nat" pline) eqn:E; [apply mentions_iff in E; destruct ON as (_ & _ & U); specialize (U _ _ A E); congruence|].
        destruct (contains "CELL_PARAMETERS" pline) eqn:E2; [apply mentions_iff in E2; destruct OC as (_ & _ & U); specialize (U _ _ A E2); congruence|]. reflexivity. }
      rewrite EC, EP. reflexivity.
    - apply Forall_forall. intros l Hl Hc'. apply In_nth_error in Hl as (j & Hj). apply mentions_iff in Hc'.
      destruct ON as (A & _ & U). specialize (U _ _ Hj Hc'). subst j. rewrite A in Hj. injection Hj as <-.
      exists w1, w2, w3, wr. auto.
    - intros j l Hj Hl. unfold is_cell in Hl. apply andb_true_iff in Hl as (_ & Hl). apply mentions_iff in Hl. cbn [Nat.add].
      destruct OC as (_ & _ & U). exact (U _ _ Hj Hl).
    - intros j l Hj Hl. unfold is_pos in Hl. apply andb_true_iff in Hl as (_ & Hl). apply mentions_iff in Hl. cbn [Nat.add].
      destruct OP as (_ & _ & U). exact (U _ _ Hj Hl). }
  assert (RD : espresso_read lines = Ok (mkRd (map vrow [r1 (q_lattice q); r2 (q_lattice q); r3 (q_lattice q)]) (qe_species q) (run_lengths (qe_species q))
     (existsb (fun a => mem_string "0" (fst a)) (q_atoms q)) "cartesian" (map vrow (map snd (q_atoms q))) (qe_free_index q) (xyz_of (qe_free_index q)))).
  { unfold espresso_read. rewrite SC. cbn [bind q_nat q_lat q_pos].
    replace (ci + 1) with (S ci) by lia. replace (pi + 1) with (S pi) by lia. rewrite Hc, Hp.
    rewrite (blank_prefix_app b1 la _ Hb1 (three_not_blank _ _ _ Ha)).
    assert (BP : blank_prefix (b2 ++ rows ++ rest2) = length b2).
    { destruct Hrows as [|l a rows' as' Hl _]; [contradiction|]. cbn [app]. apply blank_prefix_app; [exact Hb2|eapply atom_line_not_blank, Hl]. }
    rewrite BP.
    assert (PL : py_slice lines (ci + length b1 + 1) (Z.of_nat (ci + length b1) + 4) = [la; lb; lc]).
    { pose proof (py_slice_at lines b1 [la; lb; lc] rest1 (S ci) Hc) as PA. cbn [length] in PA.
      replace (ci + length b1 + 1) with (S ci + length b1) by lia. replace (Z.of_nat (ci + length b1) + 4)%Z with (Z.of_nat (S ci + length b1) + Z.of_nat 3)%Z by lia. exact PA. }
    rewrite PL.
    rewrite (asfarray_rows (fun l => tslice 0 3 (split_ws l)) [la; lb; lc] [r1 (q_lattice q); r2 (q_lattice q); r3 (q_lattice q)])
      by (repeat constructor; eapply parse_three; eassumption).
    cbn [bind].
    assert (PP : py_slice lines (pi + length b2 + 1) (Z.of_nat (pi + length b2) + 1 + Z.of_nat (length (q_atoms q))) = rows).
    { pose proof (py_slice_at lines b2 rows rest2 (S pi) Hp) as PA. rewrite <- LR.
      replace (pi + length b2 + 1) with (S pi + length b2) by lia. replace (Z.of_nat (pi + length b2) + 1 + Z.of_nat (length rows))%Z with (Z.of_nat (S pi + length b2) + Z.of_nat (length rows))%Z by lia. exact PA. }
    rewrite PP.
    assert (TY : mapM (fun l => py_nth (split_ws l) 0) rows = Ok (qe_species q)).
    { unfold qe_species. clear -Hrows. induction Hrows as [|l a rows' as' (E & n & ws & r & E2 & _) _ IH]; [reflexivity|].
      cbn [mapM map]. rewrite E, E2. cbn [py_nth nth_error of_option bind hd]. rewrite IH. reflexivity. }
    rewrite TY. cbn [bind].
    assert (AF : asfarray (map (fun l => tslice 1 4 (split_ws l)) rows) = Ok (map vrow (map snd (q_atoms q)))).
    { apply asfarray_rows. clear -Hrows. induction Hrows as [|l a rows' as' (E & n & ws & r & E2 & H3) _ IH]; cbn [map]; constructor; [|exact IH].
      rewrite E, E2. change (tslice 1 4 (n :: ws)) with (tslice 0 3 ws). eapply parse_three, H3. }
    rewrite AF. cbn [bind].
    assert (IW : indices_where (fun l => negb (mem_string "0" (split_ws l))) rows = qe_free_index q) by (apply rows_free; exact Hrows).
    rewrite IW.
    assert (EX : existsb (fun l => mem_string "0" (split_ws l)) rows = existsb (fun a => mem_string "0" (fst a)) (q_atoms q)).
    { clear -Hrows. induction Hrows as [|l a rows' as' (E & _) _ IH]; [reflexivity|]. cbn [existsb]. now rewrite E, IH. }
    rewrite EX. reflexivity. }
  rewrite RD. unfold qe_result.
  assert (LN : length (map snd (q_atoms q)) = length (q_atoms q)) by apply map_length.
  destruct (free_index_spec (q_atoms q) 0) as (FS & FM). fold (enumerate (q_atoms q)) in FS, FM. fold (qe_free_index q) in FS, FM.
  apply (assign_gen (q_lattice q) (qe_species q) _ _ false).
  - rewrite LN. destruct (q_atoms q); [contradiction|cbn; lia].
  - unfold qe_species. now rewrite !map_length.
  - apply slt_sle, FS.
  - apply Forall_forall. intros i Hi. apply FM in Hi as (_ & a & H & _). rewrite Nat.sub_0_r in H. rewrite LN. apply nth_error_Some. congruence.
Qed.

(** * C78 *)
Theorem espresso_file_meaning :
  forall (q : qe_input) (text : string) (before : cell Qc),
    qe_file q (readlines text) ->
    exists c, read_unit_cell espresso_read before text = (c, None) /\ qe_cell q c.
Proof.
  intros q text before H. exists (qe_result q). split; [now apply espresso_result|].
  assert (Hne : q_atoms q <> []) by (destruct H as (? & ? & ? & ? & ? & ? & ? & ? & ? & ? & ? & ? & ? & ? & ? & ? & ? & ? & ? & ? & ? & H); tauto).
  unfold qe_cell, qe_result. cbn [c_lat c_type c_num c_sel c_coord c_cart].
  split; [reflexivity|]. split; [reflexivity|]. split.
  { intros gs E M. f_equal. rewrite E. apply run_lengths_ungroup; [exact M|]. rewrite <- E. unfold qe_species. destruct (q_atoms q); [contradiction|discriminate]. }
  split.
  { rewrite existsb_exists. unfold qe_fixed. split; intros (a & Ha & Hf); exists a; (split; [exact Ha|]); now apply mem_string_In. }
  split; [reflexivity|]. split; [reflexivity|].
  destruct (free_index_spec (q_atoms q) 0) as (FS & FM). fold (enumerate (q_atoms q)) in FS, FM. fold (qe_free_index q) in FS, FM.
  apply selects_intro; [exact FS|]. intros i. rewrite FM, Nat.sub_0_r. split.
  - intros (_ & a & Ha & Hf). split; [apply nth_error_Some; congruence|eauto].
  - intros (_ & H'). split; [lia|exact H'].
Qed.
Print Assumptions espresso_file_meaning.

(** An atom with a coordinate written as 0 is taken for a fixed one. *)
Theorem espresso_zero_coordinate_freezes :
  forall (q : qe_input) (text : string) (before : cell Qc) i name x y z rest v,
    qe_file q (readlines text) ->
    nth_error (q_atoms q) i = Some (name :: x :: y :: z :: rest, v) -> In "0"%string [x; y; z] ->
    exists c tr, read_unit_cell espresso_read before text = (c, None) /\ c_sel c = true /\ c_true c = Some tr /\ ~ In (Z.of_nat i) tr.
Proof.
  intros q text before i name x y z rest v H Hi H0. destruct (espresso_file_meaning q text before H) as (c & R & (_ & _ & _ & S & _ & _ & (tr & T & _ & M & _))).
  assert (F : qe_fixed (name :: x :: y :: z :: rest, v)) by (unfold qe_fixed; cbn [fst In] in *; tauto).
  exists c, tr. split; [exact R|]. split; [apply S; eexists; split; [eapply nth_error_In, Hi|exact F]|]. split; [exact T|].
  intros Hin. apply M in Hin as (j & E & _ & a & Ha & Nf). apply Nat2Z.inj in E. subst j. rewrite Hi in Ha. injection Ha as <-. contradiction.
Qed.
Print Assumptions espresso_zero_coordinate_freezes.

(** The units named on the CELL_PARAMETERS and ATOMIC_POSITIONS lines (alat, bohr,
    crystal, ...) make no difference: the numbers are always taken as Cartesian. *)
Theorem espresso_units_ignored :
  forall (q : qe_input) (text text' : string) (before : cell Qc),
    qe_file q (readlines text) -> qe_file q (readlines text') ->
    read_unit_cell espresso_read before text = read_unit_cell espresso_read before text'.
Proof. intros q text text' before H H'. now rewrite (espresso_result q text before H), (espresso_result q text' before H'). Qed.
Print Assumptions espresso_units_ignored.

(** Any line in which the letters n-a-t follow each other counts as the line with
    the number of atoms ("coordinates" is such a word): the file is refused when the
    third word of such a line is missing or no integer. *)
Theorem espresso_stray_nat_rejected :
  forall (text : string) (before : cell Qc) l,
    In l (readlines text) -> mentions "nat" l ->
    (forall w1 w2 w3 wr, split_ws l = w1 :: w2 :: w3 :: wr -> parse_int w3 = None) ->
    exists e, read_unit_cell espresso_read before text = (cell_init, Some e).
Proof.
  intros text before l Hin Hm Hw. unfold read_unit_cell. set (lines := readlines text) in *. clearbody lines.
  apply mentions_iff in Hm.
  assert (G : forall i st, exists e, qe_scan_lines i st lines = Err e).
  { induction lines as [|x xs IH]; intros i st; [destruct Hin|]. cbn [qe_scan_lines]. destruct Hin as [->|Hin].
    - rewrite Hm. destruct (split_ws l) as [|w1 [|w2 [|w3 wr]]]; try (eexists; reflexivity).
      cbn [py_nth nth_error of_option bind]. rewrite (Hw _ _ _ _ eq_refl). eexists; reflexivity.
    - specialize (IH Hin). destruct (contains "nat" x).
      + destruct (py_nth (split_ws x) 2) as [w|e]; cbn [bind]; [|eauto]. destruct (parse_int w); cbn [of_option bind]; [apply IH|eauto].
      + destruct (contains "CELL_PARAMETERS" x); [apply IH|]. destruct (contains "ATOMIC_POSITIONS" x); apply IH. }
  destruct (G 0 (mkScan None None None)) as (e & E). exists e. unfold espresso_read. rewrite E. reflexivity.
Qed.
Print Assumptions espresso_stray_nat_rejected.

(** witnesses: crystal coordinates taken as Cartesian, zero coordinates as flags *)
Definition wit_qe_lines (u : string) : list string :=
  ["&SYSTEM"; "  nat = 2"; "  ibrav = 0"; "/"; ("ATOMIC_POSITIONS " ++ u)%string; ""; "Si 0 0 0.5"; "O  0.5 0.25 0.125"; "";
   "K_POINTS gamma"; "CELL_PARAMETERS bohr"; "5 0 0"; "0 5 0"; "0 0 20"].
Section QeWitness.
  Let q (a : Z) (b : positive) := Q2Qc (a # b).
Definition wit_qe : qe_input :=
  mkQe (M3 (V3 (q 5 1) (q 0 1) (q 0 1)) (V3 (q 0 1) (q 5 1) (q 0 1)) (V3 (q 0 1) (q 0 1) (q 20 1)))
   [(["Si"; "0"; "0"; "0.5"], V3 (q 0 1) (q 0 1) (q 1 2)); (["O"; "0.5"; "0.25"; "0.125"], V3 (q 1 2) (q 1 4) (q 1 8))].
End QeWitness.
Ltac only_here := split; [reflexivity|]; split; [apply mentions_iff; vm_compute; reflexivity|];
  let j := fresh in let l := fresh in let H1 := fresh in let H2 := fresh in
  intros j l H1 H2; apply mentions_iff in H2;
  do 14 (destruct j as [|j]; [vm_compute in H1; injection H1 as <-; vm_compute in H2; first [reflexivity|discriminate]|]);
  destruct j; vm_compute in H1; discriminate.
Lemma qe_witness (u : string) : u = "crystal" \/ u = "angstrom" -> qe_file wit_qe (readlines (to_text (wit_qe_lines u))).
Proof.
  intros Hu.
  exists 1, (addnl "  nat = 2"), 10, (addnl "CELL_PARAMETERS bohr"), 4, (addnl ("ATOMIC_POSITIONS " ++ u)), "nat", "=", "2", [].
  exists [], (addnl "5 0 0"), (addnl "0 5 0"), (addnl "0 0 20"), [], [], [], [].
  exists [blank_line], (map addnl ["Si 0 0 0.5"; "O  0.5 0.25 0.125"]), (map addnl [""; "K_POINTS gamma"; "CELL_PARAMETERS bohr"; "5 0 0"; "0 5 0"; "0 0 20"]).
  destruct Hu as [-> | ->].
  all: split; [only_here|]; split; [only_here|]; split; [only_here|]; split; [lia|]; split; [lia|]; split; [lia|].
  all: split; [reflexivity|]; split; [reflexivity|]; split; [reflexivity|]; split; [constructor|].
  all: split; [three3|]; split; [three3|]; split; [three3|]; split; [reflexivity|]; split; [repeat constructor|]; split; [|discriminate].
  all: repeat (constructor; [split; [vm_compute; reflexivity|do 3 eexists; split; [reflexivity|three3]]|]); constructor.
Qed.
Example qe_witness_read :
  exists c, read_unit_cell espresso_read cell_init (to_text (wit_qe_lines "crystal")) = (c, None) /\
    read_unit_cell espresso_read cell_init (to_text (wit_qe_lines "angstrom")) = (c, None) /\
    c_sel c = true /\ c_true c = Some [1]%Z.
Proof. eexists. split; [vm_compute; reflexivity|]. split; [vm_compute; reflexivity|]. split; reflexivity. Qed.
Example stray_nat_witness :
  exists l, In l (readlines (to_text ("! coordinates" :: wit_qe_lines "angstrom"))) /\ mentions "nat" l /\
    (forall w1 w2 w3 wr, split_ws l = w1 :: w2 :: w3 :: wr -> parse_int w3 = None).
Proof.
  exists (addnl "! coordinates"). split; [left; reflexivity|]. split; [apply mentions_iff; vm_compute; reflexivity|].
  intros w1 w2 w3 wr H. vm_compute in H. discriminate.
Qed.

(** * FHI-aims: specification *)

(** The lattice vectors and the atoms (species, position, constrained) of a
    geometry.in: a line is a lattice vector or an atom by the word it holds; an atom
    is constrained by the tag on its own line or on the next one; all other lines
    (comments, atom_frac, initial_moment, ...) carry nothing. *)
Inductive aims_lines : list string -> list (v3 Qc) -> list (string * v3 Qc * bool) -> Prop :=
| al_end : aims_lines [] [] []
| al_other l ls vs atoms :
    ~ In "atom" (split_ws l) -> ~ In "lattice_vector" (split_ws l) ->
    aims_lines ls vs atoms -> aims_lines (l :: ls) vs atoms
| al_vector l ls vs atoms ws v rest :
    split_ws l = "lattice_vector" :: ws -> three_numbers ws v rest -> ~ In "atom" rest ->
    aims_lines ls vs atoms -> aims_lines (l :: ls) (v :: vs) atoms
| al_atom l ls vs atoms ws v name rest fixed :
    split_ws l = "atom" :: ws -> three_numbers ws v (name :: rest) -> ~ In "lattice_vector" (name :: rest) ->
    (fixed = true <-> mentions "constrain_relaxation .true." l \/ exists l2 r, ls = l2 :: r /\ mentions "constrain_relaxation .true." l2) ->
    aims_lines ls vs atoms -> aims_lines (l :: ls) vs ((name, v, fixed) :: atoms).
Definition aims_cell (L : m3 Qc) (atoms : list (string * v3 Qc * bool)) (c : cell Qc) : Prop :=
  let types := map (fun a => fst (fst a)) atoms in
  c_lat c = Some L /\ c_type c = Some types /\
  (forall gs, types = ungroup gs -> maximal_runs gs -> c_num c = Some (group_sizes gs)) /\
  (c_sel c = true <-> exists a, In a atoms /\ snd a = true) /\
  c_coord c = Some Cartesian /\ c_cart c = Some (map (fun a => snd (fst a)) atoms) /\
  selects (length atoms) (fun i => exists a, nth_error atoms i = Some a /\ snd a = false) c.

(** ** Proofs *)
Lemma mem_not s l : mem_string s l = false <-> ~ In s l.
Proof. rewrite <- mem_string_In. destruct (mem_string s l); split; congruence. Qed.
Lemma not_in_three s ws v rest : parse_float s = None -> three_numbers ws v rest -> ~ In s rest -> ~ In s ws.
Proof.
  intros Hp (a & b & c & -> & Ha & Hb & Hc) Hn [E|[E|[E|H]]]; [subst; congruence..|contradiction].
Qed.
Lemma tag_iff l ls : (contains aims_tag l || match ls with l2 :: _ => contains aims_tag l2 | [] => false end)%bool = true <->
  mentions "constrain_relaxation .true." l \/ exists l2 r, ls = l2 :: r /\ mentions "constrain_relaxation .true." l2.
Proof.
  rewrite orb_true_iff. rewrite (mentions_iff aims_tag l). change aims_tag with "constrain_relaxation .true." at 1. split.
  - intros [H|H]; [now left|]. destruct ls as [|l2 r]; [discriminate|]. right. exists l2, r. split; [reflexivity|]. now apply mentions_iff.
  - intros [H|(l2 & r & -> & H)]; [now left|]. right. now apply mentions_iff.
Qed.
Lemma bool_iff_eq (a b : bool) (P : Prop) : (a = true <-> P) -> (b = true <-> P) -> a = b.
Proof. destruct a, b; intuition congruence. Qed.

Lemma aims_lines_read ls vs atoms : aims_lines ls vs atoms ->
  (exists vls, filter (fun l => mem_string "lattice_vector" (split_ws l)) ls = vls /\
     Forall2 (fun l v => parse_row (tslice 1 4 (split_ws l)) = Ok (vrow v)) vls vs) /\
  (exists toks, aims_atoms ls = Ok (combine (combine (map (fun a => fst (fst a)) atoms) toks) (map snd atoms)) /\
     Forall2 (fun ts a => parse_row ts = Ok (vrow (snd (fst a)))) toks atoms).
Proof.
  induction 1 as [|l ls vs atoms NA NL _ ((vls & E1 & F1) & toks & E2 & F2)
    |l ls vs atoms ws v rest E H3 NA _ ((vls & E1 & F1) & toks & E2 & F2)
    |l ls vs atoms ws v name rest fixed E H3 NL HF _ ((vls & E1 & F1) & toks & E2 & F2)].
  - split; [exists []|exists []]; split; constructor.
  - apply mem_not in NA, NL. split.
    + exists vls. cbn [filter]. rewrite NL. auto.
    + exists toks. cbn [aims_atoms]. rewrite NA. auto.
  - assert (M1 : mem_string "lattice_vector" (split_ws l) = true) by (apply mem_string_In; rewrite E; now left).
    assert (M2 : mem_string "atom" (split_ws l) = false).
    { apply mem_not. rewrite E. intros [C|C]; [discriminate|]. revert C. eapply not_in_three; [reflexivity|exact H3|exact NA]. }
    split.
    + exists (l :: vls). cbn [filter]. rewrite M1, E1. split; [reflexivity|]. constructor; [|exact F1].
      rewrite E. change (tslice 1 4 ("lattice_vector" :: ws)) with (tslice 0 3 ws). eapply parse_three, H3.
    + exists toks. cbn [aims_atoms]. rewrite M2. auto.
  - assert (M1 : mem_string "lattice_vector" (split_ws l) = false).
    { apply mem_not. rewrite E. intros [C|C]; [discriminate|]. revert C. eapply not_in_three; [reflexivity|exact H3|exact NL]. }
    assert (M2 : mem_string "atom" (split_ws l) = true) by (apply mem_string_In; rewrite E; now left).
    split.
    + exists vls. cbn [filter]. rewrite M1. auto.
    + exists (tslice 0 3 ws :: toks). cbn [aims_atoms]. rewrite M2.
      rewrite (bool_iff_eq _ fixed _ (tag_iff l ls) HF).
      assert (N4 : py_nth (split_ws l) 4 = Ok name) by (rewrite E; destruct H3 as (a & b & c & -> & _); reflexivity).
      rewrite N4. cbn [bind]. rewrite E2. cbn [bind map combine fst snd]. split.
      * rewrite E. reflexivity.
      * constructor; [eapply parse_three, H3|exact F2].
Qed.

Definition aims_free (atoms : list (string * v3 Qc * bool)) : list nat :=
  map fst (filter (fun ia => negb (snd (snd ia))) (enumerate atoms)).
Lemma aims_free_spec (atoms : list (string * v3 Qc * bool)) : forall k,
  let l := map fst (filter (fun ia => negb (snd (snd ia))) (enumerate_from k atoms)) in
  StronglySorted Z.lt (map Z.of_nat l) /\
  forall i, In i l <-> k <= i /\ exists a, nth_error atoms (i - k) = Some a /\ snd a = false.
Proof.
  induction atoms as [|a as' IH]; intros k; cbv zeta; cbn [enumerate_from filter map snd].
  - split; [constructor|]. intros i. split; [intros []|]. intros (_ & a & H & _). destruct (i - k); discriminate.
  - destruct (IH (S k)) as (S1 & M1). cbv zeta in S1, M1.
    assert (M : forall i, (k <= i /\ exists x, nth_error (a :: as') (i - k) = Some x /\ snd x = false) <->
         (i = k /\ snd a = false) \/ (S k <= i /\ exists x, nth_error as' (i - S k) = Some x /\ snd x = false)).
    { intros i. split.
      - intros (Hk & x & Hx & Px). destruct (Nat.eq_dec i k) as [->|N].
        + rewrite Nat.sub_diag in Hx. cbn in Hx. injection Hx as ->. now left.
        + right. split; [lia|]. exists x. replace (i - k) with (S (i - S k)) in Hx by lia. auto.
      - intros [(-> & Px)|(Hk & x & Hx & Px)].
        + split; [lia|]. exists a. rewrite Nat.sub_diag. auto.
        + split; [lia|]. exists x. replace (i - k) with (S (i - S k)) by lia. auto. }
    destruct (snd a) eqn:N; cbn [negb].
    + split; [exact S1|]. intros i. rewrite M1, M. split; [auto|]. intros [(_ & C)|H]; [discriminate|exact H].
    + cbn [map fst]. split.
      * constructor; [exact S1|]. apply Forall_forall. intros z Hz. apply in_map_iff in Hz as (j & <- & Hj). apply M1 in Hj. lia.
      * intros i. cbn [In]. rewrite M1, M. split; [intros [<-|H]; [left; auto|right; exact H]|intros [(-> & _)|H]; auto].
Qed.

Lemma toks_views (toks : list (list string)) (atoms : list (string * v3 Qc * bool)) : length toks = length atoms ->
  let l := combine (combine (map (fun a => fst (fst a)) atoms) toks) (map snd atoms) in
  map (fun a => fst (fst a)) l = map (fun a => fst (fst a)) atoms /\ map (fun a => snd (fst a)) l = toks /\
  existsb (fun a => snd a) l = existsb (fun a => snd a) atoms /\
  forall k, map fst (filter (fun ia => negb (snd (snd ia))) (enumerate_from k l)) = map fst (filter (fun ia => negb (snd (snd ia))) (enumerate_from k atoms)).
Proof.
  revert atoms. induction toks as [|t toks IH]; intros [|a atoms] Hl; try discriminate; [repeat split|].
  cbn [length] in Hl. destruct (IH atoms ltac:(lia)) as (A & B & C & D). cbv zeta in *. cbn [map combine fst snd existsb]. rewrite A, B, C.
  repeat split. intros k. cbn [enumerate_from filter snd]. destruct (negb (snd a)); cbn [map fst]; now rewrite D.
Qed.

(** * C79 *)
Theorem aims_file_meaning :
  forall (L : m3 Qc) (atoms : list (string * v3 Qc * bool)) (text : string) (before : cell Qc),
    aims_lines (readlines text) [r1 L; r2 L; r3 L] atoms -> atoms <> [] ->
    exists c, read_unit_cell aims_read before text = (c, None) /\ aims_cell L atoms c.
Proof.
  intros L atoms text before H Hne. destruct (aims_lines_read _ _ _ H) as ((vls & E1 & F1) & toks & E2 & F2).
  assert (LT : length toks = length atoms) by (clear -F2; induction F2; cbn; congruence).
  destruct (toks_views toks atoms LT) as (A & B & C & D). cbv zeta in A, B, C, D.
  set (types := map (fun a : string * v3 Qc * bool => fst (fst a)) atoms) in *.
  assert (RD : aims_read (readlines text) = Ok (mkRd (map vrow [r1 L; r2 L; r3 L]) types (run_lengths types) (existsb (fun a => snd a) atoms) "cartesian"
     (map vrow (map (fun a => snd (fst a)) atoms)) (aims_free atoms) (xyz_of (aims_free atoms)))).
  { unfold aims_read. rewrite E1. rewrite (asfarray_rows (fun l => tslice 1 4 (split_ws l)) vls [r1 L; r2 L; r3 L] F1). cbn [bind].
    rewrite E2. cbn [bind]. rewrite A, B, C. unfold enumerate. rewrite D.
    assert (AF : asfarray toks = Ok (map vrow (map (fun a => snd (fst a)) atoms))).
    { rewrite <- (map_id toks). clear -F2. unfold asfarray.
      assert (M : mapM parse_row (map (fun x => x) toks) = Ok (map vrow (map (fun a : string * v3 Qc * bool => snd (fst a)) atoms))).
      { induction F2 as [|ts a tss as' H _ IH]; [reflexivity|]. cbn [map mapM]. rewrite H. cbn [bind]. rewrite IH. reflexivity. }
      rewrite M. cbn [bind].
      assert (R : rectangular (map vrow (map (fun a : string * v3 Qc * bool => snd (fst a)) atoms)) = true).
      { destruct (map (fun a : string * v3 Qc * bool => snd (fst a)) atoms) as [|v vs]; [reflexivity|]. cbn [map rectangular]. apply forallb_forall. intros x Hx.
        apply in_map_iff in Hx as (w & <- & _). reflexivity. }
      now rewrite R. }
    rewrite AF. reflexivity. }
  destruct (aims_free_spec atoms 0) as (FS & FM). cbv zeta in FS, FM. fold (enumerate atoms) in FS, FM. fold (aims_free atoms) in FS, FM.
  unfold read_unit_cell. rewrite RD. eexists. split.
  { apply (assign_gen L types _ _ false).
    - rewrite map_length. destruct atoms; [contradiction|cbn; lia].
    - unfold types. now rewrite !map_length.
    - apply slt_sle, FS.
    - apply Forall_forall. intros i Hi. apply FM in Hi as (_ & a & Ha & _). rewrite Nat.sub_0_r in Ha. rewrite map_length. apply nth_error_Some. congruence. }
  unfold aims_cell. fold types. cbn [c_lat c_type c_num c_sel c_coord c_cart].
  split; [reflexivity|]. split; [reflexivity|]. split.
  { intros gs E M. f_equal. rewrite E. apply run_lengths_ungroup; [exact M|]. rewrite <- E. unfold types. destruct atoms; [contradiction|discriminate]. }
  split; [apply existsb_exists|]. split; [reflexivity|]. split; [reflexivity|].
  apply selects_intro; [exact FS|]. intros i. rewrite FM, Nat.sub_0_r. split.
  - intros (_ & a & Ha & Hf). split; [apply nth_error_Some; congruence|eauto].
  - intros (_ & H'). split; [lia|exact H'].
Qed.
Print Assumptions aims_file_meaning.

(** Atoms given in fractional coordinates (atom_frac) are passed over: a file whose
    atoms are all of that kind is refused, a file with both kinds loses them. *)
Theorem aims_fractional_atoms_only_rejected :
  forall (L : m3 Qc) (text : string) (before : cell Qc),
    aims_lines (readlines text) [r1 L; r2 L; r3 L] [] ->
    snd (read_unit_cell aims_read before text) = Some EValue.
Proof.
  intros L text before H. destruct (aims_lines_read _ _ _ H) as ((vls & E1 & F1) & toks & E2 & F2).
  inversion F2; subst toks. cbn [map combine] in E2.
  unfold read_unit_cell, aims_read. rewrite E1, (asfarray_rows (fun l => tslice 1 4 (split_ws l)) vls [r1 L; r2 L; r3 L] F1). cbn [bind].
  rewrite E2. cbn [bind map asfarray mapM rectangular].
  unfold rd_ops. cbn [rd_lat rd_type rd_num rd_sel rd_coord rd_cart rd_true rd_xyz assign_all run_op].
  unfold set_lattice. change [vrow (r1 L); vrow (r2 L); vrow (r3 L)] with (map vrow [r1 L; r2 L; r3 L]). rewrite mat33_vrow. reflexivity.
Qed.
Print Assumptions aims_fractional_atoms_only_rejected.

Section AimsWitness.
  Let q (a : Z) (b : positive) := Q2Qc (a # b).
  Definition wit_aims_L : m3 Qc := M3 (V3 (q 5 1) (q 0 1) (q 0 1)) (V3 (q 0 1) (q 5 1) (q 0 1)) (V3 (q 0 1) (q 0 1) (q 20 1)).
  Definition wit_aims_lines : list string :=
    ["# slab"; "lattice_vector 5 0 0"; "lattice_vector 0 5 0"; "lattice_vector 0 0 20"; "atom 0 0 0 Si"; "  constrain_relaxation .true.";
     "atom_frac 0.5 0.5 0.5 Si"; "atom 1.5 0 0 Si"; "  initial_moment 2.0"; "  constrain_relaxation .true."].
  Definition wit_aims_atoms : list (string * v3 Qc * bool) := [("Si", V3 (q 0 1) (q 0 1) (q 0 1), true); ("Si", V3 (q 3 2) (q 0 1) (q 0 1), false)].
End AimsWitness.
(** the third atom is lost, and the constraint of the last one too, because another
    tag stands between the atom and the constraint *)
Example aims_witness : aims_lines (readlines (to_text wit_aims_lines)) [r1 wit_aims_L; r2 wit_aims_L; r3 wit_aims_L] wit_aims_atoms.
Proof.
  assert (NI : forall s l, mem_string s (split_ws l) = false -> ~ In s (split_ws l)) by (intros s l; apply mem_not).
  assert (NM : forall t l, contains t l = false -> ~ mentions t l) by (intros t l E M; apply mentions_iff in M; congruence).
  change (readlines (to_text wit_aims_lines)) with (map addnl wit_aims_lines). unfold wit_aims_lines, wit_aims_atoms. cbn [map].
  apply al_other; [apply NI; vm_compute; reflexivity..|].
  do 3 (eapply al_vector; [vm_compute; reflexivity|three3|intros []|]).
  eapply al_atom; [vm_compute; reflexivity|three3|cbn; intros [C|[]]; discriminate|split; [intros _; right; do 2 eexists; split; [reflexivity|apply mentions_iff; vm_compute; reflexivity]|reflexivity]|].
  do 2 (apply al_other; [apply NI; vm_compute; reflexivity..|]).
  eapply al_atom; [vm_compute; reflexivity|three3|cbn; intros [C|[]]; discriminate| |].
  { split; [discriminate|]. intros [C|(l2 & r & E & C)]; [apply NM in C; [destruct C|vm_compute; reflexivity]|].
    injection E as <- _. apply NM in C; [destruct C|vm_compute; reflexivity]. }
  do 2 (apply al_other; [apply NI; vm_compute; reflexivity..|]). constructor.
Qed.
Example aims_witness_read :
  exists c, read_unit_cell aims_read cell_init (to_text wit_aims_lines) = (c, None) /\ c_type c = Some ["Si"; "Si"] /\ c_true c = Some [1]%Z.
Proof. eexists. split; [vm_compute; reflexivity|]. split; reflexivity. Qed.
Example aims_frac_witness :
  aims_lines (readlines (to_text ["lattice_vector 5 0 0"; "lattice_vector 0 5 0"; "lattice_vector 0 0 20"; "atom_frac 0.5 0.5 0.5 Si"]))
    [r1 wit_aims_L; r2 wit_aims_L; r3 wit_aims_L] [].
Proof.
  assert (NI : forall s l, mem_string s (split_ws l) = false -> ~ In s (split_ws l)) by (intros s l; apply mem_not).
  match goal with |- aims_lines ?x _ _ => let y := eval vm_compute in x in change x with y end.
  do 3 (eapply al_vector; [vm_compute; reflexivity|three3|intros []|]).
  apply al_other; [apply NI; vm_compute; reflexivity..|]. constructor.
Qed.

(** * Any successful read, whatever the format *)
Theorem successful_read_is_consistent :
  forall (reader : list string -> result rd) (before : cell Qc) (text : string) c,
    read_unit_cell reader before text = (c, None) ->
    exists L ty num co pos tr xyz,
      c_lat c = Some L /\ c_type c = Some ty /\ c_num c = Some num /\ c_coord c = Some co /\ c_cart c = Some pos /\
      c_true c = Some tr /\ c_xyz c = Some xyz /\ c_mass c = None /\
      length pos = length ty /\ 0 < length pos /\
      StronglySorted Z.le tr /\ Forall (fun z => 0 <= z < Z.of_nat (length ty))%Z tr /\ (forall z, In z xyz -> In z tr).
Proof.
  intros reader before text c H. unfold read_unit_cell in H. destruct (reader (readlines text)) as [r|e]; [|discriminate].
  unfold rd_ops in H. cbn [assign_all run_op] in H.
  unfold set_lattice in H. destruct (mat33 (rd_lat r)) as [L|]; [|discriminate].
  unfold set_atom_type in H; cbn [c_cart cell_init] in H.
  unfold set_num_atom in H; cbn [c_cart] in H. unfold set_selective in H; cbn [c_lat c_type c_num c_sel c_coord c_cart c_true c_xyz c_mass] in H.
  unfold set_coordinate in H. cbn [c_lat c_type c_num c_sel c_coord c_cart c_true c_xyz c_mass] in H.
  destruct (rd_coord r) as [|a s]; [discriminate|].
  assert (K : exists co, (if (Ascii.eqb a "D" || Ascii.eqb a "d")%bool%char then Some Direct
      else if (Ascii.eqb a "C" || Ascii.eqb a "c" || Ascii.eqb a "K" || Ascii.eqb a "k")%bool%char then Some Cartesian else None) = Some co).
  { destruct (_ || _)%bool; [eauto|]. destruct (_ || _)%bool; [eauto|discriminate]. }
  destruct K as (co & K).
  assert (H' : assign_all (mkCell (Some L) (Some (rd_type r)) (Some (rd_num r)) (rd_sel r) (Some co) None None None None)
     [OpCart (rd_cart r); OpTrue (map Z.of_nat (rd_true r)); OpXyz (map Z.of_nat (rd_xyz r))] = (c, None)).
  { destruct (_ || _)%bool; [injection K as <-; exact H|]. destruct (_ || _)%bool; [injection K as <-; exact H|discriminate]. }
  clear H K. cbn [assign_all run_op] in H'. unfold set_atom_cart in H'. destruct (rows3 (rd_cart r)) as [p|]; [|discriminate]. cbn [c_type] in H'.
  destruct (shape_okP (rd_type r) p) as [(E & E0)|]; [|discriminate].
  unfold put_cart, set_atom_true in H'. cbn [c_lat c_type c_num c_sel c_coord c_cart c_true c_xyz c_mass] in H'.
  destruct (forallb (in_range (length (rd_type r))) (map Z.of_nat (rd_true r))) eqn:IR; [|discriminate].
  unfold set_xyz_true in H'. cbn [c_lat c_type c_num c_sel c_coord c_cart c_true c_xyz c_mass] in H'.
  destruct (forallb _ (map Z.of_nat (rd_xyz r))) eqn:IX in H'; [|discriminate]. injection H' as <-.
  exists L, (rd_type r), (rd_num r), co, p, (py_sorted (map Z.of_nat (rd_true r))), (py_sorted (map Z.of_nat (rd_xyz r))).
  cbn [c_lat c_type c_num c_sel c_coord c_cart c_true c_xyz c_mass]. repeat (split; [reflexivity|]).
  split; [exact E|]. split; [exact E0|]. 
  assert (PS : forall l x, In x (py_sorted l) <-> In x l).
  { intros l x. split; intros Hx; [exact (Permutation.Permutation_in _ (py_sorted_perm l) Hx)|exact (Permutation.Permutation_in _ (Permutation.Permutation_sym (py_sorted_perm l)) Hx)]. }
  split; [apply CellFacts.py_sorted_sorted|]. split.
  - apply Forall_forall. intros z Hz. apply (proj1 (PS _ _)) in Hz. rewrite forallb_forall in IR. specialize (IR _ Hz). unfold in_range in IR.
    apply andb_true_iff in IR as (I1 & I2). apply Z.leb_le in I1. apply Z.ltb_lt in I2. lia.
  - intros z Hz. apply (proj1 (PS _ _)) in Hz. rewrite forallb_forall in IX. specialize (IX _ Hz). apply existsb_exists in IX as (y & Hy & Ey).
    apply Z.eqb_eq in Ey. now subst.
Qed.
Print Assumptions successful_read_is_consistent.
