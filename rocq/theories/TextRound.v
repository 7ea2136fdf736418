(** Round trips of the three structure formats. *)
From Coq Require Import String Ascii ZArith QArith Qcanon Bool Lia Arith List Permutation Sorted.
From Verif Require Import Base Dec Field Cell CellFacts ArgsFacts Text TextFacts.
Import ListNotations.
Local Open Scope list_scope.
Local Open Scope nat_scope.

Definition lat_rnd (L : m3 Qc) : m3 Qc := M3 (vrnd (r1 L)) (vrnd (r2 L)) (vrnd (r3 L)).
Definition tri (v : v3 Qc) : list string := [fmt16 (vx v); fmt16 (vy v); fmt16 (vz v)].

Lemma fmt16_neq x t : all_char numchar t = false -> String.eqb t (fmt16 x) = false.
Proof. intros H. apply String.eqb_neq. intros E. pose proof (fmt16_chars x) as C. rewrite <- E in C. congruence. Qed.
Lemma fmt16_long x : 17 <= String.length (fmt16 x).
Proof.
  assert (G : 17 <= String.length (fmt16_unsigned (rnd_units x))).
  { unfold fmt16_unsigned. rewrite string_app_length. cbn [String.length].
    destruct (fix16_ok (rnd_units x mod ten16)) as (_ & -> & _); [apply Z.mod_pos_bound; reflexivity|]. lia. }
  unfold fmt16. fold (rnd_units x). destruct (_ <? 0)%Z; cbn [String.length]; lia.
Qed.
Lemma fmt16_neq_short x t : String.length t < 17 -> String.eqb t (fmt16 x) = false.
Proof. intros H. apply String.eqb_neq. intros ->. pose proof (fmt16_long x). lia. Qed.
Lemma mem_tri t v l : String.length t < 17 -> mem_string t (tri v ++ l) = mem_string t l.
Proof. intros H. unfold mem_string, tri. cbn [app existsb]. rewrite !fmt16_neq_short by exact H. reflexivity. Qed.

Lemma z_string_word z : (0 <= z)%Z -> word (z_string z).
Proof.
  intros H. unfold z_string. replace (z <? 0)%Z with false by (symmetry; apply Z.ltb_ge; exact H).
  destruct (nat_digits_spec z H) as (D & _ & N). split; [exact N|].
  rewrite all_char_digits in D. eapply all_char_impl; [|exact D]. intros c Hc. cbn. now rewrite digit_not_ws.
Qed.
Lemma z_string_parse z : (0 <= z)%Z -> parse_int (z_string z) = Some z.
Proof.
  intros H. unfold parse_int. rewrite strip_no_ws by (apply z_string_word; exact H).
  unfold z_string. replace (z <? 0)%Z with false by (symmetry; apply Z.ltb_ge; exact H).
  destruct (nat_digits_spec z H) as (D & V & N). revert D V N. generalize (nat_digits z). intros [|c s] D V N; [congruence|].
  assert (Hc : is_digit c = true) by (cbn in D; now apply andb_true_iff in D as (? & _)).
  assert (E : match String c s with String "-" r => (true, r) | String "+" r => (false, r) | _ => (false, String c s) end = (false, String c s)).
  { destruct (Ascii.eqb_spec c "-") as [->|N1]; [discriminate Hc|].
    destruct (Ascii.eqb_spec c "+") as [->|N2]; [discriminate Hc|].
    destruct c as [[] [] [] [] [] [] [] []]; try reflexivity; exfalso; congruence. }
  rewrite E. cbn beta iota. rewrite D, V. reflexivity.
Qed.

(** ** VASP *)
Definition expand (gs : list (string * nat)) : list string := concat (map (fun g => repeat (fst g) (snd g)) gs).
Definition counts (gs : list (string * nat)) : list Z := map (fun g => Z.of_nat (snd g)) gs.

Lemma counts_sum gs : fold_right Z.add 0%Z (counts gs) = Z.of_nat (length (expand gs)).
Proof.
  unfold counts, expand. induction gs as [|g gs IH]; [reflexivity|]. cbn [map fold_right concat].
  rewrite IH, app_length, repeat_length. lia.
Qed.
Lemma fold_left_add l : forall a, fold_left Z.add l a = (a + fold_right Z.add 0 l)%Z.
Proof. induction l as [|x l IH]; intros a; cbn; [lia|]. rewrite IH. lia. Qed.

Lemma group_types_step ty off n m r : vasp_group_types ty off (n :: m :: r) =
  (let! t := of_option EIndex (if (off + n <? 0)%Z then None else nth_error ty (Z.to_nat (off + n))) in
   let! ts := vasp_group_types ty (off + n) (m :: r) in Ok (t :: ts)).
Proof. reflexivity. Qed.
Lemma group_types_ok pre gs g0 :
  Forall (fun g => 0 < snd g) gs ->
  vasp_group_types (pre ++ expand (g0 :: gs)) (Z.of_nat (length pre)) (counts (g0 :: gs)) = Ok (map fst gs).
Proof.
  revert pre g0. induction gs as [|g1 gs IH]; intros pre g0 H; [reflexivity|].
  inversion H as [|? ? H1 Hgs]; subst.
  cbn [counts map]. fold (counts gs). rewrite group_types_step.
  replace (_ <? 0)%Z with false by (symmetry; apply Z.ltb_ge; lia).
  assert (N : nth_error (pre ++ expand (g0 :: g1 :: gs)) (Z.to_nat (Z.of_nat (length pre) + Z.of_nat (snd g0))) = Some (fst g1)).
  { replace (Z.to_nat _) with (length pre + snd g0) by lia.
    rewrite nth_error_app2 by lia. replace (length pre + snd g0 - length pre) with (snd g0) by lia.
    unfold expand. cbn [map concat]. rewrite nth_error_app2; rewrite repeat_length; [|lia]. rewrite Nat.sub_diag.
    destruct (snd g1) as [|k]; [lia|]. reflexivity. }
  rewrite N. cbn [of_option bind].
  specialize (IH (pre ++ repeat (fst g0) (snd g0)) g1 Hgs).
  assert (E1 : (pre ++ repeat (fst g0) (snd g0)) ++ expand (g1 :: gs) = pre ++ expand (g0 :: g1 :: gs)).
  { unfold expand. cbn [map concat]. rewrite <- app_assoc. reflexivity. }
  rewrite E1 in IH. rewrite app_length, repeat_length in IH.
  replace (Z.of_nat (length pre + snd g0)) with (Z.of_nat (length pre) + Z.of_nat (snd g0))%Z in IH by lia.
  cbn [counts map] in IH. fold (counts gs) in IH. rewrite IH. reflexivity.
Qed.

Lemma mapM_const {B} (f : unit -> result B) b n : f tt = Ok b -> mapM f (repeat tt n) = Ok (repeat b n).
Proof. intros H. induction n as [|n IH]; [reflexivity|]. cbn [repeat mapM]. rewrite H. cbn [bind]. now rewrite IH. Qed.

Lemma vasp_types_ok ls l gs :
  py_nth ls 5 = Ok l -> split_ws l = map fst gs -> vasp_types ls (counts gs) = Ok (expand gs).
Proof.
  intros H5 Hs. unfold vasp_types, enumerate.
  assert (G : forall gs' k, (forall j g, nth_error gs' j = Some g -> nth_error (split_ws l) (k + j) = Some (fst g)) ->
     mapM (fun '(i, n) => mapM (fun _ : unit => let! l := py_nth ls 5 in py_nth (split_ws l) i) (repeat tt (Z.to_nat n)))
       (enumerate_from k (counts gs')) = Ok (map (fun g => repeat (fst g) (snd g)) gs')).
  { induction gs' as [|g gs' IH]; intros k Hk; [reflexivity|].
    cbn [counts map enumerate_from mapM]. fold (counts gs'). 
    rewrite (mapM_const _ (fst g)).
    - cbn [bind]. rewrite IH.
      + cbn [bind]. rewrite Nat2Z.id. reflexivity.
      + intros j g' Hj. replace (S k + j) with (k + S j) by lia. apply Hk. exact Hj.
    - rewrite H5. cbn [bind]. unfold py_nth. rewrite <- (Nat.add_0_r k), (Hk 0 g eq_refl). reflexivity. }
  rewrite (G gs 0).
  - reflexivity.
  - intros j g Hj. rewrite Hs, nth_error_map. cbn [Nat.add]. rewrite Hj. reflexivity.
Qed.

Definition vrow_sel (tr : list Z) (iv : nat * v3 Qc) : string :=
  (" " ++ fmt_row (snd iv) ++ (if in_sel tr (fst iv) then row_T else row_F))%string.

Definition vasp_lines (comment : string) (L : m3 Qc) (gs : list (string * nat)) (sel : bool) (tr : list Z) (pos : list (v3 Qc)) : list string :=
  comment :: "1.00000000000000"%string :: (" " ++ fmt_row (r1 L))%string :: (" " ++ fmt_row (r2 L))%string :: (" " ++ fmt_row (r3 L))%string
  :: String.concat "    " (map fst gs) :: String.concat "    " (map z_string (counts gs)) ::
  (if sel then "Selective dynamics"%string :: "Cartesian"%string :: map (vrow_sel tr) (enumerate pos)
   else "Cartesian"%string :: map (fun v => (" " ++ fmt_row v)%string) pos).

Lemma vasp_write_ok c comment L gs pos tr :
  c_lat c = Some L -> c_type c = Some (expand gs) -> c_num c = Some (counts gs) -> c_cart c = Some pos ->
  c_true c = Some tr -> gs <> [] -> Forall (fun g => 0 < snd g) gs ->
  vasp_write c comment = Ok (vasp_lines comment L gs (c_sel c) tr pos).
Proof.
  intros H1 H2 H3 H4 H5 Hne Hp. unfold vasp_write. rewrite H1, H2, H3, H4. cbn [of_option bind].
  destruct gs as [|g0 gs]; [congruence|]. inversion Hp as [|? ? Hg Hgs]; subst.
  assert (E0 : py_nth (expand (g0 :: gs)) 0 = Ok (fst g0)).
  { unfold expand. cbn [map concat]. destruct (snd g0); [lia|]. reflexivity. }
  rewrite E0. cbn [bind].
  pose proof (group_types_ok [] gs g0 Hgs) as GT. cbn [app length Z.of_nat] in GT. rewrite GT. cbn [bind].
  unfold vasp_lines. destruct (c_sel c).
  - rewrite H5. cbn [of_option bind].
    assert (E : mapM (fun '(i, v) => Ok (" " ++ fmt_row v ++ (if in_sel tr i then row_T else row_F))%string) (enumerate pos)
              = Ok (map (vrow_sel tr) (enumerate pos))).
    { apply mapM_total. intros [i v] _. reflexivity. }
    rewrite E. reflexivity.
  - reflexivity.
Qed.

Lemma words_no_nl_concat l : Forall word l -> no_nl (String.concat "    " l) = true.
Proof.
  induction l as [|a l IH]; intros H; [reflexivity|]. inversion H as [|? ? Ha Hl]; subst.
  destruct l as [|b l]; [cbn; apply no_ws_no_nl, Ha|].
  change (String.concat "    " (a :: b :: l)) with (a ++ "    " ++ String.concat "    " (b :: l))%string.
  rewrite !no_nl_app, IH by exact Hl. rewrite (no_ws_no_nl a) by apply Ha. reflexivity.
Qed.

Lemma counts_words gs : Forall word (map z_string (counts gs)).
Proof. apply Forall_forall. intros x Hx. apply in_map_iff in Hx as (z & <- & Hz). apply in_map_iff in Hz as (g & <- & _). apply z_string_word. lia. Qed.

Lemma vasp_lines_no_nl comment L gs sel tr pos : no_nl comment = true -> Forall (fun g => word (fst g)) gs ->
  Forall (fun l => no_nl l = true) (vasp_lines comment L gs sel tr pos).
Proof.
  intros Hc Hw. unfold vasp_lines.
  assert (W : Forall word (map fst gs)) by (apply Forall_map; exact Hw).
  repeat (constructor; [first [exact Hc | reflexivity | (rewrite no_nl_app, fmt_row_no_nl; reflexivity)
    | apply words_no_nl_concat; exact W | apply words_no_nl_concat, counts_words]|]).
  destruct sel.
  - repeat (constructor; [reflexivity|]). apply Forall_map, Forall_forall. intros [i v] _. unfold vrow_sel.
    rewrite !no_nl_app, fmt_row_no_nl. destruct (in_sel _ _); reflexivity.
  - constructor; [reflexivity|]. apply Forall_map, Forall_forall. intros v _. rewrite no_nl_app, fmt_row_no_nl. reflexivity.
Qed.

Lemma row_split_end v : split_ws (addnl (" " ++ fmt_row v)) = tri v.
Proof.
  rewrite split_ws_addnl. change (" " ++ fmt_row v)%string with (" " ++ (fmt_row v))%string. rewrite split_ws_ws_app by reflexivity.
  rewrite <- (string_app_nil_r (fmt_row v)), fmt_row_split by (left; reflexivity). reflexivity.
Qed.
Lemma vrow_sel_split tr i v : split_ws (addnl (vrow_sel tr (i, v))) = tri v ++ (if in_sel tr i then ["T"; "T"; "T"] else ["F"; "F"; "F"])%string.
Proof.
  rewrite split_ws_addnl. unfold vrow_sel. cbn [fst snd]. rewrite split_ws_ws_app by reflexivity.
  rewrite fmt_row_split.
  - destruct (in_sel tr i); reflexivity.
  - right. destruct (in_sel tr i); do 2 eexists; split; reflexivity.
Qed.
Lemma tslice_tri v l : tslice 0 3 (tri v ++ l) = tri v.
Proof. reflexivity. Qed.

Lemma counts_parse gs : mapM (fun w => of_option EValue (parse_int w)) (map z_string (counts gs)) = Ok (counts gs).
Proof.
  unfold counts. induction gs as [|g gs IH]; [reflexivity|]. cbn [map mapM]. rewrite z_string_parse by lia. cbn [of_option bind].
  now rewrite IH.
Qed.

Lemma map_enum_snd {B} (l : list B) i : map snd (enumerate_from i l) = l.
Proof. revert i; induction l as [|b l IH]; intros i; cbn; [reflexivity|]. now rewrite IH. Qed.

Lemma sel_map_tri {B} (f : nat * B -> string) (g : B -> list string) (l : list B) i :
  (forall j b, In b l -> tslice 0 3 (split_ws (addnl (f (j, b)))) = g b) ->
  map (fun p => tslice 0 3 (split_ws p)) (map addnl (map f (enumerate_from i l))) = map g l.
Proof.
  revert i; induction l as [|b l IH]; intros i H; [reflexivity|].
  cbn [enumerate_from map]. rewrite H by (left; reflexivity). f_equal. apply IH. intros; apply H; right; assumption.
Qed.

Lemma vasp_read_ok comment L gs sel tr pos :
  Forall (fun g => word (fst g)) gs -> length pos <= length (expand gs) -> 
  vasp_read (map addnl (vasp_lines comment L gs sel tr pos)) =
  Ok (mkRd (map (fun v => vrow (vrnd v)) [r1 L; r2 L; r3 L]) (expand gs) (counts gs) sel "cartesian"
       (map (fun v => vrow (vrnd v)) pos)
       (if sel then sel_indices tr (length pos) else seq 0 (length pos))
       (xyz_of (if sel then sel_indices tr (length pos) else seq 0 (length pos)))).
Proof.
  intros Hw Hlen.
  assert (W : Forall word (map fst gs)) by (apply Forall_map; exact Hw).
  set (lines := map addnl (vasp_lines comment L gs sel tr pos)).
  set (tl := addnl (String.concat "    " (map fst gs))).
  set (nm := addnl (String.concat "    " (map z_string (counts gs)))).
  assert (E : lines = addnl comment :: addnl "1.00000000000000" :: addnl (" " ++ fmt_row (r1 L)) :: addnl (" " ++ fmt_row (r2 L)) :: addnl (" " ++ fmt_row (r3 L))
      :: tl :: nm :: map addnl (if sel then "Selective dynamics"%string :: "Cartesian"%string :: map (vrow_sel tr) (enumerate pos)
   else "Cartesian"%string :: map (fun v => (" " ++ fmt_row v)%string) pos)) by reflexivity.
  unfold vasp_read.
  assert (P1 : py_nth lines 1 = Ok (addnl "1.00000000000000")) by (rewrite E; reflexivity). rewrite P1. cbn [bind].
  change (py_nth (split_ws (addnl "1.00000000000000")) 0) with (Ok "1.00000000000000"%string). cbn [bind].
  assert (P2 : parse_float "1.00000000000000" = Some 1%Qc) by (vm_compute; f_equal; apply Qc_is_canon; reflexivity).
  rewrite P2. cbn [of_option bind].
  assert (P3 : py_slice lines 2 5 = [addnl (" " ++ fmt_row (r1 L)); addnl (" " ++ fmt_row (r2 L)); addnl (" " ++ fmt_row (r3 L))]).
  { rewrite E. reflexivity. }
  rewrite P3. cbn [map]. rewrite !row_split_end.
  change [tslice 0 3 (tri (r1 L)); tslice 0 3 (tri (r2 L)); tslice 0 3 (tri (r3 L))] with (map (fun v => [fmt16 (vx v); fmt16 (vy v); fmt16 (vz v)]) [r1 L; r2 L; r3 L]).
  rewrite asfarray_fmt. cbn [bind]. rewrite scale_rows_1.
  assert (P6 : py_nth lines 6 = Ok nm) by (rewrite E; reflexivity). rewrite P6. cbn [bind].
  assert (SN : split_ws nm = map z_string (counts gs)).
  { unfold nm. rewrite split_ws_addnl. apply split_ws_concat, counts_words. }
  rewrite SN, counts_parse. cbn [bind].
  rewrite (vasp_types_ok lines tl gs).
  2: { rewrite E; reflexivity. }
  2: { unfold tl. rewrite split_ws_addnl. now apply split_ws_concat. }
  cbn [bind]. rewrite fold_left_add, counts_sum. rewrite Z.add_0_l.
  destruct sel.
  - assert (F7 : first_char lines 7 = Ok "S"%char) by (rewrite E; reflexivity). rewrite F7. cbn [bind].
    change (char_in "S" ["S"; "s"]%char) with true. cbn iota.
    assert (PS : py_slice lines 9 (9 + Z.of_nat (length (expand gs))) = map addnl (map (vrow_sel tr) (enumerate pos))).
    { rewrite E. cbn [map].
      pose proof (py_slice_ge [addnl comment; addnl "1.00000000000000"; addnl (" " ++ fmt_row (r1 L)); addnl (" " ++ fmt_row (r2 L)); addnl (" " ++ fmt_row (r3 L)); tl; nm; addnl "Selective dynamics"; addnl "Cartesian"]
         (map addnl (map (vrow_sel tr) (enumerate pos))) (9 + Z.of_nat (length (expand gs)))) as PA.
      rewrite !map_length, (enumerate_from_length pos 0 : length (enumerate pos) = _) in PA. apply PA. cbn [length]. lia. }
    rewrite PS. unfold vasp_coords.
    assert (F8 : first_char lines 8 = Ok "C"%char) by (rewrite E; reflexivity). rewrite F8. cbn [bind].
    change (char_in "C" ["D"; "d"]%char) with false. change (char_in "C" ["C"; "c"; "K"; "k"]%char) with true. cbn iota.
    unfold enumerate. rewrite (sel_map_tri (vrow_sel tr) (fun v => [fmt16 (vx v); fmt16 (vy v); fmt16 (vz v)])).
    2: { intros j v _. rewrite vrow_sel_split. reflexivity. }
    rewrite asfarray_fmt. cbn [bind].
    assert (IW : indices_where (fun v => mem_string "T" (split_ws v)) (map addnl (map (vrow_sel tr) (enumerate_from 0 pos))) = sel_indices tr (length pos)).
    { unfold indices_where, enumerate. rewrite map_map.
      rewrite (indices_where_map (fun x => addnl (vrow_sel tr x)) (fun v => mem_string "T" (split_ws v)) (in_sel tr)).
      - reflexivity.
      - intros j v _. rewrite vrow_sel_split, mem_tri by (cbn; lia). destruct (in_sel tr j); reflexivity. }
    rewrite IW. reflexivity.
  - assert (F7 : first_char lines 7 = Ok "C"%char) by (rewrite E; reflexivity). rewrite F7. cbn [bind].
    change (char_in "C" ["S"; "s"]%char) with false. cbn iota.
    assert (PS : py_slice lines 8 (8 + Z.of_nat (length (expand gs))) = map addnl (map (fun v => (" " ++ fmt_row v)%string) pos)).
    { rewrite E. cbn [map].
      pose proof (py_slice_ge [addnl comment; addnl "1.00000000000000"; addnl (" " ++ fmt_row (r1 L)); addnl (" " ++ fmt_row (r2 L)); addnl (" " ++ fmt_row (r3 L)); tl; nm; addnl "Cartesian"]
         (map addnl (map (fun v => (" " ++ fmt_row v)%string) pos)) (8 + Z.of_nat (length (expand gs)))) as PA.
      rewrite !map_length in PA. apply PA. cbn [length]. lia. }
    rewrite PS. unfold vasp_coords. rewrite F7. cbn [bind].
    change (char_in "C" ["D"; "d"]%char) with false. change (char_in "C" ["C"; "c"; "K"; "k"]%char) with true. cbn iota.
    rewrite !map_map.
    rewrite (map_ext (fun x => tslice 0 3 (split_ws (addnl (" " ++ fmt_row x)))) (fun v => [fmt16 (vx v); fmt16 (vy v); fmt16 (vz v)])).
    2: { intros v. rewrite row_split_end. reflexivity. }
    rewrite asfarray_fmt. cbn [bind]. rewrite map_length. reflexivity.
Qed.

Lemma sel_indices_sorted tr n : StronglySorted Z.le (map Z.of_nat (sel_indices tr n)).
Proof. apply filter_sorted, seq_sorted. Qed.
Lemma sel_indices_below tr n : Forall (fun i => i < n) (sel_indices tr n).
Proof. apply Forall_forall. intros i Hi. apply filter_In in Hi as (Hi & _). apply in_seq in Hi. lia. Qed.
Lemma seq_below n : Forall (fun i => i < n) (seq 0 n).
Proof. apply Forall_forall. intros i Hi. apply in_seq in Hi. lia. Qed.

Definition read_back (L : m3 Qc) (ty : list string) (num : list Z) (sel : bool) (pos : list (v3 Qc)) (tr : list nat) : cell Qc :=
  mkCell (Some (lat_rnd L)) (Some ty) (Some num) sel (Some Cartesian) (Some (map vrnd pos))
         (Some (map Z.of_nat tr)) (Some (map Z.of_nat (xyz_of tr))) None.

Lemma vasp_roundtrip c comment L gs pos tr before :
  c_lat c = Some L -> c_type c = Some (expand gs) -> c_num c = Some (counts gs) -> c_cart c = Some pos ->
  c_true c = Some tr -> gs <> [] -> Forall (fun g => word (fst g) /\ 0 < snd g) gs -> length (expand gs) = length pos ->
  no_nl comment = true ->
  exists lines, vasp_write c comment = Ok lines /\
    read_unit_cell vasp_read before (to_text lines) =
    (read_back L (expand gs) (counts gs) (c_sel c) pos (if c_sel c then sel_indices tr (length pos) else seq 0 (length pos)), None).
Proof.
  intros H1 H2 H3 H4 H5 Hne Hg Hlen Hc.
  assert (Hw : Forall (fun g => word (fst g)) gs) by (eapply Forall_impl; [|exact Hg]; intros g (A & _); exact A).
  assert (Hp : Forall (fun g => 0 < snd g) gs) by (eapply Forall_impl; [|exact Hg]; intros g (_ & A); exact A).
  eexists. split; [eapply vasp_write_ok; eauto|].
  unfold read_unit_cell. rewrite readlines_text by (apply vasp_lines_no_nl; assumption).
  rewrite vasp_read_ok by (assumption || lia).
  assert (H0 : 0 < length pos).
  { rewrite <- Hlen. destruct gs as [|[g k] gs]; [contradiction|]. inversion Hp as [|? ? Hk _]; subst. cbn [snd] in Hk.
    unfold expand. cbn [map concat fst snd]. rewrite app_length, repeat_length. lia. }
  rewrite assign_rd; [reflexivity|exact H0|exact Hlen|rewrite counts_sum, Hlen; reflexivity| |].
  - destruct (c_sel c); [apply sel_indices_sorted|apply seq_sorted].
  - destruct (c_sel c); [apply sel_indices_below|apply seq_below].
Qed.

(** ** Run lengths *)
(** specification: the counts, paired with the types of the runs, expand to the
    sequence; counts are positive; consecutive runs differ. *)
Fixpoint distinct_neighbours (l : list string) : Prop :=
  match l with a :: ((b :: _) as r) => a <> b /\ distinct_neighbours r | _ => True end.

Lemma run_lengths_some l : forall p num, (0 < num)%Z ->
  exists gs, run_lengths_from (Some p) num l = counts gs /\ expand gs = repeat p (Z.to_nat num) ++ l /\
    Forall (fun g => 0 < snd g) gs /\ distinct_neighbours (map fst gs) /\ exists g gs', gs = g :: gs' /\ fst g = p.
Proof.
  induction l as [|a l IH]; intros p num Hn; cbn [run_lengths_from].
  - exists [(p, Z.to_nat num)]. split; [cbn; f_equal; lia|]. split; [unfold expand; reflexivity|].
    split; [constructor; [cbn; lia|constructor]|]. split; [exact I|]. eauto.
  - destruct (String.eqb_spec a p) as [->|N].
    + destruct (IH p (num + 1)%Z ltac:(lia)) as (gs & E1 & E2 & E3 & E4 & E5). exists gs. split; [exact E1|]. split; [|auto].
      rewrite E2. replace (Z.to_nat (num + 1)) with (Z.to_nat num + 1) by lia. rewrite repeat_app, <- app_assoc. reflexivity.
    + replace (num =? 0)%Z with false by (symmetry; apply Z.eqb_neq; lia).
      destruct (IH a 1%Z ltac:(lia)) as (gs & E1 & E2 & E3 & E4 & g & gs' & -> & Eg).
      exists ((p, Z.to_nat num) :: g :: gs'). split; [|split; [|split; [|split]]].
      * cbn [counts map snd]. rewrite E1. f_equal. lia.
      * unfold expand in *. cbn [map concat fst snd] in *. rewrite E2. reflexivity.
      * constructor; [cbn; lia|exact E3].
      * cbn [map distinct_neighbours fst]. split; [congruence|exact E4].
      * eauto.
Qed.
Lemma run_lengths_spec l : l <> [] ->
  exists gs, run_lengths l = counts gs /\ expand gs = l /\ Forall (fun g => 0 < snd g) gs /\ distinct_neighbours (map fst gs).
Proof.
  destruct l as [|a l]; [congruence|]. intros _. unfold run_lengths. cbn [run_lengths_from]. change (0 =? 0)%Z with true. cbn iota.
  destruct (run_lengths_some l a 1%Z ltac:(lia)) as (gs & E1 & E2 & E3 & E4 & _). exists gs. repeat (split; [assumption|]). exact E4.
Qed.
Lemma run_lengths_expand gs : Forall (fun g => 0 < snd g) gs -> distinct_neighbours (map fst gs) -> gs <> [] -> run_lengths (expand gs) = counts gs.
Proof.
  intros Hp Hd Hne.
  assert (R : forall k p num l, (0 <= num)%Z -> run_lengths_from (Some p) num (repeat p k ++ l) = run_lengths_from (Some p) (num + Z.of_nat k) l).
  { induction k as [|k IH]; intros p num l Hn; cbn [repeat app run_lengths_from]; [f_equal; lia|]. rewrite String.eqb_refl, IH by lia. f_equal. lia. }
  assert (G : forall gs g0, Forall (fun g => 0 < snd g) gs -> distinct_neighbours (map fst (g0 :: gs)) -> 0 < snd g0 ->
     run_lengths_from (Some (fst g0)) (Z.of_nat (snd g0)) (expand gs) = counts (g0 :: gs)).
  { clear gs Hp Hd Hne. induction gs as [|g1 gs IH]; intros g0 Hp Hd H0; [reflexivity|].
    inversion Hp as [|? ? H1 Hgs]; subst. cbn [map distinct_neighbours] in Hd. destruct Hd as (N & Hd).
    unfold expand. cbn [map concat]. fold (expand gs). destruct (snd g1) as [|k] eqn:E1; [lia|].
    cbn [repeat app run_lengths_from]. destruct (String.eqb_spec (fst g1) (fst g0)) as [E|_]; [congruence|].
    replace (Z.of_nat (snd g0) =? 0)%Z with false by (symmetry; apply Z.eqb_neq; lia).
    rewrite R by lia. replace (1 + Z.of_nat k)%Z with (Z.of_nat (snd g1)) by lia. rewrite IH; [reflexivity|exact Hgs|exact Hd|lia]. }
  destruct gs as [|g0 gs]; [congruence|]. inversion Hp as [|? ? H0 Hgs]; subst.
  unfold run_lengths, expand. cbn [map concat]. fold (expand gs). destruct (snd g0) as [|k] eqn:E0; [lia|].
  cbn [repeat app run_lengths_from]. change (0 =? 0)%Z with true. cbn iota. rewrite R by lia.
  replace (1 + Z.of_nat k)%Z with (Z.of_nat (snd g0)) by lia. apply G; auto. lia.
Qed.
Lemma run_lengths_sum l : fold_right Z.add 0%Z (run_lengths l) = Z.of_nat (length l).
Proof.
  destruct l as [|a l]; [reflexivity|]. destruct (run_lengths_spec (a :: l) ltac:(discriminate)) as (gs & E & X & _).
  rewrite E, counts_sum, X. reflexivity.
Qed.

(** ** Substring facts *)
Lemma is_prefix_app p s : is_prefix p s = true -> exists r, s = (p ++ r)%string.
Proof.
  revert s; induction p as [|c p IH]; intros s H; [exists s; reflexivity|].
  destruct s as [|d s]; [discriminate|]. cbn in H. apply andb_true_iff in H as (E & H). apply Ascii.eqb_eq in E as ->.
  destruct (IH s H) as (r & ->). exists r. reflexivity.
Qed.
Lemma is_prefix_refl p r : is_prefix p (p ++ r) = true.
Proof. induction p as [|c p IH]; cbn; [destruct r; reflexivity|]. now rewrite Ascii.eqb_refl. Qed.
Lemma contains_app p s : contains p s = true <-> exists u r, s = (u ++ p ++ r)%string.
Proof.
  split.
  - induction s as [|c s IH]; cbn; intros H.
    + rewrite orb_false_r in H. apply is_prefix_app in H as (r & E). exists ""%string, r. exact E.
    + apply orb_true_iff in H as [H|H].
      * apply is_prefix_app in H as (r & E). exists ""%string, r. exact E.
      * destruct (IH H) as (u & r & ->). exists (String c u), r. reflexivity.
  - intros (u & r & ->). induction u as [|c u IH]; cbn [append].
    + destruct (p ++ r)%string eqn:E; cbn [contains].
      * destruct p; [reflexivity|discriminate].
      * rewrite <- E, is_prefix_refl. reflexivity.
    + cbn [contains]. rewrite IH. apply orb_true_r.
Qed.
Lemma contains_free x p s : free x s = true -> free x p = false -> contains p s = false.
Proof.
  intros Hs Hp. destruct (contains p s) eqn:E; [|reflexivity]. apply contains_app in E as (u & r & ->).
  unfold free in *. rewrite !all_char_app, !andb_true_iff in Hs. destruct Hs as (_ & Hs & _). congruence.
Qed.
Lemma is_prefix_sep c p u v : free c p = true -> is_prefix p (u ++ String c v) = is_prefix p u.
Proof.
  revert u. induction p as [|x p IH]; intros u H; [destruct u; reflexivity|].
  cbn in H. apply andb_true_iff in H as (Hx & Hp). destruct u as [|y u]; cbn.
  - destruct (Ascii.eqb x c); [discriminate|reflexivity].
  - f_equal. now apply IH.
Qed.
Lemma contains_sep c p u v : free c p = true -> p <> ""%string -> contains p (u ++ String c v) = (contains p u || contains p v)%bool.
Proof.
  intros H Hne. induction u as [|y u IH]; cbn [append contains].
  - pose proof (is_prefix_sep c p "" v H) as E. cbn [append] in E. rewrite E. destruct p; [congruence|reflexivity].
  - change (String y (u ++ String c v)) with (String y u ++ String c v)%string. rewrite (is_prefix_sep c p (String y u) v H), IH. apply orb_assoc.
Qed.
Lemma split_at_len c t : forall w x y, split_at c (w ++ String c t) = (x, Some y) -> String.length t <= String.length y.
Proof.
  induction w as [|a w IH]; intros x y H; cbn in H.
  - rewrite Ascii.eqb_refl in H. injection H as <- <-. lia.
  - destruct (Ascii.eqb a c).
    + injection H as <- <-. rewrite string_app_length. cbn. lia.
    + destruct (split_at c (w ++ String c t)) as [x' y'] eqn:E. injection H as <- ->. eapply IH; eauto.
Qed.
Lemma contains_last c p1 p2 a : free c a = true -> p2 <> ""%string -> contains (p1 ++ String c p2) (a ++ String c "") = false.
Proof.
  intros Ha Hp. destruct (contains _ _) eqn:E; [|reflexivity]. exfalso. apply contains_app in E as (u & r & E).
  rewrite <- string_app_assoc in E. cbn [append] in E. rewrite string_app_assoc in E.
  pose proof (split_at_free c a "" Ha) as S. rewrite E in S. apply split_at_len in S. rewrite string_app_length in S.
  destruct p2; [congruence|]. cbn in S. lia.
Qed.

Lemma all_char_spaces p n : p " "%char = true -> all_char p (spaces n) = true.
Proof. intros H. induction n; cbn; [reflexivity|]. now rewrite H. Qed.
Lemma fmt16_free x v : numchar x = false -> free x (fmt16 v) = true.
Proof.
  intros H. eapply all_char_impl; [|apply fmt16_chars]. intros c Hc. cbn. destruct (Ascii.eqb_spec c x) as [->|]; [congruence|reflexivity].
Qed.
Lemma fmt_row_free x v : numchar x = false -> Ascii.eqb " " x = false -> free x (fmt_row v) = true.
Proof.
  intros H H2. unfold fmt_row, pad20, free. rewrite !all_char_app, !all_char_spaces by (now rewrite H2).
  fold (free x (fmt16 (vx v))). fold (free x (fmt16 (vy v))). fold (free x (fmt16 (vz v))). rewrite !fmt16_free by exact H.
  cbn [all_char]. rewrite H2. reflexivity.
Qed.
Lemma free_app x a b : free x (a ++ b)%string = (free x a && free x b)%bool.
Proof. apply all_char_app. Qed.

(** ** FHI-aims *)
Definition aims_row (a : string) (v : v3 Qc) : string := ("atom " ++ fmt_row v ++ " " ++ a)%string.
Definition aims_rows (sel : bool) (tr : list Z) (i : nat) (l : list (string * v3 Qc)) : list string :=
  flat_map (fun iav => let '(i, (a, v)) := iav in
     if (sel && negb (in_sel tr i))%bool then [aims_row a v; aims_constrain] else [aims_row a v]) (enumerate_from i l).

Lemma aims_write_ok c L ty pos tr :
  c_lat c = Some L -> c_type c = Some ty -> c_cart c = Some pos -> c_true c = Some tr ->
  aims_write c = Ok (map (fun v => ("lattice_vector " ++ fmt_row v)%string) [r1 L; r2 L; r3 L] ++ aims_rows (c_sel c) tr 0 (combine ty pos)).
Proof.
  intros H1 H2 H3 H4. unfold aims_write. rewrite H1, H2, H3. cbn [of_option bind].
  rewrite (mapM_total _ (fun iav => let '(i, (a, v)) := iav in
     if (c_sel c && negb (in_sel tr i))%bool then [aims_row a v; aims_constrain] else [aims_row a v])).
  - cbn [bind]. unfold aims_rows, enumerate. rewrite flat_map_concat_map. reflexivity.
  - intros [i [a v]] _. destruct (c_sel c); [|reflexivity]. rewrite H4. cbn [of_option bind andb]. destruct (in_sel tr i); reflexivity.
Qed.

Definition aims_name (a : string) : Prop := word a /\ free "_" a = true.

Lemma aims_row_split a v : word a -> split_ws (addnl (aims_row a v)) = ["atom"%string] ++ tri v ++ [a].
Proof.
  intros Ha. rewrite split_ws_addnl. unfold aims_row.
  change ("atom " ++ fmt_row v ++ " " ++ a)%string with ("atom" ++ String " " (fmt_row v ++ String " " a))%string.
  rewrite split_ws_word_app by (try split; reflexivity || discriminate).
  rewrite fmt_row_split by (right; do 2 eexists; split; reflexivity). cbn [split_ws is_ws]. 
  change (split_ws (String " " a)) with (split_ws a). rewrite split_ws_word by exact Ha. reflexivity.
Qed.
Lemma lat_row_split v : split_ws (addnl ("lattice_vector " ++ fmt_row v)) = "lattice_vector"%string :: tri v.
Proof.
  rewrite split_ws_addnl. change ("lattice_vector " ++ fmt_row v)%string with ("lattice_vector" ++ String " " (fmt_row v))%string.
  rewrite split_ws_word_app by (try split; reflexivity || discriminate).
  rewrite <- (string_app_nil_r (fmt_row v)), fmt_row_split by (left; reflexivity). reflexivity.
Qed.
Lemma aims_row_free a v : aims_name a -> free "_" (addnl (aims_row a v)) = true.
Proof.
  intros (_ & Ha). unfold addnl, aims_row. rewrite !free_app, fmt_row_free, Ha by reflexivity. reflexivity.
Qed.
Lemma aims_row_tag a v : aims_name a -> contains aims_tag (addnl (aims_row a v)) = false.
Proof. intros H. apply (contains_free "_"); [now apply aims_row_free|reflexivity]. Qed.

Lemma aims_rows_head sel tr l i : Forall (fun av => aims_name (fst av)) l ->
  match map addnl (aims_rows sel tr i l) with l2 :: _ => contains aims_tag l2 | [] => false end = false.
Proof.
  intros H. destruct l as [|[a v] l]; [reflexivity|]. inversion H as [|? ? Ha _]; subst.
  unfold aims_rows. cbn [enumerate_from flat_map]. destruct (_ && _)%bool; cbn [app map]; apply aims_row_tag; exact Ha.
Qed.

Lemma aims_atoms_ok sel tr l : forall i, Forall (fun av => aims_name (fst av)) l ->
  aims_atoms (map addnl (aims_rows sel tr i l)) =
  Ok (map (fun iav => let '(i, (a, v)) := iav in (a, tri v, (sel && negb (in_sel tr i))%bool)) (enumerate_from i l)).
Proof.
  induction l as [|[a v] l IH]; intros i H; [reflexivity|]. inversion H as [|? ? Ha Hl]; subst.
  pose proof (aims_rows_head sel tr l (S i) Hl) as HH. specialize (IH (S i) Hl).
  unfold aims_rows in *. cbn [enumerate_from flat_map map].
  pose proof (aims_row_split a v (proj1 Ha)) as RS. pose proof (aims_row_tag a v Ha) as RT.
  destruct (sel && negb (in_sel tr i))%bool; cbn [app map aims_atoms].
  - rewrite RS. change (mem_string "atom" (["atom"%string] ++ tri v ++ [a])) with true. cbn iota.
    change (py_nth (["atom"%string] ++ tri v ++ [a]) 4) with (Ok a). cbn [bind]. rewrite RT.
    change (contains aims_tag (addnl aims_constrain)) with true. cbn [orb].
    change (mem_string "atom" (split_ws (addnl aims_constrain))) with false. cbn iota.
    rewrite IH. reflexivity.
  - rewrite RS. change (mem_string "atom" (["atom"%string] ++ tri v ++ [a])) with true. cbn iota.
    change (py_nth (["atom"%string] ++ tri v ++ [a]) 4) with (Ok a). cbn [bind]. rewrite RT, HH. cbn [orb].
    rewrite IH. reflexivity.
Qed.

Lemma aims_rows_nolat sel tr l : forall i, Forall (fun av => aims_name (fst av)) l ->
  filter (fun l => mem_string "lattice_vector" (split_ws l)) (map addnl (aims_rows sel tr i l)) = [].
Proof.
  induction l as [|[a v] l IH]; intros i H; [reflexivity|]. inversion H as [|? ? Ha Hl]; subst. specialize (IH (S i) Hl).
  unfold aims_rows in *. cbn [enumerate_from flat_map map].
  assert (M : mem_string "lattice_vector" (split_ws (addnl (aims_row a v))) = false).
  { rewrite aims_row_split by apply Ha. unfold mem_string. cbn [app existsb]. change (String.eqb "lattice_vector" "atom") with false. cbn [orb].
    fold (mem_string "lattice_vector" (tri v ++ [a])). rewrite mem_tri by (cbn; lia). unfold mem_string. cbn [existsb]. rewrite orb_false_r.
    apply String.eqb_neq. intros <-. destruct Ha as (_ & Ha). discriminate Ha. }
  destruct (sel && negb (in_sel tr i))%bool; cbn [app map filter]; rewrite M.
  - change (mem_string "lattice_vector" (split_ws (addnl aims_constrain))) with false. cbn iota. exact IH.
  - exact IH.
Qed.

Definition fixed_some (sel : bool) (tr : list Z) (n : nat) : bool := (sel && existsb (fun i => negb (in_sel tr i)) (seq 0 n))%bool.
Definition kept (sel : bool) (tr : list Z) (n : nat) : list nat := if sel then sel_indices tr n else seq 0 n.

Lemma filter_all {A} (f : A -> bool) l : (forall x, In x l -> f x = true) -> filter f l = l.
Proof. induction l as [|a l IH]; intros H; [reflexivity|]. cbn. rewrite H by (left; reflexivity). f_equal. apply IH. intros; apply H; right; assumption. Qed.

Lemma kept_spec sel tr n : kept sel tr n = filter (fun i => negb (sel && negb (in_sel tr i))) (seq 0 n).
Proof.
  unfold kept, sel_indices. destruct sel; cbn [andb].
  - apply filter_ext. intros i. now rewrite negb_involutive.
  - symmetry. apply filter_all. reflexivity.
Qed.
Lemma fixed_spec sel tr n : fixed_some sel tr n = existsb (fun i => sel && negb (in_sel tr i))%bool (seq 0 n).
Proof.
  unfold fixed_some. destruct sel; [reflexivity|]. cbn. symmetry. induction (seq 0 n) as [|a l IH]; [reflexivity|exact IH].
Qed.

Lemma combine_fst {A B} (l : list A) : forall l' : list B, length l = length l' -> map fst (combine l l') = l.
Proof. induction l as [|a l IH]; intros [|b l'] H; cbn in *; try lia; [reflexivity|]. f_equal. apply IH. lia. Qed.
Lemma combine_snd {A B} (l : list A) : forall l' : list B, length l = length l' -> map snd (combine l l') = l'.
Proof. induction l as [|a l IH]; intros [|b l'] H; cbn in *; try lia; [reflexivity|]. f_equal. apply IH. lia. Qed.

Lemma enum_filter_gen {B C} (f : nat * B -> C) (p : C -> bool) (g : nat -> bool) (l : list B) : forall i,
  (forall j b, In b l -> p (f (j, b)) = g j) ->
  map fst (filter (fun iv => p (snd iv)) (enumerate_from i (map f (enumerate_from i l)))) = filter g (seq i (length l)).
Proof.
  induction l as [|b l IH]; intros i H; [reflexivity|].
  cbn [enumerate_from map filter length seq snd]. rewrite (H i b (or_introl eq_refl)).
  destruct (g i); cbn [map fst]; rewrite IH by (intros; apply H; right; assumption); reflexivity.
Qed.
Lemma enum_existsb_gen {B C} (f : nat * B -> C) (p : C -> bool) (g : nat -> bool) (l : list B) : forall i,
  (forall j b, In b l -> p (f (j, b)) = g j) ->
  existsb p (map f (enumerate_from i l)) = existsb g (seq i (length l)).
Proof.
  induction l as [|b l IH]; intros i H; [reflexivity|].
  cbn [enumerate_from map existsb length seq]. rewrite (H i b (or_introl eq_refl)), IH; [reflexivity|].
  intros; apply H; right; assumption.
Qed.

Lemma aims_read_ok L ty pos sel tr :
  length ty = length pos -> Forall aims_name ty ->
  aims_read (map addnl (map (fun v => ("lattice_vector " ++ fmt_row v)%string) [r1 L; r2 L; r3 L] ++ aims_rows sel tr 0 (combine ty pos))) =
  Ok (mkRd (map (fun v => vrow (vrnd v)) [r1 L; r2 L; r3 L]) ty (run_lengths ty) (fixed_some sel tr (length pos)) "cartesian"
       (map (fun v => vrow (vrnd v)) pos) (kept sel tr (length pos)) (xyz_of (kept sel tr (length pos)))).
Proof.
  intros Hl Hn.
  assert (HN : Forall (fun av => aims_name (fst av)) (combine ty pos)).
  { apply Forall_forall. intros [a v] Hin. apply in_combine_l in Hin. rewrite Forall_forall in Hn. auto. }
  assert (HC : length (combine ty pos) = length pos) by (rewrite combine_length; lia).
  unfold aims_read. rewrite map_app, filter_app, aims_rows_nolat, app_nil_r by exact HN.
  cbn [map filter]. rewrite !lat_row_split.
  change (mem_string "lattice_vector" ("lattice_vector"%string :: tri (r1 L))) with true.
  change (mem_string "lattice_vector" ("lattice_vector"%string :: tri (r2 L))) with true.
  change (mem_string "lattice_vector" ("lattice_vector"%string :: tri (r3 L))) with true. cbn iota. cbn [map]. rewrite !lat_row_split.
  change [tslice 1 4 ("lattice_vector"%string :: tri (r1 L)); tslice 1 4 ("lattice_vector"%string :: tri (r2 L)); tslice 1 4 ("lattice_vector"%string :: tri (r3 L))]
    with (map (fun v => [fmt16 (vx v); fmt16 (vy v); fmt16 (vz v)]) [r1 L; r2 L; r3 L]).
  rewrite asfarray_fmt. cbn [bind app aims_atoms]. rewrite !lat_row_split.
  assert (MA : forall v, mem_string "atom" ("lattice_vector"%string :: tri v) = false).
  { intros v. unfold mem_string. cbn [existsb]. change (String.eqb "atom" "lattice_vector") with false. cbn [orb].
    fold (mem_string "atom" (tri v)). rewrite <- (app_nil_r (tri v)), mem_tri by (cbn; lia). reflexivity. }
  rewrite !MA. rewrite aims_atoms_ok by exact HN.
  set (F := fun iav : nat * (string * v3 Qc) => let '(i, (a, v)) := iav in (a, tri v, (sel && negb (in_sel tr i))%bool)).
  cbn [bind]. rewrite !(map_map F).
  assert (E1 : map (fun x => fst (fst (F x))) (enumerate_from 0 (combine ty pos)) = ty).
  { transitivity (map fst (map snd (enumerate_from 0 (combine ty pos)))).
    - rewrite map_map. apply map_ext. intros [i [a v]]. reflexivity.
    - rewrite map_enum_snd. now apply combine_fst. }
  assert (E2 : map (fun x => snd (fst (F x))) (enumerate_from 0 (combine ty pos)) = map (fun v => [fmt16 (vx v); fmt16 (vy v); fmt16 (vz v)]) pos).
  { transitivity (map (fun v => tri v) (map snd (map snd (enumerate_from 0 (combine ty pos))))).
    - rewrite !map_map. apply map_ext. intros [i [a v]]. reflexivity.
    - rewrite map_enum_snd, combine_snd by exact Hl. reflexivity. }
  rewrite E1, E2, asfarray_fmt. cbn [bind].
  unfold enumerate. rewrite (enum_filter_gen F (fun a => negb (snd a)) (fun i => negb (sel && negb (in_sel tr i)))) by (intros j [a v] _; reflexivity).
  rewrite (enum_existsb_gen F (fun a => snd a) (fun i => (sel && negb (in_sel tr i))%bool)) by (intros j [a v] _; reflexivity).
  rewrite HC, <- kept_spec, <- fixed_spec. reflexivity.
Qed.

Lemma kept_sorted sel tr n : StronglySorted Z.le (map Z.of_nat (kept sel tr n)).
Proof. destruct sel; [apply sel_indices_sorted|apply seq_sorted]. Qed.
Lemma kept_below sel tr n : Forall (fun i => i < n) (kept sel tr n).
Proof. destruct sel; [apply sel_indices_below|apply seq_below]. Qed.

Lemma aims_roundtrip c L ty pos tr before :
  c_lat c = Some L -> c_type c = Some ty -> c_cart c = Some pos -> c_true c = Some tr ->
  0 < length pos -> length ty = length pos -> Forall aims_name ty ->
  exists lines, aims_write c = Ok lines /\
    read_unit_cell aims_read before (to_text lines) =
    (read_back L ty (run_lengths ty) (fixed_some (c_sel c) tr (length pos)) pos (kept (c_sel c) tr (length pos)), None).
Proof.
  intros H1 H2 H3 H4 H0 Hl Hn. eexists. split; [eapply aims_write_ok; eauto|].
  unfold read_unit_cell. rewrite readlines_text.
  - rewrite aims_read_ok by assumption. rewrite assign_rd; [reflexivity|exact H0|exact Hl|rewrite run_lengths_sum; lia|apply kept_sorted|apply kept_below].
  - apply Forall_app. split.
    + apply Forall_map, Forall_forall. intros v _. rewrite no_nl_app, fmt_row_no_nl. reflexivity.
    + apply Forall_forall. intros l Hin. apply in_flat_map in Hin as ([i [a v]] & Hin & Hx).
      assert (Ha : word a).
      { assert (In (a, v) (map snd (enumerate_from 0 (combine ty pos)))) by (apply in_map_iff; exists (i, (a, v)); auto).
        rewrite map_enum_snd in H. apply in_combine_l in H. rewrite Forall_forall in Hn. apply Hn; exact H. }
      assert (R : no_nl (aims_row a v) = true).
      { unfold aims_row. rewrite !no_nl_app, fmt_row_no_nl. rewrite (no_ws_no_nl a) by apply Ha. reflexivity. }
      destruct (_ && _)%bool; cbn in Hx; [destruct Hx as [<-|[<-|[]]]|destruct Hx as [<-|[]]]; try exact R; reflexivity.
Qed.

(** ** Quantum ESPRESSO *)
Definition qe_name (a : string) : Prop := word a /\ free "_" a = true /\ contains "nat" a = false /\ a <> "0"%string.
Definition qe_row (sel : bool) (tr : list Z) (iav : nat * (string * v3 Qc)) : string :=
  (fst (snd iav) ++ " " ++ fmt_row (snd (snd iav)) ++ (if (sel && negb (in_sel tr (fst iav)))%bool then row_0 else ""))%string.
Definition qe_pre (species : list string) (wt : string -> string) (n : nat) : list string :=
  ["&CONTROL"; "/"; "&SYSTEM"; qe_field "ntyp" (z_string (Z.of_nat (length species)))]%string.
Definition qe_mid (species : list string) (wt : string -> string) : list string :=
  [qe_field "ibrav" "0"; "/"; "&ELECTRONS"; "/"; "&IONS"; "/"; "&CELL"; "/"; ""; "ATOMIC_SPECIES"]%string
     ++ map (species_line wt) species ++ [""; "K_POINTS gamma"; ""]%string.
Definition qe_lat (L : m3 Qc) : list string := map (fun v => (" " ++ fmt_row v)%string) [r1 L; r2 L; r3 L] ++ [""%string].
Definition qe_lines species wt n L sel tr l : list string :=
  qe_pre species wt n ++ [qe_field "nat" (z_string (Z.of_nat n))] ++ qe_mid species wt ++ ["CELL_PARAMETERS angstrom"%string]
  ++ qe_lat L ++ ["ATOMIC_POSITIONS angstrom"%string] ++ map (qe_row sel tr) (enumerate_from 0 l).

Lemma espresso_write_ok species wt c L ty pos tr :
  c_lat c = Some L -> c_type c = Some ty -> c_cart c = Some pos -> c_true c = Some tr ->
  espresso_write species wt c = Ok (qe_lines species wt (length ty) L (c_sel c) tr (combine ty pos)).
Proof.
  intros H1 H2 H3 H4. unfold espresso_write. rewrite H1, H2, H3, H4. cbn [of_option bind].
  rewrite (mapM_total _ (qe_row (c_sel c) tr)).
  - cbn [bind]. unfold qe_lines, qe_pre, qe_mid, qe_lat, enumerate. f_equal. repeat rewrite <- app_assoc. reflexivity.
  - intros [i [a v]] _. unfold qe_row. cbn [fst snd]. destruct (c_sel c); cbn [andb of_option bind].
    + destruct (in_sel tr i); reflexivity.
    + rewrite string_app_nil_r. reflexivity.
Qed.

Definition tagfree (l : string) : Prop :=
  contains "nat" (addnl l) = false /\ contains "CELL_PARAMETERS" (addnl l) = false /\ contains "ATOMIC_POSITIONS" (addnl l) = false.

Lemma scan_skip st l r : forall i, Forall tagfree l ->
  qe_scan_lines i st (map addnl l ++ r) = qe_scan_lines (i + length l) st r.
Proof.
  induction l as [|a l IH]; intros i H; cbn [map app length]; [now rewrite Nat.add_0_r|].
  inversion H as [|? ? (A1 & A2 & A3) Hl]; subst. cbn [qe_scan_lines]. rewrite A1, A2, A3, IH by exact Hl. f_equal. lia.
Qed.

Lemma tagfree_chars l : free "a" l = true -> free "_" l = true -> tagfree l.
Proof.
  intros Ha Hu. unfold tagfree, addnl. split; [|split].
  - apply (contains_free "a"); [rewrite free_app, Ha; reflexivity|reflexivity].
  - apply (contains_free "_"); [rewrite free_app, Hu; reflexivity|reflexivity].
  - apply (contains_free "_"); [rewrite free_app, Hu; reflexivity|reflexivity].
Qed.
Lemma tagfree_compute l : contains "nat" (addnl l) = false -> contains "CELL_PARAMETERS" (addnl l) = false -> contains "ATOMIC_POSITIONS" (addnl l) = false -> tagfree l.
Proof. intros; repeat split; assumption. Qed.

Lemma z_string_free x z : (0 <= z)%Z -> is_digit x = false -> free x (z_string z) = true.
Proof.
  intros Hz Hx. unfold z_string. replace (z <? 0)%Z with false by (symmetry; apply Z.ltb_ge; exact Hz).
  apply digits_free; [exact Hx|]. apply nat_digits_spec; exact Hz.
Qed.
Lemma ntyp_tagfree n : tagfree (qe_field "ntyp" (z_string (Z.of_nat n))).
Proof.
  apply tagfree_chars; unfold qe_field; rewrite !free_app, z_string_free by (lia || reflexivity); reflexivity.
Qed.
Lemma row_tagfree v : tagfree (" " ++ fmt_row v).
Proof. apply tagfree_chars; rewrite free_app, fmt_row_free by reflexivity; reflexivity. Qed.

Definition num_text (s : string) : Prop := all_char numchar s = true.
Lemma num_text_free x s : num_text s -> numchar x = false -> free x s = true.
Proof. intros H Hx. eapply all_char_impl; [|exact H]. intros c Hc. cbn. destruct (Ascii.eqb_spec c x) as [->|]; [congruence|reflexivity]. Qed.

Lemma dummy_split a t : (a ++ String "_" (String "d" t))%string = ((a ++ String "_" "") ++ String "d" t)%string.
Proof. rewrite <- string_app_assoc. reflexivity. Qed.
Lemma species_tagfree wt a : qe_name a -> num_text (wt a) -> tagfree (species_line wt a).
Proof.
  intros (Ha & Hu & Hn & _) Hw. unfold tagfree, species_line, addnl.
  rewrite <- !string_app_assoc. cbn [append].
  split; [|split].
  - rewrite contains_sep by (reflexivity || discriminate). rewrite Hn. cbn [orb].
    rewrite contains_sep by (reflexivity || discriminate).
    rewrite (contains_free "n" "nat" (wt a)) by (try apply num_text_free; auto). cbn [orb].
    rewrite contains_sep by (reflexivity || discriminate). rewrite Hn. reflexivity.
  - rewrite contains_sep by (reflexivity || discriminate). rewrite (contains_free "_") by (exact Hu || reflexivity). cbn [orb].
    rewrite contains_sep by (reflexivity || discriminate).
    rewrite (contains_free "_" _ (wt a)) by (try apply num_text_free; auto). cbn [orb].
    rewrite dummy_split.
    rewrite contains_sep by (reflexivity || discriminate).
    change "CELL_PARAMETERS"%string with ("CELL" ++ String "_" "PARAMETERS")%string at 1. rewrite contains_last by (exact Hu || discriminate). reflexivity.
  - rewrite contains_sep by (reflexivity || discriminate). rewrite (contains_free "_") by (exact Hu || reflexivity). cbn [orb].
    rewrite contains_sep by (reflexivity || discriminate).
    rewrite (contains_free "_" _ (wt a)) by (try apply num_text_free; auto). cbn [orb].
    rewrite dummy_split.
    rewrite contains_sep by (reflexivity || discriminate).
    change "ATOMIC_POSITIONS"%string with ("ATOMIC" ++ String "_" "POSITIONS")%string at 1. rewrite contains_last by (exact Hu || discriminate). reflexivity.
Qed.

Lemma qe_row_tagfree sel tr i a v : qe_name a -> tagfree (qe_row sel tr (i, (a, v))).
Proof.
  intros (Ha & Hu & Hn & _). unfold qe_row. cbn [fst snd].
  assert (FU : free "_" (a ++ " " ++ fmt_row v ++ (if (sel && negb (in_sel tr i))%bool then row_0 else ""))%string = true).
  { rewrite !free_app, Hu, fmt_row_free by reflexivity. destruct (sel && negb (in_sel tr i))%bool; reflexivity. }
  unfold tagfree, addnl. split; [|split].
  - rewrite <- !string_app_assoc. cbn [append]. rewrite contains_sep by (reflexivity || discriminate). rewrite Hn. cbn [orb].
    apply (contains_free "a"); [|reflexivity]. rewrite !free_app, fmt_row_free by reflexivity. destruct (sel && negb (in_sel tr i))%bool; reflexivity.
  - apply (contains_free "_"); [rewrite free_app, FU; reflexivity|reflexivity].
  - apply (contains_free "_"); [rewrite free_app, FU; reflexivity|reflexivity].
Qed.

Lemma qe_row_split sel tr i a v : word a ->
  split_ws (addnl (qe_row sel tr (i, (a, v)))) = a :: tri v ++ (if (sel && negb (in_sel tr i))%bool then ["0"; "0"; "0"] else [])%string.
Proof.
  intros Ha. rewrite split_ws_addnl. unfold qe_row. cbn [fst snd]. cbn [append].
  rewrite split_ws_word_app by (auto; reflexivity).
  destruct (sel && negb (in_sel tr i))%bool; rewrite fmt_row_split.
  - reflexivity.
  - right; do 2 eexists; split; reflexivity.
  - reflexivity.
  - left; reflexivity.
Qed.

Lemma nat_line n : contains "nat" (addnl (qe_field "nat" (z_string (Z.of_nat n)))) = true /\
  py_nth (split_ws (addnl (qe_field "nat" (z_string (Z.of_nat n))))) 2 = Ok (z_string (Z.of_nat n)).
Proof.
  split.
  - apply contains_app. unfold addnl, qe_field. rewrite <- !string_app_assoc.
    exists "    "%string. eexists. cbn [append]. reflexivity.
  - rewrite split_ws_addnl. unfold qe_field. rewrite split_ws_ws_app by reflexivity.
    change (spaces (20 - String.length "nat")) with (String " " (spaces 16)). cbn [append].
    change (String "n" (String "a" (String "t" (String " " ?x)))) with ("nat" ++ String " " x)%string.
    rewrite (split_ws_word_app "nat") by (try split; reflexivity || discriminate).
    rewrite split_ws_ws_app by apply spaces_ws.
    change (String " " (String "=" (String " " (z_string (Z.of_nat n))))) with (" " ++ ("=" ++ String " " (z_string (Z.of_nat n))))%string.
    rewrite split_ws_ws_app by reflexivity. rewrite split_ws_word_app by (try split; reflexivity || discriminate).
    rewrite split_ws_word by (apply z_string_word; lia). reflexivity.
Qed.

Lemma Forall_rows {P : string -> Prop} (f : nat * (string * v3 Qc) -> string) ty pos :
  Forall qe_name ty -> (forall i a v, qe_name a -> P (f (i, (a, v)))) -> Forall P (map f (enumerate_from 0 (combine ty pos))).
Proof.
  intros Hn Hf. apply Forall_map, Forall_forall. intros [i [a v]] Hin. apply Hf.
  assert (H : In (a, v) (map snd (enumerate_from 0 (combine ty pos)))) by (apply in_map_iff; exists (i, (a, v)); auto).
  rewrite map_enum_snd in H. apply in_combine_l in H. rewrite Forall_forall in Hn. auto.
Qed.

Lemma skipn_app_exact {A} (a b : list A) n : n = length a -> skipn n (a ++ b) = b.
Proof. intros ->. rewrite skipn_app, skipn_all, Nat.sub_diag. reflexivity. Qed.

Lemma espresso_read_ok species wt N L ty pos sel tr :
  length ty <= N -> length ty = length pos -> Forall qe_name ty -> Forall qe_name species -> (forall a, In a species -> num_text (wt a)) ->
  espresso_read (map addnl (qe_lines species wt N L sel tr (combine ty pos))) =
  Ok (mkRd (map (fun v => vrow (vrnd v)) [r1 L; r2 L; r3 L]) ty (run_lengths ty) (fixed_some sel tr (length pos)) "cartesian"
       (map (fun v => vrow (vrnd v)) pos) (kept sel tr (length pos)) (xyz_of (kept sel tr (length pos)))).
Proof.
  intros HN Hl Hn Hs Hw.
  assert (HC : length (combine ty pos) = length pos) by (rewrite combine_length; lia).
  set (P := qe_pre species wt N). set (M := qe_mid species wt). set (R := map (qe_row sel tr) (enumerate_from 0 (combine ty pos))).
  set (NL := qe_field "nat" (z_string (Z.of_nat N))).
  assert (TP : Forall tagfree P).
  { unfold P, qe_pre. do 3 (constructor; [apply tagfree_compute; reflexivity|]). constructor; [apply ntyp_tagfree|constructor]. }
  assert (TM : Forall tagfree M).
  { unfold M, qe_mid. repeat (apply Forall_app; split).
    - repeat (constructor; [apply tagfree_compute; reflexivity|]). constructor.
    - apply Forall_map, Forall_forall. intros a Ha. apply species_tagfree; [rewrite Forall_forall in Hs; auto|auto].
    - repeat (constructor; [apply tagfree_compute; reflexivity|]). constructor. }
  assert (TL : Forall tagfree (qe_lat L)).
  { unfold qe_lat. apply Forall_app. split; [apply Forall_map, Forall_forall; intros v _; apply row_tagfree|].
    constructor; [apply tagfree_compute; reflexivity|constructor]. }
  assert (TR : Forall tagfree R) by (apply Forall_rows; [exact Hn|intros; now apply qe_row_tagfree]).
  destruct (nat_line N) as (NC & NT). fold NL in NC, NT.
  set (ls := map addnl (qe_lines species wt N L sel tr (combine ty pos))).
  assert (E : ls = map addnl P ++ addnl NL :: map addnl M ++ addnl "CELL_PARAMETERS angstrom" :: map addnl (qe_lat L) ++ addnl "ATOMIC_POSITIONS angstrom" :: map addnl R).
  { unfold ls, qe_lines. fold P M R NL. repeat (rewrite map_app || cbn [map app]). reflexivity. }
  set (li := length P + 1 + length M). set (pi := li + 5).
  assert (SC : qe_scan_lines 0 (mkScan None None None) ls = Ok (mkScan (Some (Z.of_nat N)) (Some li) (Some pi))).
  { rewrite E, scan_skip by exact TP. cbn [qe_scan_lines]. rewrite NC, NT. cbn [bind]. rewrite z_string_parse by lia. cbn [of_option bind].
    rewrite scan_skip by exact TM. cbn [qe_scan_lines].
    change (contains "nat" (addnl "CELL_PARAMETERS angstrom")) with false.
    change (contains "CELL_PARAMETERS" (addnl "CELL_PARAMETERS angstrom")) with true. cbn iota. cbn [q_nat q_lat q_pos].
    rewrite scan_skip by exact TL. cbn [qe_scan_lines].
    change (contains "nat" (addnl "ATOMIC_POSITIONS angstrom")) with false.
    change (contains "CELL_PARAMETERS" (addnl "ATOMIC_POSITIONS angstrom")) with false.
    change (contains "ATOMIC_POSITIONS" (addnl "ATOMIC_POSITIONS angstrom")) with true. cbn iota. cbn [q_nat q_lat q_pos].
    rewrite <- (app_nil_r (map addnl R)), scan_skip by exact TR. cbn [qe_scan_lines]. unfold pi, li. cbn [qe_lat app map length].
    match goal with |- Ok (mkScan _ (Some ?x) (Some ?y)) = _ =>
      replace y with (length P + 1 + length M + 5) by lia; replace x with (length P + 1 + length M) by lia end. reflexivity. }
  unfold espresso_read. fold ls. rewrite SC. cbn [bind q_nat q_lat q_pos].
  assert (L1 : li + 1 = length (map addnl P ++ addnl NL :: map addnl M ++ [addnl "CELL_PARAMETERS angstrom"])).
  { rewrite app_length. cbn [length]. rewrite app_length, !map_length. cbn [length]. unfold li. lia. }
  assert (E1 : ls = (map addnl P ++ addnl NL :: map addnl M ++ [addnl "CELL_PARAMETERS angstrom"]) ++
        map (fun v => addnl (" " ++ fmt_row v)) [r1 L; r2 L; r3 L] ++ (addnl "" :: addnl "ATOMIC_POSITIONS angstrom" :: map addnl R)).
  { rewrite E. rewrite <- app_assoc. cbn [app]. rewrite <- app_assoc. unfold qe_lat. rewrite map_app, map_map. rewrite <- app_assoc. reflexivity. }
  assert (L2 : pi + 1 = length (map addnl P ++ addnl NL :: map addnl M ++ addnl "CELL_PARAMETERS angstrom" :: map addnl (qe_lat L) ++ [addnl "ATOMIC_POSITIONS angstrom"])).
  { rewrite app_length. cbn [length]. rewrite app_length. cbn [length]. rewrite app_length, !map_length. cbn [length qe_lat app map]. unfold pi, li. lia. }
  assert (E2 : ls = (map addnl P ++ addnl NL :: map addnl M ++ addnl "CELL_PARAMETERS angstrom" :: map addnl (qe_lat L) ++ [addnl "ATOMIC_POSITIONS angstrom"]) ++ map addnl R).
  { rewrite E. rewrite <- app_assoc. cbn [app]. rewrite <- app_assoc. cbn [app]. rewrite <- app_assoc. reflexivity. }
  assert (B1 : blank_prefix (skipn (li + 1) ls) = 0).
  { rewrite E1, (skipn_app_exact _ _ _ L1). reflexivity. }
  assert (B2 : blank_prefix (skipn (pi + 1) ls) = 0).
  { rewrite E2, (skipn_app_exact _ _ _ L2). destruct ty as [|a ty], pos as [|v pos]; try discriminate Hl; [reflexivity|].
    unfold R. cbn [combine enumerate_from map blank_prefix]. inversion Hn as [|? ? Ha _]; subst.
    destruct a as [|ch a]; [destruct Ha as ((X & _) & _); congruence|].
    unfold qe_row, addnl. cbn [fst snd append].
    destruct a; cbn [append String.eqb]; destruct (Ascii.eqb ch nl); reflexivity. }
  rewrite B1, B2, !Nat.add_0_r.
  assert (S1 : py_slice ls (li + 1) (Z.of_nat li + 4) = map (fun v => addnl (" " ++ fmt_row v)) [r1 L; r2 L; r3 L]).
  { rewrite E1, L1. replace (Z.of_nat li + 4)%Z with (Z.of_nat (li + 1) + Z.of_nat (length (map (fun v => addnl (" " ++ fmt_row v)) [r1 L; r2 L; r3 L])))%Z by (cbn [map length]; lia).
    rewrite L1. apply py_slice_mid. }
  rewrite S1. cbn [map]. rewrite !row_split_end.
  change [tslice 0 3 (tri (r1 L)); tslice 0 3 (tri (r2 L)); tslice 0 3 (tri (r3 L))] with (map (fun v => [fmt16 (vx v); fmt16 (vy v); fmt16 (vz v)]) [r1 L; r2 L; r3 L]).
  rewrite asfarray_fmt. cbn [bind].
  assert (LR : length (map addnl R) = length ty).
  { unfold R. rewrite !map_length, enumerate_from_length, HC. lia. }
  assert (S2 : py_slice ls (pi + 1) (Z.of_nat pi + 1 + Z.of_nat N) = map addnl R).
  { rewrite E2, L2. apply py_slice_ge. rewrite <- L2, LR. lia. }
  rewrite S2.
  assert (HA : forall i a v, In (i, (a, v)) (enumerate_from 0 (combine ty pos)) -> qe_name a).
  { intros i a v Hin. assert (H : In (a, v) (map snd (enumerate_from 0 (combine ty pos)))) by (apply in_map_iff; exists (i, (a, v)); auto).
    rewrite map_enum_snd in H. apply in_combine_l in H. rewrite Forall_forall in Hn. auto. }
  assert (T1 : mapM (fun l => py_nth (split_ws l) 0) (map addnl R) = Ok ty).
  { assert (G : mapM (fun l => py_nth (split_ws l) 0) (map addnl R) = Ok (map (fun x => fst (snd x)) (enumerate_from 0 (combine ty pos)))).
    { unfold R. rewrite map_map. revert HA. generalize (enumerate_from 0 (combine ty pos)). induction l as [|[i [a v]] l IH]; intros HA; [reflexivity|].
      cbn [map mapM]. rewrite qe_row_split by (apply (HA i a v); left; reflexivity). cbn [py_nth nth_error of_option bind].
      rewrite IH by (intros; eapply HA; right; eassumption). reflexivity. }
    rewrite G. f_equal. rewrite <- (combine_fst ty pos Hl) at 2. rewrite <- (map_enum_snd (combine ty pos) 0) at 2. now rewrite map_map. }
  rewrite T1. cbn [bind].
  assert (T2 : map (fun l => tslice 1 4 (split_ws l)) (map addnl R) = map (fun v => [fmt16 (vx v); fmt16 (vy v); fmt16 (vz v)]) pos).
  { transitivity (map (fun x => tri (snd (snd x))) (enumerate_from 0 (combine ty pos))).
    - unfold R. rewrite !map_map. apply map_ext_in. intros [i [a v]] Hin. rewrite qe_row_split by (apply (HA i a v); exact Hin). reflexivity.
    - rewrite <- (combine_snd ty pos Hl) at 2. rewrite <- (map_enum_snd (combine ty pos) 0) at 2. now rewrite !map_map. }
  rewrite T2, asfarray_fmt. cbn [bind].
  assert (MZ : forall j b, In b (combine ty pos) -> mem_string "0" (split_ws (addnl (qe_row sel tr (j, b)))) = (sel && negb (in_sel tr j))%bool).
  { intros j [a v] Hin. apply in_combine_l in Hin. rewrite Forall_forall in Hn. specialize (Hn _ Hin). destruct Hn as (Ha & _ & _ & H0).
    rewrite qe_row_split by exact Ha. unfold mem_string. cbn [existsb]. replace (String.eqb "0" a) with false by (symmetry; apply String.eqb_neq; congruence).
    cbn [orb]. match goal with |- existsb _ ?x = _ => change (mem_string "0" x = (sel && negb (in_sel tr j))%bool) end.
    rewrite mem_tri by (cbn; lia). destruct (sel && negb (in_sel tr j))%bool; reflexivity. }
  unfold R. rewrite map_map. unfold indices_where, enumerate.
  rewrite (indices_where_map (fun x => addnl (qe_row sel tr x)) (fun l => negb (mem_string "0" (split_ws l))) (fun i => negb (sel && negb (in_sel tr i)))).
  2: { intros j b Hb. now rewrite MZ. }
  rewrite (enum_existsb_gen (fun x => addnl (qe_row sel tr x)) (fun l => mem_string "0" (split_ws l)) (fun i => (sel && negb (in_sel tr i))%bool)).
  2: { intros j b Hb. now rewrite MZ. }
  rewrite HC, <- kept_spec, <- fixed_spec. reflexivity.
Qed.

Lemma qe_lines_no_nl species wt N L sel tr ty pos : Forall qe_name ty -> Forall qe_name species -> (forall a, In a species -> num_text (wt a)) ->
  Forall (fun l => no_nl l = true) (qe_lines species wt N L sel tr (combine ty pos)).
Proof.
  intros Hn Hs Hw.
    assert (ZN : forall n, no_nl (z_string (Z.of_nat n)) = true) by (intros n; apply no_ws_no_nl, z_string_word; lia).
    unfold qe_lines. repeat (apply Forall_app; split).
    + unfold qe_pre. do 3 (constructor; [reflexivity|]). constructor; [unfold qe_field; rewrite !no_nl_app, ZN; reflexivity|constructor].
    + constructor; [unfold qe_field; rewrite !no_nl_app, ZN; reflexivity|constructor].
    + repeat (constructor; [reflexivity|]). constructor.
    + apply Forall_map, Forall_forall. intros a Ha. rewrite Forall_forall in Hs. destruct (Hs a Ha) as (Wa & _).
      unfold species_line. rewrite !no_nl_app, (no_ws_no_nl a) by apply Wa.
      assert (NW : no_nl (wt a) = true).
      { apply (all_char_impl numchar); [|apply Hw, Ha]. intros ch Hch. destruct (Ascii.eqb_spec ch nl) as [->|]; [discriminate Hch|reflexivity]. }
      rewrite NW. reflexivity.
    + repeat (constructor; [reflexivity|]). constructor.
    + repeat (constructor; [reflexivity|]). constructor.
    + apply Forall_map, Forall_forall. intros v _. rewrite no_nl_app, fmt_row_no_nl. reflexivity.
    + repeat (constructor; [reflexivity|]). constructor.
    + repeat (constructor; [reflexivity|]). constructor.
    + apply Forall_rows; [exact Hn|]. intros i a v (Wa & _). unfold qe_row. cbn [fst snd].
      rewrite !no_nl_app, fmt_row_no_nl, (no_ws_no_nl a) by apply Wa. destruct (sel && negb (in_sel tr i))%bool; reflexivity.
Qed.

Lemma espresso_roundtrip species wt c L ty pos tr before :
  c_lat c = Some L -> c_type c = Some ty -> c_cart c = Some pos -> c_true c = Some tr ->
  0 < length pos -> length ty = length pos -> Forall qe_name ty -> (forall a, In a species -> In a ty) -> (forall a, In a species -> num_text (wt a)) ->
  exists lines, espresso_write species wt c = Ok lines /\
    read_unit_cell espresso_read before (to_text lines) =
    (read_back L ty (run_lengths ty) (fixed_some (c_sel c) tr (length pos)) pos (kept (c_sel c) tr (length pos)), None).
Proof.
  intros H1 H2 H3 H4 H0 Hl Hn Hsp Hw.
  assert (Hs : Forall qe_name species) by (rewrite Forall_forall in *; auto).
  eexists. split; [eapply espresso_write_ok; eauto|].
  unfold read_unit_cell. rewrite readlines_text.
  - rewrite espresso_read_ok by (assumption || lia). rewrite assign_rd; [reflexivity|exact H0|exact Hl|rewrite run_lengths_sum; lia|apply kept_sorted|apply kept_below].
  - now apply qe_lines_no_nl.
Qed.
