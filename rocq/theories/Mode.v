(** Model of analysis.Mode, InterPhon/analysis/mode.py 7-105 and 147-215 (the plotting
    method 107-145 is ASE calls and is not modelled; its positions are those of [write]). *)
From Coq Require Import Reals Qreals.
From Coquelicot Require Import Complex.
From Coq Require Import String Ascii ZArith QArith Qcanon Bool Lia Arith List.
From Verif Require Import Base Dec Field Args Cell Super Displace Text Phonon Band Weight Frac.
Import ListNotations.
Local Open Scope list_scope.
Local Open Scope nat_scope.

(** mode.py 35-41: mode_inds, k_point and mode; numpy.empty is [None].  num_images is 30. *)
Record mode_obj : Type := mkMode { m_inds : list Z; m_k : option (v3 Qc); m_mode : option cmat }.
(** mode.py 35-41. *)
Definition mode_init : mode_obj := mkMode [] None None.
(** mode.py 38. *)
Definition num_images : nat := 30.

(** A float is an exact rational; as a real number: *)
(** mode.py 63, 166: the k-point as floats. *)
Definition kR (k : v3 Qc) : v3 R := V3 (Q2R (this (vx k))) (Q2R (this (vy k))) (Q2R (this (vz k))).

(** mode.py 65-68: the loop leaves the index of the last k-point that is close. *)
Fixpoint last_close (k : v3 R) (ind : nat) (ks : list (v3 R)) (found : option nat) : option nat :=
  match ks with
  | [] => found
  | kpt :: r => last_close k (S ind) r (if allcloseR k kpt then Some ind else found)
  end.

(** Mode.set, mode.py 52-73 (to_int_numpy of mode.py 7-17 is the one of pre_check.py 5-15).
    The object is returned together with the pending exception: mode_inds and k_point are
    assigned before the search.  Simplified: k_point has three components. *)
Definition mode_set (p : proc) (o : mode_obj) (inds : pyval) (k : v3 Qc) : mode_obj * option err :=
  match to_int_numpy inds with
  | Err e => (o, Some e)
  | Ok l =>
      let o1 := mkMode l (Some k) (m_mode o) in
      match last_close (kR k) 0 (p_k p) None with
      | None => (o1, Some ENotSpecifiedKpath)
      | Some i => match nth_error (p_modes p) i with
                  | Some m => (mkMode l (Some k) (Some (snd m)), None)
                  | None => (o1, Some EIndex)
                  end
      end
  end.

(** array.reshape((-1, 3)) of a flat array. *)
(** mode.py 88, 93, 189, 193: reshape((-1, 3)). *)
Fixpoint reshape3 {A} (l : list A) : result (list (v3 A)) :=
  match l with
  | [] => Ok []
  | a :: b :: c :: r => let! rs := reshape3 r in Ok (V3 a b c :: rs)
  | _ => Err EValue
  end.
(** array.max(): ValueError on an empty array. *)
(** mode.py 88, 189: max(); raises on an empty array. *)
Definition array_max (l : list R) : result R :=
  match l with [] => Err EValue | x :: r => Ok (fold_left Rmax r x) end.
(** self.mode[mode_ind, :].reshape((-1, 3)).real, the eigenvector array being n x n. *)
(** mode.py 93, 193: the real part of one row of the stored modes. *)
Definition mode_rows (n : nat) (V : cmat) (ind : Z) : result (list (v3 R)) :=
  let! i := np_index n ind in reshape3 (map (fun j => fst (V i j)) (seq 0 n)).
(** d / sqrt(w), entry by entry. *)
(** mode.py 93, 199: division by the root of the mass weight. *)
Definition vdivsqrt (d w : v3 R) : v3 R := V3 (vx d / sqrt (vx w))%R (vy d / sqrt (vy w))%R (vz d / sqrt (vz w))%R.
(** _mass_weight, mode.py 88 and 189. *)
Definition mass_weight (c : cell R) : result (list (v3 R)) :=
  let! ms := of_option EAttr (c_mass c) in
  let! rows := reshape3 ms in
  let! mx := array_max ms in
  Ok (map (fun v => V3 (vx v / mx) (vy v / mx) (vz v / mx))%R rows).
(** atom_cart[atom_true, :]: the indices (checked) and the rows.  [pos] is never None where
    this is called unless the attribute was never set. *)
(** mode.py 87-88. *)
Definition true_rows (c : cell R) : result (list (v3 R) * list nat * list (v3 R)) :=
  let! pos := of_option EAttr (c_cart c) in
  let! tr := of_option EType (c_true c) in
  let! idx := mapM (np_index (length pos)) tr in
  let! rows := mapM (fun i => py_nth pos i) idx in
  Ok (pos, idx, rows).
(** atom_cart[atom_true, :] = rows, in index order. *)
(** mode.py 91, 198: assignment to the rows listed in atom_true. *)
Fixpoint assign_rows (pos : list (v3 R)) (idx : list nat) (rows : list (v3 R)) : list (v3 R) :=
  match idx, rows with
  | i :: idx', r :: rows' => assign_rows (set_nth i r pos) idx' rows'
  | _, _ => pos
  end.
(** The sum of three equally shaped arrays row by row; shapes that differ raise ValueError.
    (Simplified: numpy would broadcast an array with a single row.) *)
(** mode.py 92-93, 198-199: arithmetic of arrays of equal shape. *)
Fixpoint zip3 {A B C D} (f : A -> B -> C -> D) (a : list A) (b : list B) (c : list C) : result (list D) :=
  match a, b, c with
  | [], [], [] => Ok []
  | x :: a', y :: b', z :: c' => let! r := zip3 f a' b' c' in Ok (f x y z :: r)
  | _, _, _ => Err EValue
  end.

Section Lines.
  Context {A : Type}.
  Variable row : v3 A -> string.   (* "{:20.16f}  {:20.16f}  {:20.16f}" *)
  (** vasp.py 122-158 [write_input_lines] again, for any type of numbers; with the rational
      numbers and their formatting it is [Text.vasp_write]. *)
  Definition vasp_lines (c : cell A) (comment : string) : result (list string) :=
    let! L := of_option EType (c_lat c) in
    let! ty := of_option EType (c_type c) in
    let! t0 := py_nth ty 0 in
    let! num := of_option EType (c_num c) in
    let! ts := vasp_group_types ty 0 num in
    let! pos := of_option EType (c_cart c) in
    let head := [comment; "1.00000000000000"%string]
       ++ map (fun v => (" " ++ row v)%string) [r1 L; r2 L; r3 L]
       ++ [String.concat "    " (t0 :: ts); String.concat "    " (map z_string num)] in
    if c_sel c then
      let! rows := mapM (fun '(i, v) =>
          let! tr := of_option EType (c_true c) in
          Ok (" " ++ row v ++ (if in_sel tr i then row_T else row_F))%string) (enumerate pos) in
      Ok (head ++ ["Selective dynamics"; "Cartesian"]%string ++ rows)
    else
      Ok (head ++ ["Cartesian"%string] ++ map (fun v => (" " ++ row v)%string) pos).
End Lines.
Lemma vasp_lines_write : vasp_lines fmt_row = vasp_write.
Proof. reflexivity. Qed.

(** "Cartesian configuration= %4d" % ind *)
(** mode.py 98, 101: '%4d'. *)
Definition pad4s (s : string) : string := (spaces (4 - String.length s) ++ s)%string.
(** mode.py 98, 101. *)
Definition config_line (ind : nat) : string := ("Cartesian configuration= " ++ pad4s (nat_digits (Z.of_nat ind)))%string.
(** np.linspace(0, 2 * np.pi, 30, endpoint=False) *)
(** mode.py 90: np.linspace(0, 2 pi, 30, endpoint=False). *)
Definition phases : list R := map (fun j => (INR j * (2 * PI / INR num_images))%R) (seq 0 num_images).
(** lines[7] = s: IndexError when there is no such line. *)
(** mode.py 98, 101: assignment to line 7. *)
Definition put7 (s : string) (l : list string) : result (list string) :=
  if 7 <? length l then Ok (set_nth 7 s l) else Err EIndex.

Section Write.
  Variable row : v3 R -> string.      (* row formatting of real coordinates *)
  Variable kname : v3 Qc -> string.   (* '{1}'.format(self.k_point) *)

  (** mode.py 90-102: the loop over the images; [c] is the copied unit cell, written in place. *)
  Fixpoint frames (c : cell R) (idx : list nat) (cur modes w : list (v3 R)) (ind : nat) (xs : list R) (lines : list string)
    : result (cell R * list string) :=
    match xs with
    | [] => Ok (c, lines)
    | x :: r =>
        let! rows := zip3 (fun p d m => vadd p (vdivsqrt (vscale (sin x) d) m)) cur modes w in
        let! pos := of_option EAttr (c_cart c) in
        let c1 := put_cart c (assign_rows pos idx rows) in
        let! l0 := vasp_lines row c1 "unknown system" in
        let! l := put7 (config_line ind) l0 in
        frames c1 idx cur modes w (S ind) r (if Nat.eqb ind 1 then l else lines ++ skipn 7 l)
    end.

  (** mode.py 104. *)
  Definition traj_name (ind : Z) (k : v3 Qc) : string := ("/XDATCAR_phonon_mode_" ++ z_string ind ++ "_" ++ kname k)%string.

  (** mode.py 89-105: one file per mode index; the files already written and the pending
      exception are returned. *)
  Fixpoint write_modes (n : nat) (o : mode_obj) (c : cell R) (idx : list nat) (cur w : list (v3 R)) (inds : list Z)
    : list (string * list string) * option err :=
    match inds with
    | [] => ([], None)
    | ind :: r =>
        match (let! V := of_option EUninit (m_mode o) in
               let! k := of_option EUninit (m_k o) in
               let! modes := mode_rows n V ind in
               let! (c1, lines) := frames c idx cur modes w 1 phases [] in
               Ok (c1, (traj_name ind k, lines))) with
        | Err e => ([], Some e)
        | Ok (c1, f) => let (fs, e) := write_modes n o c1 idx cur w r in (f :: fs, e)
        end
    end.

  (** Mode.write, mode.py 75-105.  [u] is process.unit_cell (deep-copied), [n] the width of
      the eigenvector array. *)
  Definition mode_write (n : nat) (u : cell R) (o : mode_obj) : list (string * list string) * option err :=
    let c := set_selective u false in
    match (let! t := true_rows c in let! w := mass_weight c in Ok (t, w)) with
    | Err e => ([], Some e)
    | Ok ((_, idx, cur), w) => write_modes n o c idx cur w (m_inds o)
    end.

  (** mode.py 170-175: enlargement commensurate with the k-point.  (Simplified: periodicity
      has three entries, as its setter enforces.) *)
  Definition comm_enlargement (pbc : list Z) (k : v3 Qc) : result (list Z) :=
    match pbc with
    | [p1; p2; p3] =>
        let! e1 := comm_entry p1 (vx k) in
        let! e2 := comm_entry p2 (vy k) in
        let! e3 := comm_entry p3 (vz k) in
        Ok [e1; e2; e3]
    | _ => Err EIndex
    end.

  (** mode.py 198-199, the displacement of one row. *)
  Definition mode_shift (amp ph : R) (d w : v3 R) : v3 R := vdivsqrt (vscale (amp * ph)%R d) w.

  (** A written structure: name, comment and the cell that is serialised. *)
  (** mode.py 204, 209, 214. *)
  Definition mposcar (ind : Z) : string := ("/MPOSCAR-" ++ z_string ind)%string.
  (** mode.py 201. *)
  Definition mcomment (ind : Z) (k : v3 Qc) : string :=
    ("Commensurate supercell with displacements along normal mode " ++ z_string ind ++ " at k-point " ++ kname k)%string.
  (** mode.py 202-212. *)
  Definition known_code (s : string) : bool := (String.eqb s "vasp" || String.eqb s "espresso" || String.eqb s "aims")%bool.

  (** mode.py 191-215: the loop over the mode indices; [s] is changed in place. *)
  Fixpoint write_commensurate (n : nat) (E : nat) (V : cmat) (k : v3 Qc) (amp : R) (code : string)
      (s : cell R) (idx : list nat) (cur : list (v3 R)) (w : list (v3 R)) (ph : list R) (inds : list Z)
    : list (string * string * cell R) * option err :=
    match inds with
    | [] => ([], None)
    | ind :: r =>
        match (let! rows := mode_rows n V ind in
               let modes := flat_map (fun d => repeat d E) rows in
               let! disp := zip3 (fun x d m => mode_shift amp x d m) ph modes w in
               let! new := zip3 (fun p d (_ : unit) => vadd p d) cur disp (map (fun _ => tt) cur) in
               let! pos := of_option EAttr (c_cart s) in
               Ok (put_cart s (assign_rows pos idx new))) with
        | Err e => ([], Some e)
        | Ok s1 =>
            let (fs, e) := write_commensurate n E V k amp code s1 idx cur w ph r in
            (if known_code code then (mposcar ind, mcomment ind k, s1) :: fs else fs, e)
        end
    end.

  (** Mode.write_mode_displace, mode.py 147-215; [B] is process.reciprocal_matrix.  The
      supercell object that the process holds is deep-copied and re-initialised, so only its
      class matters.  (Simplified: q.r with an unset k-point is [EUninit].) *)
  Definition write_mode_displace (n : nat) (u : cell R) (ar : args) (B : m3 R) (o : mode_obj) (amp : R) (code : string)
    : list (string * string * cell R) * option err :=
    match (let! k := of_option EUninit (m_k o) in
           let q := vmul (kR k) B in
           let! pbc := of_option EType (a_pbc ar) in
           let! enl := comm_enlargement pbc k in
           let! ar1 := set_enlargement ar (VSeq (map VInt enl)) in
           let! E := enlarge enl pbc in
           let! s0 := build_super u ar1 in
           let! s1 := set_mass_true s0 in
           let s := set_selective s1 true in
           let! (pos, idx, cur) := true_rows s in
           let! w := mass_weight s in
           let ph := map (fun r => cos (vdot q r)) cur in
           let! V := (match m_inds o with [] => Ok (fun _ _ => RtoC 0) | _ => of_option EUninit (m_mode o) end) in
           Ok (k, E, s, idx, cur, w, ph, V)) with
    | Err e => ([], Some e)
    | Ok (k, E, s, idx, cur, w, ph, V) =>
        write_commensurate n (Z.to_nat E) V k amp code s idx cur w ph (m_inds o)
    end.
End Write.
