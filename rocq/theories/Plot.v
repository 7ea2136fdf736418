(** Model of the figures: Band.plot, Band.plot_with_dos (InterPhon/analysis/band.py 65-547),
    DOS.plot (analysis/dos.py 148-576), ThermalProperty.plot (analysis/thermal_properties.py
    124-176).  A figure is what is drawn in it: curves, filled areas, coloured segments, axis
    ranges and the ticks the program sets itself.  Not modelled: colours, fonts, line styles,
    the rounded tick texts of the frequency axis, the size and the place of legends and colour
    bars, and whether a window is shown.  The text of a Python set of integers is a parameter. *)
From Coq Require Import Reals.
From Coquelicot Require Import Complex.
From Coq Require Import String Ascii ZArith Bool Lia Arith List.
From Verif Require Import Base Field Phonon Band Thermal Dos.
Import ListNotations.
Local Open Scope list_scope.
Local Open Scope nat_scope.

(** What the matplotlib calls of band.py 134-228, dos.py 212-300 and thermal_properties.py 155-156
    put into a figure. *)
Inductive artist : Type :=
| Curve (pts : list (option R * option R)) (label : option string)       (* ax.plot *)
| Area (pts : list (option R * option R)) (label : string)               (* ax.fill: closed polygon *)
| Stack (xs : list R) (layers : list (list (option R))) (labels : list string)   (* ax.stackplot: layers on top of each other *)
| Band_x (pts : list (option R * option R)) (label : string) (depth : nat)       (* ax.fill_betweenx from 0; zorder = - depth *)
| Coloured (pts : list (R * R)) (colours : list R).                      (* LineCollection of the successive segments *)

(** One coordinate system: what is drawn, the axis ranges ([None]: chosen by matplotlib) and
    the ticks of the horizontal axis with their texts (band.py 138-140, dos.py 230, 242, 244). *)
Record axes : Type := mkAxes {
  ax_arts : list artist;
  ax_x : option R * option R; ax_y : option R * option R;
  ax_ticks : list (R * string); ax_bar : option string }.
(** A saved picture: its file name and its coordinate systems (band.py 153, 546, dos.py 246). *)
Record figure : Type := mkFigure { fig_name : string; fig_axes : list axes }.

(** np.floor, np.ceil: band.py 107-108, dos.py 207-208. *)
Definition np_floor (x : R) : R := IZR (Int_part x).
(** np.ceil, band.py 108. *)
Definition np_ceil (x : R) : R := (- np_floor (- x))%R.

(** band.py 106-111, 308-313; dos.py 206-211, 402-407: the frequency range. *)
Definition window (p : proc) (elimit : option (list R)) : result (R * R) :=
  match elimit with
  | None =>
      let ws := concat (map fst (p_modes p)) in
      let! mn := fold_minmax Rmin ws in
      let! mx := fold_minmax Rmax ws in
      Ok (np_floor mn - 1, np_ceil mx + 1)%R
  | Some l => let! a := py_nth l 0 in let! b := py_nth l 1 in Ok (a, b)
  end.

(** band.py 116-127, 318-329: the texts of the high-symmetry points. *)
Definition k_label (two_periodic : bool) (s : string) : string :=
  if (String.eqb s "G" || String.eqb s "g")%bool
  then if two_periodic then "$\overline{\Gamma}$" else "$\Gamma$"
  else if two_periodic then ("$\overline{" ++ s ++ "}$")%string else ("$" ++ s ++ "$")%string.
(** band.py 114-127. *)
Definition k_labels (p : proc) (l : list string) : list string :=
  map (k_label (Nat.eqb (length (ind_pbc (p_pbc p))) 2)) l.

(** band.py 139-140: set_xticks and set_xticklabels; matplotlib raises ValueError when the
    numbers of ticks and of texts differ, unless there is no text (then the ticks stay bare). *)
Definition ticks (xs : list R) (labels : list string) : result (list (R * string)) :=
  match labels with
  | [] => Ok (map (fun x => (x, EmptyString)) xs)
  | _ => if Nat.eqb (length xs) (length labels) then Ok (combine xs labels) else Err EValue
  end.

(** [ind for ind, val in enumerate(xyz_true) if val in atoms]: band.py 162, 357; dos.py 277. *)
Definition mode_indices (xyz atoms : list Z) : list nat :=
  map fst (filter (fun iv => existsb (Z.eqb (snd iv)) atoms) (combine (seq 0 (length xyz)) xyz)).

(** band.py 157-168, 352-363: the colour of branch [i] at each k-point. *)
Definition branch_colours (b : band) (modes : list nat) (i : nat) : list R :=
  map (fun P : nat -> nat -> R => fold_left (fun a m => (a + P i m)%R) modes 0%R) (b_proj b).
(** w_q.shape[1]: band.py 172; the number of columns of w_q. *)
Definition branches (p : proc) : nat := match p_modes p with [] => 0 | m :: _ => length (fst m) end.
(** column [i] of w_q: band.py 136, 174. *)
Definition branch (p : proc) (i : nat) : list R := map (fun m => nth i (fst m) 0%R) (p_modes p).

Section Plot.
  Variable set_text : list Z -> string.   (* '{0}'.format(set(atoms)) *)

  (** band.py 133-142: the horizontal axis of the band picture. *)
  Definition band_axes (p : proc) (b : band) (labels : list string) (y : R * R) (arts : list artist) (bar : option string) : result axes :=
    let! x0 := py_nth (b_len b) 0 in
    let! x1 := py_nth (b_len b) (length (b_len b) - 1) in
    let! ts := mapM (py_nth (b_len b)) (b_ticks b) in
    let! tk := ticks ts (k_labels p labels) in
    Ok (mkAxes arts (Some x0, Some x1) (Some (fst y), Some (snd y)) tk bar).

  (** band.py 134-136, 338: one curve per branch; arrays of different length raise ValueError. *)
  Definition plain_bands (p : proc) (b : band) : result (list artist) :=
    if negb (Nat.eqb (length (b_len b)) (length (p_modes p))) then Err EValue
    else Ok (map (fun i => Curve (combine (map Some (b_len b)) (map Some (branch p i))) None) (seq 0 (branches p))).

  (** band.py 154-215, 349-393: the coloured branches and the title of the colour bar.
      [placed]: the colour bar has a place (band.py 170, 192); otherwise [ax] is unbound. *)
  Definition coloured_bands (p : proc) (b : band) (xyz : list Z) (atoms : option (list Z)) (bar_label : option string) (placed : bool)
    : result (list artist * string) :=
    match atoms with
    | None => Err EType
    | Some l =>
        let modes := mode_indices xyz l in
        if negb placed then Err EUnbound
        else if negb (Nat.eqb (length (b_len b)) (length (p_modes p))) then Err EValue
        else match seq 0 (branches p) with
             | [] => Err EUnbound
             | is => Ok (map (fun i => Coloured (combine (b_len b) (branch p i)) (branch_colours b modes i)) is,
                         ("Contribution of " ++ match bar_label with None => "atom-" ++ set_text l | Some s => s end)%string)
             end
    end.

  (** Band.plot, band.py 65-236. *)
  Record band_opts : Type := mkBandOpts {
    bo_labels : list string; bo_atoms : option (list Z); bo_elimit : option (list R);
    bo_option : string; bo_bar_label : option string; bo_bar_loc : string }.
  (** band.py 105-236; [Ok None]: no picture is saved. *)
  Definition band_plot (p : proc) (b : band) (xyz : list Z) (o : band_opts) : result (option figure) :=
    let! y := window p (bo_elimit o) in
    if String.eqb (bo_option o) "plain" then
      let! arts := plain_bands p b in
      let! ax := band_axes p b (bo_labels o) y arts None in
      Ok (Some (mkFigure "band.png" [ax]))
    else if String.eqb (bo_option o) "projection" then
      let! r := coloured_bands p b xyz (bo_atoms o) (bo_bar_label o) (String.eqb (bo_bar_loc o) "right" || String.eqb (bo_bar_loc o) "bottom") in
      let! ax := band_axes p b (bo_labels o) y (fst r) (Some (snd r)) in
      Ok (Some (mkFigure "band.png" [ax]))
    else Ok None.

  (** ---- densities of states ---- *)
  (** DOS.plot, dos.py 148-196. *)
  Record dos_opts : Type := mkDosOpts {
    do_total : bool; do_atoms : option (list (list Z)); do_elimit : option (list R);
    do_option : string; do_orient : string; do_legends : option (list string);
    do_bulk : option (list (R * R)); do_bulk_option : string; do_bulk_legend : option string; do_prop : R }.

  (** dos.py 213-224 and the five other copies: the bulk density; horizontal pictures have the
      frequency on the horizontal axis. *)
  Definition put (vertical : bool) (f d : option R) : option R * option R := if vertical then (d, f) else (f, d).
  (** dos.py 213-224. *)
  Definition bulk_art (vertical : bool) (o : dos_opts) : list artist :=
    match do_bulk o with
    | None => []
    | Some l =>
        let label := match do_bulk_legend o with Some s => s | None => "bulk dos"%string end in
        let pts := map (fun fd => put vertical (Some (fst fd)) (Some (snd fd * do_prop o)%R)) l in
        if String.eqb (do_bulk_option o) "line" then [Curve pts (Some label)] else [Area pts label]
    end.
  (** a curve of a density: matplotlib raises ValueError when the two arrays differ in length
      (dos.py 226, 266-269, 287-290, 433, 461-464). *)
  Definition points (vertical : bool) (fs : list R) (ds : list (option R)) : result (list (option R * option R)) :=
    if Nat.eqb (length fs) (length ds) then Ok (map (fun fd => put vertical (Some (fst fd)) (snd fd)) (combine fs ds)) else Err EValue.
  (** dos.py 226, 266-269, 433, 461-464. *)
  Definition total_art (vertical : bool) (d : dos) : result artist :=
    let! pts := points vertical (d_freq d) (d_tdos d) in Ok (Curve pts (Some "total dos"%string)).

  (** numpy's in-place addition of a row: lengths that differ raise ValueError, except that a
      row of one number is added to every entry (dos.py 280). *)
  Definition add_row (acc row : list (option R)) : result (list (option R)) :=
    if Nat.eqb (length acc) (length row) then Ok (map2 oadd acc row)
    else match row with [x] => Ok (map (fun a => oadd a x) acc) | _ => Err EValue end.
  (** dos.py 276-280: the sum for one set of atoms. *)
  Definition set_curve (d : dos) (xyz atoms : list Z) : result (list (option R)) :=
    fold_left (fun acc m => let! a := acc in add_row a (map (fun c : column => c m) (d_pdos d)))
      (mode_indices xyz atoms) (Ok (map (fun _ => num 0) (d_freq d))).
  (** dos.py 272-285: all sets; [atoms] left out is a TypeError. *)
  Definition set_curves (d : dos) (xyz : list Z) (atoms : option (list (list Z))) : result (list (list (option R))) :=
    match atoms with None => Err EType | Some sets => mapM (set_curve d xyz) sets end.
  (** dos.py 288-291, 339-344, 518-522: the text of each set. *)
  Definition set_labels (sets : list (list Z)) (legends : option (list string)) : result (list string) :=
    match legends with
    | None => Ok (map (fun s => ("atom-" ++ set_text s)%string) sets)
    | Some l => mapM (py_nth l) (seq 0 (length sets))
    end.
  (** np.cumsum(__pdos, axis=0), dos.py 516. *)
  Fixpoint cumulate (acc : list (option R)) (rows : list (list (option R))) : list (list (option R)) :=
    match rows with
    | [] => []
    | r :: rs => let a := map2 oadd acc r in a :: cumulate a rs
    end.

  (** What DOS.plot draws for one orientation (dos.py 212-386, 409-569); [Ok None]: unknown option. *)
  Definition dos_arts (vertical total : bool) (d : dos) (xyz : list Z) (o : dos_opts) : result (option (list artist)) :=
    let bulk := bulk_art vertical o in
    if String.eqb (do_option o) "plain" then
      let! t := total_art vertical d in Ok (Some (bulk ++ [t]))
    else if (String.eqb (do_option o) "line" || String.eqb (do_option o) "stack")%bool then
      let! tl := (if total then let! t := total_art vertical d in Ok [t] else Ok []) in
      let! rows := set_curves d xyz (do_atoms o) in
      let sets := match do_atoms o with Some l => l | None => [] end in
      if String.eqb (do_option o) "line" then
        let! labels := set_labels sets (do_legends o) in
        let! cs := mapM (fun rl => let! pts := points vertical (d_freq d) (fst rl) in Ok (Curve pts (Some (snd rl)))) (combine rows labels) in
        Ok (Some (bulk ++ tl ++ cs))
      else if vertical then
        let! labels := set_labels sets (do_legends o) in
        let bounds := cumulate (map (fun _ => num 0) (d_freq d)) rows in
        let! cs := mapM (fun irl => let! pts := points true (d_freq d) (fst (snd irl)) in Ok (Band_x pts (snd (snd irl)) (fst irl)))
                        (combine (seq 0 (length bounds)) (combine bounds labels)) in
        Ok (Some (bulk ++ tl ++ cs))
      else
        (* stackplot takes the legends as they are; it reads the first layer (IndexError without one) *)
        match rows with
        | [] => Err EIndex
        | _ => Ok (Some (bulk ++ tl ++ [Stack (d_freq d) rows
                          (match do_legends o with Some l => l | None => map (fun s => ("atom-" ++ set_text s)%string) sets end)]))
        end
    else Ok None.

  (** DOS.plot, dos.py 148-576; [Ok None]: no picture is saved. *)
  Definition dos_plot (p : proc) (d : dos) (xyz : list Z) (o : dos_opts) : result (option figure) :=
    if (String.eqb (do_orient o) "horizontal" || String.eqb (do_orient o) "vertical")%bool then
      let vertical := String.eqb (do_orient o) "vertical" in
      let! w := window p (do_elimit o) in
      let! r := dos_arts vertical (do_total o) d xyz o in
      match r with
      | None => Ok None
      | Some arts =>
          let range := (Some (fst w), Some (snd w)) in
          let open := (Some 0%R, None) in
          Ok (Some (mkFigure "dos.png" [mkAxes arts (if vertical then open else range) (if vertical then range else open) [] None]))
      end
    else Ok None.

  (** Band.plot_with_dos, band.py 238-547: the two coordinate systems share the frequency axis.
      An unknown band option leaves the second one unbound. *)
  Definition plot_with_dos (p : proc) (b : band) (xyz : list Z) (o : band_opts) (d : dos) (od : dos_opts) : result figure :=
    let! y := window p (bo_elimit o) in
    let! bands :=
      (if String.eqb (bo_option o) "plain" then
         let! arts := plain_bands p b in
      let! ax := band_axes p b (bo_labels o) y arts None in Ok (Some ax)
       else if String.eqb (bo_option o) "projection" then
         let! r := coloured_bands p b xyz (bo_atoms o) (bo_bar_label o) true in
         let! ax := band_axes p b (bo_labels o) y (fst r) (Some (snd r)) in Ok (Some ax)
       else Ok None) in
    let known := (String.eqb (do_option od) "plain" || String.eqb (do_option od) "line" || String.eqb (do_option od) "stack")%bool in
    match bands with
    | None => if known then Err EUnbound else Ok (mkFigure "band_dos.png" [])
    | Some ax =>
        let! r := dos_arts true true d xyz od in
        let range := (Some (fst y), Some (snd y)) in
        let right := match r with
                     | None => mkAxes [] (None, None) range [] None
                     | Some arts => mkAxes arts (Some 0%R, None) range [] None
                     end in
        Ok (mkFigure "band_dos.png" [ax; right])
    end.
End Plot.

(** ThermalProperty.plot, thermal_properties.py 124-176. *)
Definition thermal_plot (t : thermal) : result figure :=
  let! x0 := fold_minmax Rmin (t_temp t) in
  let! x1 := fold_minmax Rmax (t_temp t) in
  let! c1 := points false (t_temp t) (t_free t) in
  let! c2 := points false (t_temp t) (map (fun s => omul s (num 1000)) (t_entropy t)) in
  Ok (mkFigure "thermal_properties.png"
        [mkAxes [Curve c1 (Some "Free energy (eV/atom)"%string); Curve c2 (Some "Entropy (meV/K/atom)"%string)]
                (Some x0, Some x1) (None, None) [] None]).
