(** Model of the second half of the command line program (InterPhon/interphon.py 697-909): the
    post-process with its two stages, density of states and bands, everything they write, and
    the record post_process.yaml; and of the animation Mode.plot (analysis/mode.py 107-145).
    Run.v models the preparation, Output.v, Plot.v and Mode.v what the analyses produce; here
    they are called in the order of the program, and an exception stops the run with what was
    written so far.
    Simplifications: the files written by the first stage are not read again by the second
    (the inputs have other names); the structure files ASE reads are a parameter; of
    post_process.yaml only the user arguments are kept; a window that shows an animation is
    not modelled. *)
From Coq Require Import Reals Qreals.
From Coquelicot Require Import Complex.
From Coq Require Import String Ascii ZArith QArith Qcanon Bool Lia Arith List.
From Verif Require Import Base Dec Field Args Cell Super Displace Text Check KPoints Weight Force Cli Session Run Phonon Band Thermal Dos Mode Output Plot.
Import ListNotations.
Local Open Scope list_scope.
Local Open Scope nat_scope.

(** Floats read from text, as real numbers: post_process.py 56 and 391-460 compute with them. *)
Definition toR (x : Qc) : R := Q2R (this x).
(** post_process.py 48-60: the arrays of the cells as real numbers. *)
Definition v3R (v : v3 Qc) : v3 R := V3 (toR (vx v)) (toR (vy v)) (toR (vz v)).
(** post_process.py 48-60. *)
Definition m3R (m : m3 Qc) : m3 R := M3 (v3R (r1 m)) (v3R (r2 m)) (v3R (r3 m)).
(** unit_cell.py 84-93: all attributes of a cell. *)
Definition cell_R (c : cell Qc) : cell R :=
  mkCell (option_map m3R (c_lat c)) (c_type c) (c_num c) (c_sel c) (c_coord c) (option_map (map v3R) (c_cart c)) (c_true c) (c_xyz c)
         (option_map (map toR) (c_mass c)).
(** post_process.py 54-55: entries never assigned keep what np.empty found ([junk]). *)
Definition fc_R (junk : nat -> nat -> R) (m : fmat Qc) : nat -> nat -> R :=
  fun i j => match m i j with Some x => toR x | None => junk i j end.

(** What a post-process leaves, in writing order (interphon.py 748-907). *)
Inductive event : Type :=
| File (name : string) (lines : list string)                     (* a text file *)
| Picture (f : figure)                                           (* a .png file *)
| Animation (name : string) (images : list (list (v3 R)))        (* a .traj file: the positions of each image *)
| Structure (name comment : string) (c : cell R)                 (* MPOSCAR: the structure that is serialised *)
| Final (disp : option Qc) (enl pbc : option (list Z)).          (* post_process.yaml, interphon.py 865-907 *)

(** A step that writes and may raise: statements of interphon.py 697-909. *)
Definition act (A : Type) : Type := list event * result A.
(** a statement that writes nothing (interphon.py 700). *)
Definition quiet {A} (r : result A) : act A := ([], r).
(** statements in sequence; an exception ends the run (interphon.py 697-909). *)
Definition andthen {A B} (m : act A) (f : A -> act B) : act B :=
  match m with
  | (l, Ok a) => let (l', r) := f a in (l ++ l', r)
  | (l, Err e) => (l, Err e)
  end.
Notation "'do' x <- m ; f" := (andthen m (fun x => f)) (at level 200, x pattern, m at level 100, f at level 200).
(** a writing statement with its files and its exception (interphon.py 748, 762, 818, 850). *)
Definition writes (w : list event * option err) : act unit := (fst w, match snd w with None => Ok tt | Some e => Err e end).
(** a drawing statement (interphon.py 749, 763, 819, 832): the picture is saved at its end. *)
Definition draws (r : result (option figure)) : act unit :=
  match r with Ok (Some f) => ([Picture f], Ok tt) | Ok None => ([], Ok tt) | Err e => ([], Err e) end.

(** mode.py 130-145: the animations; [atom] holds the positions ASE read and is changed in
    place, [idx] are the selected atoms. *)
Fixpoint images_of (atom : list (v3 R)) (idx : list nat) (cur modes w : list (v3 R)) (xs : list R) : result (list (v3 R) * list (list (v3 R))) :=
  match xs with
  | [] => Ok (atom, [])
  | x :: r =>
      let! rows := zip3 (fun p d m => vadd p (vdivsqrt (vscale (sin x) d) m)) cur modes w in
      let a1 := assign_rows atom idx rows in
      let! (a2, l) := images_of a1 idx cur modes w r in
      Ok (a2, a1 :: l)
  end.
(** mode.py 133-143: one animation per mode index. *)
Fixpoint animate (folder : string) (n : nat) (o : mode_obj) (atom : list (v3 R)) (idx : list nat) (cur w : list (v3 R)) (inds : list Z)
  : list event * option err :=
  match inds with
  | [] => ([], None)
  | ind :: r =>
      match (let! V := of_option EUninit (m_mode o) in
             let! modes := mode_rows n V ind in
             images_of atom idx cur modes w phases) with
      | Err e => ([], Some e)
      | Ok (a1, l) =>
          let (fs, e) := animate folder n o a1 idx cur w r in
          (Animation (folder ++ "/Trajectory_" ++ z_string ind ++ ".traj")%string l :: fs, e)
      end
  end.
(** Mode.plot, mode.py 107-145; [ase] is what ase.io.read returns (or raises). *)
Definition mode_plot (folder : string) (n : nat) (u : cell R) (o : mode_obj) (ase : result (list (v3 R))) : list event * option err :=
  match (let! atom := ase in
         let! tr := of_option EType (c_true u) in
         let! idx := mapM (np_index (length atom)) tr in
         let! cur := mapM (fun i => py_nth atom i) idx in
         let! w := mass_weight u in Ok (atom, idx, cur, w)) with
  | Err e => ([], Some e)
  | Ok (atom, idx, cur, w) => animate folder n o atom idx cur w (m_inds o)
  end.

(** interphon.py 418, 517: the directory of the unit cell file as text (os.path.abspath, os.path.dirname). *)
Definition folder_text (p : path) : string := ("/" ++ String.concat "/" p)%string.

(** mode.py 198: the amplitude is multiplied with an array; a text raises TypeError.  (Simplified:
    the type is looked at before the supercell is built.) *)
Definition amplitude_value (v : pyval) : result R :=
  match v with VFloat q => Ok (toR q) | VInt z => Ok (IZR z) | _ => Err EType end.
(** interphon.py 597-600; click and the option file give a text or nothing. *)
Definition label_list (v : pyval) : list string := match v with VStr s => split_ws (strip s) | _ => [] end.
(** interphon.py 536, 594-595: a value passed on; only texts are compared or printed. *)
Definition text_or (d : string) (v : pyval) : string := match v with VStr s => s | _ => d end.
(** interphon.py 594: the title of the colour bar. *)
Definition text_opt (v : pyval) : option string := match v with VStr s => Some s | _ => None end.

Section Report.
  (** post_process.py 111-172: pre-existing values of the array, then the arguments of Run.v. *)
  Variable search : cell Qc -> cell Qc -> args -> result (option (string * list (nat * (v3 Qc * list (v3 Qc))))).
  Variable sym_forces : fmat Qc -> cell Qc -> cell Qc -> args -> (string -> result (list (v3 Qc))) -> list string -> fmat Qc * option err.
  (** numpy (Phonon.v), what np.empty found, number formatting (Mode.v, Output.v, Plot.v), ASE. *)
  Variable eig : nat -> cmat -> list C * cmat.
  Variable argsort : list R -> list nat.
  Variable junk : nat -> nat -> R.
  Variable bad : string.
  Variable set_text : list Z -> string.
  Variable row : v3 R -> string.
  Variable kname : v3 Qc -> string.
  Variable ase : path -> string -> result (list (v3 R)).

  (** What does not change during one run (interphon.py 472-517). *)
  Record setting : Type := mkSetting {
    g_cwd : path; g_args : list (string * pyval); g_sym : bool; g_unit : string; g_super : string; g_forces : list string; g_world : world }.

  (** interphon.py 702-704, 771-773 (post_process.py 37-69): a new process. *)
  Definition new_process (g : setting) : result prepared :=
    let code := code_of (g_args g) in
    let! u0 := read_structure code (g_world g) (resolve (g_cwd g) (g_unit g)) in
    let! u := set_mass_true u0 in
    let! s := read_structure code (g_world g) (resolve (g_cwd g) (g_super g)) in
    Ok (mkPrepared u s args_init empty_mat).

  (** interphon.py 707-731, 776-806: user arguments, order of the force files and force
      constants of the process [x], which may have been through these steps before. *)
  Definition settle (g : setting) (x : prepared) : result prepared :=
    let code := code_of (g_args g) in
    let cwd := g_cwd g in
    let w := g_world g in
    let ff := g_forces g in
    let u := pp_unit x in
    let! a := set_user_arg (pp_arg x) (g_args g) in
    let! _ := check_match_argument u (pp_super x) a in
    let! s := set_super_ind_true (pp_super x) u a in
    let base := last (resolve cwd (g_unit g)) EmptyString in
    let files := map (fun f => let! c := read_structure code w (beside cwd f base) in of_option EType (c_cart c)) ff in
    let! n := (let! ty := of_option EType (c_type s) in Ok (length ty)) in
    let! tr := of_option EType (c_true u) in
    let! pbc := of_option EAttr (a_pbc a) in
    if g_sym g then
      let! r := search u s a in
      match r with
      | None => Err ECannotSearchPointGroup
      | Some (_, req) =>
          let! _ := check_file_order_sym u s a (a_disp a) req files in
          match (if Nat.eqb (length (nonzero_indices pbc)) 2
                 then sym_forces (pp_force x) u s a (read_forces code w cwd n) ff
                 else match a_disp a with
                      | None => (pp_force x, Some EType)
                      | Some d => set_force_constant_nosym (read_forces code w cwd n) n (length tr) d (pp_force x) ff
                      end) with
          | (fc, None) => Ok (mkPrepared u s a fc)
          | (_, Some e) => Err e
          end
      end
    else
      let! _ := check_file_order_nosym u s a (a_disp a) files in
      let! d := of_option EType (a_disp a) in
      match set_force_constant_nosym (read_forces code w cwd n) n (length tr) d (pp_force x) ff with
      | (fc, None) => Ok (mkPrepared u s a fc)
      | (_, Some e) => Err e
      end.

  (** interphon.py 734-743, 804-813: k-points, then the modes (post_process.py 391-470); without
      k-points the arrays keep what they held ([old]). *)
  Definition evaluate (g : setting) (x : prepared) (old : list (list R * cmat)) (kv : pyval) : act proc :=
    do t <- quiet (let! f := k_file kv in of_option EIO (w_file (g_world g) (resolve (g_cwd g) f)));
    do ka <- quiet (match set_k_points (readlines t) (a_pbc (pp_arg x)) with (ka, None) => Ok ka | (_, Some e) => Err e end);
    let ks := map kR (fst ka) in
    do p <- quiet (
      let u := cell_R (pp_unit x) in
      let! L := of_option EType (c_lat u) in
      let! pbc := of_option EType (a_pbc (pp_arg x)) in
      let! xyz := of_option EType (c_xyz u) in
      let! modes := match ks with
                    | [] => Ok old
                    | _ => eval_phonon eig argsort u (cell_R (pp_super x)) (pp_arg x) (reciprocal PI L) (fc_R junk (pp_force x)) ks
                    end in
      Ok (mkProc ks modes (length xyz) (snd ka) pbc));
    do _ <- writes (match gamma_write bad p with
                    | None => ([], None)
                    | Some ((name, lines), e) => ([File name lines], e)
                    end);
    quiet (Ok p).

  (** the selected components of the unit cell (dos.py 136, band.py 162). *)
  Definition xyz_of (x : prepared) : list Z := match c_xyz (pp_unit x) with Some l => l | None => [] end.
  (** text files of one call (dos.py 104-146). *)
  Definition as_files (l : list (string * list string)) : list event := map (fun nl => File (fst nl) (snd nl)) l.
  (** interphon.py 749-755: the options of DOS.plot; plot_total, bulk_dos and proportion keep their defaults. *)
  Definition dos_options (e : env) (da : dos_args) : dos_opts :=
    mkDosOpts true (da_atom da) (option_map (map IZR) (da_elimit da)) (da_option da) (text_or "horizontal" (e "orientation_dos"%string)) (da_legend da)
              None "fill" None 1%R.
  (** interphon.py 819-825. *)
  Definition band_options (e : env) (ba : band_args) : band_opts :=
    mkBandOpts (label_list (e "k_label_band"%string)) (ba_atom ba) (option_map (map IZR) (ba_elimit ba)) (ba_option ba)
               (text_opt (e "bar_label_band"%string)) (text_or "right" (e "bar_loc_band"%string)).

  (** interphon.py 757-763. *)
  Definition thermal_part (folder : string) (p : proc) (temps : list Z) : act unit :=
    let t := fst (thermal_set (map fst (p_modes p)) (p_n p) (thermal_init (map IZR temps))) in
    do _ <- writes (as_files [thermal_write bad folder t], None);
    draws (let! f := thermal_plot t in Ok (Some f)).

  (** interphon.py 745-763: the analysis of the density of states. *)
  Definition dos_part (folder : string) (e : env) (x : prepared) (p : proc) (da : dos_args) (thermal : option (list Z)) : act dos :=
    do d0 <- quiet (dos_init p (toR (da_sigma da)) (Z.to_nat (da_num da)));
    do d <- quiet (dos_set p d0);
    do _ <- (let (fs, er) := dos_write bad folder (xyz_of x) d in writes (as_files fs, er));
    do _ <- draws (dos_plot set_text p d (xyz_of x) (dos_options e da));
    do _ <- match thermal with None => quiet (Ok tt) | Some ts => thermal_part folder p ts end;
    quiet (Ok d).

  (** interphon.py 845-863: the analysis of single modes. *)
  Definition mode_part (g : setting) (folder : string) (x : prepared) (p : proc) (ma : mode_args) : act unit :=
    let u := cell_R (pp_unit x) in
    let n := p_n p in
    do k <- quiet (match ma_k ma with [a; b; c] => Ok (V3 a b c) | _ => Err EExc end);
    do o <- quiet (match mode_set p mode_init (VSeq (map VInt (ma_index ma))) k with (o, None) => Ok o | (_, Some er) => Err er end);
    do _ <- (let (fs, er) := mode_write row kname n u o in writes (as_files (map (fun nl => ((folder ++ fst nl)%string, snd nl)) fs), er));
    do _ <- writes (mode_plot folder n u o (ase (resolve (g_cwd g) (g_unit g)) (code_of (g_args g))));
    if ma_write ma then
      do amp <- quiet (match m_inds o with [] => Ok 0%R | _ => amplitude_value (ma_amplitude ma) end);
      do L <- quiet (of_option EType (c_lat u));
      let (fs, er) := write_mode_displace kname n u (pp_arg x) (reciprocal PI L) o amp (code_of (g_args g)) in
      writes (map (fun '(name, comment, c) => Structure ("." ++ name)%string comment c) fs, er)
    else quiet (Ok tt).

  (** interphon.py 815-863; [dos] is the analysis of the first stage, when there was one. *)
  Definition band_part (g : setting) (folder : string) (e : env) (x : prepared) (p : proc) (ba : band_args) (dos : option (dos * dos_opts)) (mode : option mode_args) : act unit :=
    let o := band_options e ba in
    do b <- quiet (band_set p (band_init p));
    do _ <- writes (as_files [band_write bad folder p b], None);
    do _ <- draws (band_plot set_text p b (xyz_of x) o);
    do _ <- match dos with
            | None => quiet (Ok tt)
            | Some (d, od) => draws (let! f := plot_with_dos set_text p b (xyz_of x) o d od in Ok (Some f))
            end;
    match mode with None => quiet (Ok tt) | Some ma => mode_part g folder x p ma end.

  (** interphon.py 699-763: the first stage, on a new process. *)
  Definition dos_stage (g : setting) (folder : string) (e : env) (da : dos_args) (kd : pyval) (thermal : option (list Z)) : act (prepared * proc * dos * dos_opts) :=
    do x <- quiet (let! x := new_process g in settle g x);
    do p <- evaluate g x [] kd;
    do d <- dos_part folder e x p da thermal;
    quiet (Ok (x, p, d, dos_options e da)).
  (** interphon.py 765-863: the second stage, on a deep copy of the process of the first one
      (767-769) or on a new process (771-773). *)
  Definition band_stage (g : setting) (folder : string) (e : env) (first : option (prepared * proc * dos * dos_opts)) (ba : band_args) (kb : pyval) (mode : option mode_args) : act args :=
    do x <- quiet (match first with
                   | Some (x, _, _, _) => settle g x
                   | None => let! x := new_process g in settle g x
                   end);
    do p <- evaluate g x (match first with Some (_, p, _, _) => p_modes p | None => [] end) kb;
    do _ <- band_part g folder e x p ba (match first with Some (_, _, d, od) => Some (d, od) | None => None end) mode;
    quiet (Ok (pp_arg x)).
  (** if flag: (interphon.py 699, 765). *)
  Definition maybe {A B} (o : option A) (f : A -> act B) : act (option B) :=
    match o with None => quiet (Ok None) | Some a => do b <- f a; quiet (Ok (Some b)) end.

  (** interphon.py 697-907: the post-process; what it leaves and its exception. *)
  Definition analyses (g : setting) (e : env) (dos : option (dos_args * pyval)) (thermal : option (list Z)) (band : option (band_args * pyval)) (mode : option mode_args)
    : act unit :=
    let folder := folder_text (removelast (resolve (g_cwd g) (g_unit g))) in
    do first <- maybe dos (fun dk => dos_stage g folder e (fst dk) (snd dk) thermal);
    do second <- maybe band (fun bk => band_stage g folder e first (fst bk) (snd bk) mode);
    match (match second, first with Some a, _ => Some a | None, Some (x, _, _, _) => Some (pp_arg x) | None, None => None end) with
    | None => quiet (Err EUnbound)
    | Some a => writes ([Final (a_disp a) (a_enl a) (a_pbc a)], None)
    end.

  (** interphon.py 300-909: one run that gets to the post-process; [w_rec] of the current
      directory is pre_process.yaml. *)
  Variable glob : string -> list string.
  (** interphon.py 300-907. *)
  Definition report (cwd : path) (e : env) (file : option (list string)) (forces : list string) (w : world) : act unit :=
    do e1 <- quiet (with_option_file e file);
    do pl <- quiet (main_plan glob e file forces (of_option EIO (w_rec w cwd)));
    match pl with
    | PrePlan _ _ _ => quiet (Ok tt)
    | PostPlan ua sym unit super ff dos thermal band mode =>
        do up <- quiet (path_text unit);
        do sp <- quiet (path_text super);
        analyses (mkSetting cwd ua sym up sp ff w) e1 dos thermal band mode
    end.
End Report.
