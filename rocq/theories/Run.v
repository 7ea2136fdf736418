(** Model of whole runs of the command line program (InterPhon/interphon.py 300-745): a
    pre-process reads the unit cell file and leaves the supercell, the displaced supercells
    and the record behind; a post-process reads all of them back, with the force files, up
    to the force constants.  Cli.v decides what runs with which arguments; the other files
    of the model say what is computed.
    Simplifications: a path is resolved by its components ('.', '..' and empty components
    as os.path.normpath does; links are not followed); the record pre_process.yaml is kept
    as its entries, outside the text files; a file is text; writing to a directory that
    exists succeeds. *)
From Coq Require Import String Ascii ZArith QArith Qcanon Bool Lia Arith List.
From Verif Require Import Base Dec Field Args Cell Super Displace Text Check KPoints Weight Force Cli Session.
Import ListNotations.
Local Open Scope list_scope.
Local Open Scope nat_scope.

(** An absolute path without '.', '..' and empty components.
    interphon.py 418, 485-486: os.path.abspath. *)
Definition path : Type := list string.

(** interphon.py 418, 485-486: os.path.abspath, one component. *)
Definition enter (p : path) (c : string) : path :=
  if (String.eqb c "" || String.eqb c ".")%bool then p
  else if String.eqb c ".." then removelast p
  else p ++ [c].
(** A name starting with '/' does not depend on the current directory (interphon.py 418). *)
Definition absolute (s : string) : bool := match s with String c _ => Ascii.eqb c "/" | EmptyString => false end.
(** interphon.py 418, 485-486 (abspath) and every open(): the file a name denotes. *)
Definition resolve (cwd : path) (s : string) : path :=
  fold_left enter (split_on "/" s) (if absolute s then [] else cwd).

(** interphon.py 69, 80, 98, 109: os.path.dirname, the text up to the last '/' ... *)
Fixpoint head_part (s : string) : string :=
  match s with
  | EmptyString => EmptyString
  | String c r => if contains "/" s then String c (head_part r) else EmptyString
  end.
(** vasp.py 180: os.path.split, the text after the last '/'. *)
Fixpoint base_part (s : string) : string :=
  match s with
  | EmptyString => EmptyString
  | String c r => if contains "/" s then base_part r else s
  end.
(** interphon.py 69: rstrip('/') of os.path.dirname. *)
Fixpoint lstrip_slash (s : string) : string :=
  match s with String c r => if Ascii.eqb c "/" then lstrip_slash r else s | EmptyString => EmptyString end.
(** interphon.py 69, 80, 98, 109: os.path.dirname; slashes at the end are dropped unless there is
    nothing else. *)
Definition dirname (s : string) : string :=
  let h := head_part s in
  match lstrip_slash h with
  | EmptyString => h
  | _ => rev_string (lstrip_slash (rev_string h))
  end.

(** The files of the machine and, by directory, the record pre_process.yaml
    (interphon.py 440-441, 692-693). *)
Record world : Type := mkWorld { w_file : path -> option string; w_rec : path -> option record }.
(** equality of paths, needed to write one file (unit_cell.py 303-304). *)
Definition same_path (p q : path) : bool := if list_eq_dec string_dec p q then true else false.
(** unit_cell.py 303-304: open(..., 'w') and write. *)
Definition put_file (w : world) (p : path) (t : string) : world :=
  mkWorld (fun q => if same_path q p then Some t else w_file w q) (w_rec w).
(** interphon.py 692-693. *)
Definition put_record (w : world) (dir : path) (r : record) : world :=
  mkWorld (w_file w) (fun q => if same_path q dir then Some r else w_rec w q).

(** interphon.py 413, 472: user_args['dft_code']; another type than text matches no branch. *)
Definition code_of (ua : list (string * pyval)) : string :=
  match ua with (_, VStr s) :: _ => s | _ => EmptyString end.
(** interphon.py 418, 485: os.path.abspath needs a text. *)
Definition path_text (v : pyval) : result string := match v with VStr s => Ok s | _ => Err EType end.

(** unit_cell.py 245-284 on a new object. *)
Definition read_structure (code : string) (w : world) (p : path) : result (cell Qc) :=
  match reader_of code with
  | None => Ok cell_init
  | Some rdr =>
      match w_file w p with
      | None => Err EIO
      | Some t => match read_unit_cell rdr cell_init t with (c, None) => Ok c | (_, Some e) => Err e end
      end
  end.

(** rows of a force file as vectors; the readers keep three columns, shorter lines give an
    array whose size does not fit (post_process.py 187), here a ValueError at once. *)
(** vasp.py 199, 215; espresso.py 225; aims.py 185. *)
Definition force_rows3 (m : list (list Qc)) : result (list (v3 Qc)) :=
  mapM (fun r => match r with [x; y; z] => Ok (V3 x y z) | _ => Err EValue end) m.
(** post_process.py 110, 178-186, 257-265, 336-344: the reader of force files chosen by code_name. *)
Definition read_forces (code : string) (w : world) (cwd : path) (n : nat) (f : string) : result (list (v3 Qc)) :=
  let! t := of_option EIO (w_file w (resolve cwd f)) in
  let! m := (if String.eqb code "vasp" then vasp_forces (base_part f) (readlines t) n
             else if String.eqb code "espresso" then espresso_forces (readlines t) n
             else aims_forces (readlines t) n) in
  force_rows3 m.

Section Run.
  (** espresso.py 158-162: iteration order of set(atom_type), and the text of an atomic weight. *)
  Variable species : cell Qc -> list string.
  Variable wt : string -> string.
  (** pre_process.py 144-157: point group and required atoms with their directions; [Ok None] when
      Cannot_Search_Point_Group is raised. *)
  Variable search : cell Qc -> cell Qc -> args -> result (option (string * list (nat * (v3 Qc * list (v3 Qc))))).
  (** post_process.py 111-172: the force constants with symmetry (Force.v, SymRun.v). *)
  Variable sym_forces : cell Qc -> cell Qc -> args -> (string -> result (list (v3 Qc))) -> list string -> fmat Qc * option err.
  (** interphon.py 510: glob.glob. *)
  Variable glob : string -> list string.

  (** unit_cell.py 286-312: text of a structure; None for another code_name (no file). *)
  Definition structure_text (code : string) (c : cell Qc) (comment : string) : result (option string) :=
    if String.eqb code "vasp" then let! ls := vasp_write c comment in Ok (Some (to_text ls))
    else if String.eqb code "espresso" then let! ls := espresso_write (species c) wt c in Ok (Some (to_text ls))
    else if String.eqb code "aims" then let! ls := aims_write c in Ok (Some (to_text ls))
    else Ok None.
  (** unit_cell.py 286-312. *)
  Definition write_structure (code : string) (w : world) (p : path) (c : cell Qc) (comment : string) : result world :=
    let! t := structure_text code c comment in
    Ok (match t with Some t => put_file w p t | None => w end).
  (** pre_process.py 173-181, 193-200: the files one after the other. *)
  Fixpoint write_all (code : string) (w : world) (l : list (path * out Qc)) : world * option err :=
    match l with
    | [] => (w, None)
    | (p, o) :: r => match write_structure code w p (o_cell o) (o_comment o) with
                     | Err e => (w, Some e)
                     | Ok w1 => write_all code w1 r
                     end
    end.

  (** pre_process.py 136-200: the displaced cells and the point group that was found.
      Simplification: all displacements are computed before the first file is written; when
      one raises, the program has already written the files before it. *)
  Definition displaced_cells (u s : cell Qc) (a : args) (sym : bool) : result (option string * list (out Qc)) :=
    let! pbc := of_option EAttr (a_pbc a) in
    let nosym := let! (_, outs) := write_displace_nosym u s a (a_disp a) in Ok (None, outs) in
    if (sym && Nat.eqb (length (nonzero_indices pbc)) 2)%bool then
      let! r := search u (set_selective s false) a in
      match r with
      | Some (pg, req) => let! (_, outs) := write_displace_sym u s a (a_disp a) req in Ok (Some pg, outs)
      | None => nosym
      end
    else nosym.

  (** interphon.py 640-693. *)
  Definition pre_run (cwd : path) (ua : list (string * pyval)) (dft unit : pyval) (sym : bool) (w : world) : world * option err :=
    match (let! up := path_text unit in
           let! a := set_user_arg args_init ua in
           let! u := read_structure (code_of ua) w (resolve cwd up) in
           let! s := build_super u a in
           Ok (resolve cwd up, a, u, s)) with
    | Err e => (w, Some e)
    | Ok (p, a, u, s) =>
        let dir := removelast p in
        match write_structure (code_of ua) w (dir ++ ["SUPERCELL"%string]) s "Supercell" with
        | Err e => (w, Some e)
        | Ok w1 =>
            match displaced_cells u s a sym with
            | Err e => (w1, Some e)
            | Ok (pg, outs) =>
                match write_all (code_of ua) w1 (map (fun o => (dir ++ [(last p EmptyString ++ o_suffix o)%string], o)) outs) with
                | (w2, Some e) => (w2, Some e)
                | (w2, None) =>
                    match make_record (last p EmptyString) dft pg a with
                    | Err e => (w2, Some e)
                    | Ok r => (put_record w2 cwd r, None)
                    end
                end
            end
        end
    end.

  (** interphon.py 709-741: what the analyses start from. *)
  Record prepared : Type := mkPrepared { pp_unit : cell Qc; pp_super : cell Qc; pp_arg : args; pp_force : fmat Qc }.

  (** interphon.py 69, 80, 98, 109: the structure in the directory of a force file. *)
  Definition beside (cwd : path) (f base : string) : path := resolve cwd (dirname f ++ "/" ++ base)%string.

  (** interphon.py 698-741 (and 766-811): the stages before the k-points. *)
  Definition post_run (cwd : path) (ua : list (string * pyval)) (sym : bool) (unit super : pyval) (ff : list string) (w : world)
    : result prepared :=
    let code := code_of ua in
    let! up := path_text unit in
    let! sp := path_text super in
    let! u0 := read_structure code w (resolve cwd up) in
    let! u := set_mass_true u0 in
    let! s0 := read_structure code w (resolve cwd sp) in
    let! a := set_user_arg args_init ua in
    let! _ := check_match_argument u s0 a in
    let! s := set_super_ind_true s0 u a in
    let base := last (resolve cwd up) EmptyString in
    let files := map (fun f => let! c := read_structure code w (beside cwd f base) in of_option EType (c_cart c)) ff in
    let! n := (let! ty := of_option EType (c_type s) in Ok (length ty)) in
    let! tr := of_option EType (c_true u) in
    let! pbc := of_option EAttr (a_pbc a) in
    if sym then
      let! r := search u s a in
      match r with
      | None => Err ECannotSearchPointGroup
      | Some (_, req) =>
          let! _ := check_file_order_sym u s a (a_disp a) req files in
          match (if Nat.eqb (length (nonzero_indices pbc)) 2
                 then sym_forces u s a (read_forces code w cwd n) ff
                 else match a_disp a with
                      | None => (empty_mat, Some EType)
                      | Some d => set_force_constant_nosym (read_forces code w cwd n) n (length tr) d empty_mat ff
                      end) with
          | (fc, None) => Ok (mkPrepared u s a fc)
          | (_, Some e) => Err e
          end
      end
    else
      let! _ := check_file_order_nosym u s a (a_disp a) files in
      let! d := of_option EType (a_disp a) in
      match set_force_constant_nosym (read_forces code w cwd n) n (length tr) d empty_mat ff with
      | (fc, None) => Ok (mkPrepared u s a fc)
      | (_, Some e) => Err e
      end.

  (** interphon.py 300-745: one run of the program in directory [cwd]; what a post-process
      prepares is returned, the files it writes later are not modelled here (Output.v). *)
  Definition main_run (cwd : path) (e : env) (file : option (list string)) (forces : list string) (w : world)
    : world * result (option prepared) :=
    match main_plan glob e file forces (of_option EIO (w_rec w cwd)) with
    | Err er => (w, Err er)
    | Ok (PrePlan ua unit sym) =>
        match pre_run cwd ua (match ua with (_, v) :: _ => v | [] => VNone end) unit sym w with
        | (w', None) => (w', Ok None)
        | (w', Some er) => (w', Err er)
        end
    | Ok (PostPlan ua sym unit super ff _ _ _ _) =>
        (w, let! x := post_run cwd ua sym unit super ff w in Ok (Some x))
    end.
End Run.
