(** Model of the command line program, InterPhon/interphon.py 300-638 and 653-693: the
    option file, the merge with the pre-process record and the decisions made before any
    computation.  The variables that click fills (116-298) are an environment from the
    Python variable name to its value; click's own checks are not modelled.  Paths
    (os.path.abspath, basename) are not modelled: a path is the string given. *)
From Coq Require Import String Ascii ZArith QArith Qcanon Bool Lia Arith List.
From Verif Require Import Base Dec Args Weight.
Import ListNotations.
Local Open Scope list_scope.
Local Open Scope nat_scope.

(** interphon.py 299-306: the variables of main(). *)
Definition env : Type := string -> pyval.
(** interphon.py 322-398: assignment to one of them. *)
Definition upd (e : env) (x : string) (v : pyval) : env := fun y => if String.eqb y x then v else e y.

(** str.split(c) with a one-character separator. *)
(** interphon.py 313-316, 546: str.split('#'), split('='), split(','). *)
Fixpoint split_on (c : ascii) (s : string) : list string :=
  match s with
  | EmptyString => [EmptyString]
  | String a r => if Ascii.eqb a c then EmptyString :: split_on c r
                  else match split_on c r with
                       | w :: ws => String a w :: ws
                       | [] => [String a EmptyString]   (* unreachable *)
                       end
  end.

(** interphon.py 313-317: one line of the option file; [None]: the line is skipped. *)
Definition option_line (line : string) : result (option (string * string)) :=
  let! l := py_nth (split_on "#" (strip line)) 0 in
  match l with
  | EmptyString => Ok None
  | _ => let parts := split_on "=" (strip l) in
         let! key := py_nth parts 0 in
         let! value := py_nth parts 1 in
         Ok (Some (lower (strip key), strip value))
  end.
(** d[k] = v on an insertion-ordered dictionary *)
(** interphon.py 317: dictionary assignment. *)
Fixpoint dict_set (d : list (string * string)) (k v : string) : list (string * string) :=
  match d with
  | [] => [(k, v)]
  | (k', v') :: r => if String.eqb k' k then (k, v) :: r else (k', v') :: dict_set r k v
  end.
(** interphon.py 311-317. *)
Fixpoint read_options (d : list (string * string)) (lines : list string) : result (list (string * string)) :=
  match lines with
  | [] => Ok d
  | l :: r => let! o := option_line l in
              read_options (match o with Some (k, v) => dict_set d k v | None => d end) r
  end.

(** How a value is taken over: unchanged, float(value), int(value), or a choice. *)
(** interphon.py 319-398: how a value is checked or converted. *)
Inductive conv : Type := AsStr | AsFloat | AsInt | Choice (l : list string).
(** interphon.py 319-398, the if/elif chain: accepted keys, variable, conversion. *)
Definition option_table : list (list string * string * conv) :=
  [ (["dft"; "dft_code"], "dft", Choice ["vasp"; "espresso"; "aims"]);
    (["displacement"; "disp"], "displacement", AsStr);
    (["enlargement"; "enlarge"], "enlargement", AsStr);
    (["periodicity"; "pbc"], "periodicity", AsStr);
    (["unitcell"; "c"], "unitcell", AsStr);
    (["supercell"; "sc"], "supercell", AsStr);
    (["kpoint_dos"; "kdos"], "kpoint_dos", AsStr);
    (["sigma"; "sig"], "sigma", AsFloat);
    (["number_dos"; "ndos"], "num_dos", AsInt);
    (["projection_atom_dos"; "atom_dos"], "atom_dos", AsStr);
    (["projection_legend_dos"; "legend_dos"], "legend_dos", AsStr);
    (["energy_limit"; "elimit"], "elimit", AsStr);
    (["tdos_color_dos"; "color_dos"], "color_dos", AsStr);
    (["projection_option_dos"; "option_dos"], "option_dos", Choice ["plain"; "line"; "stack"]);
    (["image_orientation_dos"; "orientation_dos"], "orientation_dos", Choice ["horizontal"; "vertical"]);
    (["legend_location_dos"; "legend_loc_dos"], "legend_loc_dos",
       Choice ["best"; "upper right"; "upper left"; "lower left"; "lower right"; "right"; "center left"; "center right"; "lower center"; "upper center"; "center"]);
    (["temperature_minimum"; "tmin"], "tmin", AsInt);
    (["temperature_maximum"; "tmax"], "tmax", AsInt);
    (["temperature_step"; "tstep"], "tstep", AsInt);
    (["kpoint_band"; "kband"], "kpoint_band", AsStr);
    (["kpoint_label_band"; "k_label_band"], "k_label_band", AsStr);
    (["projection_atom_band"; "atom_band"], "atom_band", AsStr);
    (["total_color_band"; "color_band"], "color_band", AsStr);
    (["projection_option_band"; "option_band"], "option_band", Choice ["plain"; "projection"]);
    (["colorbar_label_band"; "bar_label_band"], "bar_label_band", AsStr);
    (["colorbar_location_band"; "bar_loc_band"], "bar_loc_band", Choice ["right"; "bottom"]);
    (["index_mode"; "ind_mode"], "ind_mode", AsStr);
    (["k_point_mode"; "kpt_mode"], "kpt_mode", AsStr);
    (["displacement_amplitude_mode"; "disp_amp_mode"], "disp_amp_mode", AsStr) ]%string.
(** interphon.py 319-398: the conversion of one value. *)
Definition convert (c : conv) (v : string) : result pyval :=
  match c with
  | AsStr => Ok (VStr v)
  | AsFloat => let! q := of_option EValue (parse_float v) in Ok (VFloat q)
  | AsInt => let! z := of_option EValue (parse_int v) in Ok (VInt z)
  | Choice l => if mem_string v l then Ok (VStr v) else Err EExc
  end.
(** interphon.py 319-398: the if/elif chain. *)
Fixpoint find_option (k : string) (t : list (list string * string * conv)) : option (string * conv) :=
  match t with
  | [] => None
  | (ks, x, c) :: r => if mem_string k ks then Some (x, c) else find_option k r
  end.
(** one entry; unknown keys are ignored *)
(** interphon.py 319-398: one key. *)
Definition apply_option (e : env) (kv : string * string) : result env :=
  match find_option (fst kv) option_table with
  | None => Ok e
  | Some (x, c) => let! v := convert c (snd kv) in Ok (upd e x v)
  end.
(** interphon.py 319-398: the loop. *)
Fixpoint apply_options (e : env) (d : list (string * string)) : result env :=
  match d with
  | [] => Ok e
  | kv :: r => let! e' := apply_option e kv in apply_options e' r
  end.
(** interphon.py 307-398; [None]: no option file. *)
Definition with_option_file (e : env) (file : option (list string)) : result env :=
  match file with
  | None => Ok e
  | Some lines => let! d := read_options [] lines in apply_options e d
  end.

(** user_args of 413-416 and 472-475 *)
(** interphon.py 413-416, 472-475. *)
Definition user_args (e : env) : list (string * pyval) :=
  [("dft_code", e "dft"); ("displacement", e "displacement"); ("enlargement", e "enlargement"); ("periodicity", e "periodicity")]%string.

(** pre_process.yaml, 653-693: file names, code, point group (None when the symmetry
    search did not run) and the user arguments.  YAML is read back as it was written. *)
(** interphon.py 684-690: the recorded entries that are read back at 443-470. *)
Record record := mkRecord {
  r_unit : string; r_super : string; r_dft : pyval; r_pg : option string;
  r_disp : pyval; r_enl : string; r_pbc : string }.
(** 653-655 and 684-690, from the argument object of the pre-process; None attributes
    cannot be joined (TypeError). *)
(** interphon.py 654-655: ' '.join([str(_) for _ in ...]). *)
Definition join_ints (l : list Z) : string := String.concat " " (map z_string l).
(** interphon.py 653-655, 684-690. *)
Definition make_record (unit : string) (dft : pyval) (pg : option string) (a : args) : result record :=
  let! enl := of_option EType (a_enl a) in
  let! pbc := of_option EType (a_pbc a) in
  Ok (mkRecord unit "SUPERCELL" dft pg (match a_disp a with Some d => VFloat d | None => VNone end) (join_ints enl) (join_ints pbc)).

(** value == 'text' *)
(** interphon.py 444-469: comparison with a default text. *)
Definition is_str (v : pyval) (s : string) : bool := match v with VStr t => String.eqb t s | _ => false end.
(** interphon.py 448, 456, 487-504, 538: is None. *)
Definition is_none (v : pyval) : bool := match v with VNone => true | _ => false end.
(** interphon.py 400-404, 454: truth value. *)
Definition truthy (v : pyval) : bool := match v with VInt 0 | VNone => false | _ => true end.
(** interphon.py 443-470: values equal to the default are replaced by the recorded ones.
    [merge_sym] is 453-460. *)
Definition put (x : string) (use : bool) (v : pyval) (e : env) : env := if use then upd e x v else e.
(** interphon.py 454-461. *)
Definition merge_sym (r : record) (e : env) : env :=
  let recorded := match r_pg r with Some _ => true | None => false end in
  if truthy (e "sym"%string)
  then (if negb recorded then upd e "sym"%string (VInt 0) else e)
  else (if recorded then upd e "sym"%string (VInt 1) else e).
(** interphon.py 443-470. *)
Definition merge_record (e : env) (r : record) : env :=
  let e := put "unitcell"%string (is_str (e "unitcell"%string) "POSCAR") (VStr (r_unit r)) e in
  let e := put "supercell"%string (is_none (e "supercell"%string)) (VStr (r_super r)) e in
  let e := put "dft"%string (is_str (e "dft"%string) "vasp") (r_dft r) e in
  let e := merge_sym r e in
  let e := put "displacement"%string (is_str (e "displacement"%string) "0.02") (r_disp r) e in
  let e := put "enlargement"%string (is_str (e "enlargement"%string) "2 2 1") (VStr (r_enl r)) e in
  put "periodicity"%string (is_str (e "periodicity"%string) "1 1 0") (VStr (r_pbc r)) e.

(** list.sort() of strings: code-point order. *)
(** interphon.py 511: list.sort(). *)
Fixpoint insert_string (x : string) (l : list string) : list string :=
  match l with
  | [] => [x]
  | y :: r => if (x <=? y)%string then x :: l else y :: insert_string x r
  end.
(** interphon.py 511: list.sort(). *)
Definition sort_strings (l : list string) : list string := fold_right insert_string [] l.

(** range(a, b, c): ValueError for step 0. *)
(** interphon.py 586: range(tmin, tmax, tstep). *)
Definition range3 (a b c : Z) : result (list Z) :=
  if Z.eqb c 0 then Err EValue
  else let n := (if 0 <? c then (b - a + c - 1) / c else (a - b - c - 1) / (- c))%Z in
       Ok (map (fun i => (a + Z.of_nat i * c)%Z) (seq 0 (Z.to_nat n))).

(** interphon.py 546, 575, 610, 619, 630-631: a method of str called on the value. *)
Definition as_str (v : pyval) : result string := match v with VStr s => Ok s | _ => Err EAttr end.
(** interphon.py 586: a range() bound must be an integer. *)
Definition as_int (v : pyval) : result Z := match v with VInt z => Ok z | _ => Err EType end.
(** interphon.py 549, 576, 611, 620, 630: [int(value) for value in text.strip().split()]. *)
Definition ints (s : string) : result (list Z) := mapM (fun w => of_option EValue (parse_int w)) (split_ws (strip s)).

(** The arguments of the four analyses that influence what is computed and written
    (colours, labels and positions of legends are passed through and not modelled). *)
(** interphon.py 531-580: the entries kept (plot options omitted). *)
Record dos_args := mkDosArgs { da_sigma : Qc; da_num : Z; da_option : string; da_atom : option (list (list Z)); da_legend : option (list string); da_elimit : option (list Z) }.
(** interphon.py 591-624: the entries kept (plot options omitted). *)
Record band_args := mkBandArgs { ba_option : string; ba_atom : option (list Z); ba_elimit : option (list Z) }.
(** interphon.py 628-637. *)
Record mode_args := mkModeArgs { ma_index : list Z; ma_k : list Qc; ma_write : bool; ma_amplitude : pyval }.

(** 572-580 / 614-624: "e_min e_max" *)
(** interphon.py 572-580, 614-624. *)
Definition energy_limit (v : pyval) : result (option (list Z)) :=
  match v with
  | VNone => Ok None
  | _ => let! s := as_str v in
         let! l := ints s in
         if Nat.eqb (length l) 2 then Ok (Some l) else Err EExc
  end.
(** interphon.py 530-580 *)
Definition get_dos_args (e : env) : result dos_args :=
  let! sigma := py_float (e "sigma"%string) in
  let! num := py_int (e "num_dos"%string) in
  let! opt := as_str (e "option_dos"%string) in
  let! (atom, opt) :=
    match e "atom_dos"%string with
    | VNone => Ok (None, "plain"%string)
    | v => let! s := as_str v in
           let! l := mapM ints (split_on "," (strip s)) in Ok (Some l, opt)
    end in
  let! legend :=
    match e "legend_dos"%string with
    | VNone => Ok None
    | v => let! s := as_str v in
           let l := map strip (split_on "," (strip s)) in
           if String.eqb opt "plain" then Ok None
           else match atom with
                | None => Err EType
                | Some a => if Nat.eqb (length l) (length a) then Ok (Some l) else Err EExc
                end
    end in
  let! el := energy_limit (e "elimit"%string) in
  Ok (mkDosArgs sigma num opt atom legend el).
(** interphon.py 591-624; when a limit was given and the DOS block ran, its parsed limit is
    used (it cannot be None then). *)
Definition get_band_args (e : env) (d : option dos_args) : result band_args :=
  let! opt := as_str (e "option_band"%string) in
  let! (atom, opt) :=
    match e "atom_band"%string with
    | VNone => Ok (None, "plain"%string)
    | v => let! s := as_str v in let! l := ints s in Ok (Some l, opt)
    end in
  let! el := match d with
             | Some d => match e "elimit"%string with VNone => Ok None | _ => Ok (da_elimit d) end
             | None => energy_limit (e "elimit"%string)
             end in
  Ok (mkBandArgs opt atom el).
(** interphon.py 628-637 *)
Definition get_mode_args (e : env) : result mode_args :=
  let! s := as_str (e "ind_mode"%string) in
  let! ind := ints s in
  let! s := as_str (e "kpt_mode"%string) in
  let! k := mapM (fun w => of_option EValue (parse_float w)) (split_ws (strip s)) in
  if Nat.eqb (length k) 3 then Ok (mkModeArgs ind k (truthy (e "disp_mode"%string)) (e "disp_amp_mode"%string)) else Err EExc.

(** interphon.py 640-790: what is run. *)
Inductive plan : Type :=
| PrePlan (args : list (string * pyval)) (unit : pyval) (sym : bool)
| PostPlan (args : list (string * pyval)) (sym : bool) (unit super : pyval) (forces : list string)
           (dos : option (dos_args * pyval)) (thermal : option (list Z)) (band : option (band_args * pyval)) (mode : option mode_args).

Section Main.
  (** the shell-style expansion of a path, in directory order *)
  Variable glob : string -> list string.
  (** interphon.py 530, 584, 591, 628: if flag. *)
  Definition when {A} (b : bool) (x : result A) : result (option A) := if b then let! a := x in Ok (Some a) else Ok None.

  (** interphon.py 440-638: everything the post-process decides before it starts.  The
      k-point file attached to the DOS or band stage may be None (see [k_file]). *)
  Definition post_plan (e : env) (forces : list string) (r : record) : result plan :=
    let e := merge_record e r in
    let kd := e "kpoint_dos"%string in
    let kb := e "kpoint_band"%string in
    if (is_none kd && is_none kb)%bool then Err EExc
    else
      let dos := (truthy (e "dos"%string) || negb (is_none kd))%bool in
      let band := (truthy (e "band"%string) || negb (is_none kb))%bool in
      let! ff := match forces with
                 | _ :: _ :: _ => Ok forces
                 | _ => let! f := py_nth forces 0 in
                        match sort_strings (glob f) with [] => Err EExc | l => Ok l end
                 end in
      let! da := when dos (get_dos_args e) in
      let! th := when (truthy (e "thermal"%string))
                   (let! t0 := as_int (e "tmin"%string) in let! t1 := as_int (e "tmax"%string) in let! t2 := as_int (e "tstep"%string) in
                    let! l := range3 t0 t1 t2 in
                    if dos then Ok l else Err EKey) in
      let! ba := when band (get_band_args e da) in
      let! ma := when (truthy (e "mode"%string)) (get_mode_args e) in
      Ok (PostPlan (user_args e) (truthy (e "sym"%string)) (e "unitcell"%string) (e "supercell"%string) ff
            (option_map (fun d => (d, kd)) da) th (option_map (fun b => (b, kb)) ba) ma).
  (** 734 / 804: os.path.basename(None) is a TypeError *)
  (** interphon.py 492-501: os.path.abspath of a text. *)
  Definition k_file (v : pyval) : result string := match v with VStr s => Ok s | _ => Err EType end.

  (** interphon.py 300-441: [rec] is the content of pre_process.yaml *)
  Definition main_plan (e : env) (file : option (list string)) (forces : list string) (rec : result record) : result plan :=
    let! e := with_option_file e file in
    let pre := match forces with [] => truthy (e "process"%string) | _ => false end in
    if pre then Ok (PrePlan (user_args e) (e "unitcell"%string) (truthy (e "sym"%string)))
    else let! r := rec in post_plan e forces r.
End Main.

(** The defaults of 116-298. *)
(** interphon.py 116-298: the defaults of the command line options. *)
Definition default_env : env := fun x =>
  match find (fun kv => String.eqb (fst kv) x)
    [ ("process", VInt 1); ("sym", VInt 1); ("dft", VStr "vasp"); ("displacement", VStr "0.02"); ("enlargement", VStr "2 2 1");
      ("periodicity", VStr "1 1 0"); ("unitcell", VStr "POSCAR"); ("dos", VInt 0); ("sigma", VFloat (Q2Qc (1 # 10))); ("num_dos", VInt 200);
      ("option_dos", VStr "plain"); ("thermal", VInt 0); ("tmin", VInt 0); ("tmax", VInt 1000); ("tstep", VInt 10); ("band", VInt 0);
      ("option_band", VStr "plain"); ("mode", VInt 0); ("ind_mode", VStr "0"); ("kpt_mode", VStr "0.0 0.0 0.0"); ("disp_mode", VInt 0);
      ("disp_amp_mode", VFloat (Q2Qc 1)) ]%string with
  | Some kv => snd kv
  | None => VNone
  end.
