(** Model of the command line declared in InterPhon/interphon.py 116-298 and of what click does
    with it: which word sets which variable of main(), with which conversion and default.
    Simplifications: of click only the parsing of words, the conversion of values, the defaults
    and --help are modelled (click's OptionParser and its types STRING, INT, FLOAT, Choice,
    Path(exists=True)); every usage error is the same outcome (message and exit code 2). *)
From Coq Require Import String Ascii ZArith QArith Qcanon Bool Lia Arith List.
From Verif Require Import Base Dec Field Cell Args Force Text Cli Run.
Import ListNotations.
Local Open Scope list_scope.
Local Open Scope nat_scope.

(** The type= of an option, interphon.py 119-298. *)
Inductive ptype : Type := TStr | TFloat | TInt | TChoice (l : list string) | TPath.
(** One @click.option: an option with a value, or a flag with an optional opposite
    (interphon.py 124-127, 179-183). *)
Inductive decl : Type :=
| Valued (flags : list string) (param : string) (t : ptype) (default : pyval)
| Switch (on off : list string) (param : string) (default : bool).
(** interphon.py 121-298, in order. *)
Definition declarations : list decl :=
  [ Valued ["--option_file"; "-option"] "option_file" TPath VNone;
    Switch ["--preprocess"; "-pre"] ["--postprocess"; "-post"] "process" true;
    Switch ["--symmetry_on"; "-sym_on"] ["--symmetry_off"; "-sym_off"] "sym" true;
    Valued ["--dft_code"; "-dft"] "dft" (TChoice ["vasp"; "espresso"; "aims"]) (VStr "vasp");
    Valued ["--displacement"; "-disp"] "displacement" TStr (VStr "0.02");
    Valued ["--enlargement"; "-enlarge"] "enlargement" TStr (VStr "2 2 1");
    Valued ["--periodicity"; "-pbc"] "periodicity" TStr (VStr "1 1 0");
    Valued ["--unitcell"; "-c"] "unitcell" TPath (VStr "POSCAR");
    Valued ["--supercell"; "-sc"] "supercell" TPath VNone;
    Switch ["--density_of_state"; "-dos"] [] "dos" false;
    Valued ["--kpoint_dos"; "-kdos"] "kpoint_dos" TPath VNone;
    Valued ["--sigma"; "-sig"] "sigma" TFloat (VFloat (Q2Qc (1 # 10)));
    Valued ["--number_dos"; "-ndos"] "num_dos" TInt (VInt 200);
    Valued ["--projection_atom_dos"; "-atom_dos"] "atom_dos" TStr VNone;
    Valued ["--projection_legend_dos"; "-legend_dos"] "legend_dos" TStr VNone;
    Valued ["--energy_limit"; "-elimit"] "elimit" TStr VNone;
    Valued ["--tdos_color_dos"; "-color_dos"] "color_dos" TStr (VStr "tab:orange");
    Valued ["--projection_option_dos"; "-option_dos"] "option_dos" (TChoice ["plain"; "line"; "stack"]) (VStr "plain");
    Valued ["--image_orientation_dos"; "-orientation_dos"] "orientation_dos" (TChoice ["horizontal"; "vertical"]) (VStr "horizontal");
    Valued ["--legend_location_dos"; "-legend_loc_dos"] "legend_loc_dos"
      (TChoice ["best"; "upper right"; "upper left"; "lower left"; "lower right"; "right"; "center left"; "center right"; "lower center"; "upper center"; "center"]) (VStr "best");
    Switch ["--thermal_property"; "-thermal"] [] "thermal" false;
    Valued ["--temperature_minimum"; "-tmin"] "tmin" TInt (VInt 0);
    Valued ["--temperature_maximum"; "-tmax"] "tmax" TInt (VInt 1000);
    Valued ["--temperature_step"; "-tstep"] "tstep" TInt (VInt 10);
    Switch ["--phonon_band"; "-band"] [] "band" false;
    Valued ["--kpoint_band"; "-kband"] "kpoint_band" TPath VNone;
    Valued ["--kpoint_label_band"; "-k_label_band"] "k_label_band" TStr VNone;
    Valued ["--projection_atom_band"; "-atom_band"] "atom_band" TStr VNone;
    Valued ["--total_color_band"; "-color_band"] "color_band" TStr (VStr "tab:orange");
    Valued ["--projection_option_band"; "-option_band"] "option_band" (TChoice ["plain"; "projection"]) (VStr "plain");
    Valued ["--colorbar_label_band"; "-bar_label_band"] "bar_label_band" TStr VNone;
    Valued ["--colorbar_location_band"; "-bar_loc_band"] "bar_loc_band" (TChoice ["right"; "bottom"]) (VStr "right");
    Switch ["--phonon_mode"; "-mode"] [] "mode" false;
    Valued ["--index_mode"; "-ind_mode"] "ind_mode" TStr (VStr "0");
    Valued ["--k_point_mode"; "-kpt_mode"] "kpt_mode" TStr (VStr "0.0 0.0 0.0");
    Switch ["--displacement_mode"; "-disp_mode"] [] "disp_mode" false;
    Valued ["--displacement_amplitude_mode"; "-disp_amp_mode"] "disp_amp_mode" TFloat (VFloat (Q2Qc 1)) ]%string.

(** What a flag stands for: the next word is the value, or a constant (--help included).
    interphon.py 116-298; click's OptionParser.add_option. *)
Inductive flag : Type := Takes (param : string) | Puts (param : string) (b : bool) | Help.
(** the flags of one declaration: interphon.py 121-298. *)
Definition decl_flags (d : decl) : list (string * flag) :=
  match d with
  | Valued fs p _ _ => map (fun f => (f, Takes p)) fs
  | Switch on off p _ => map (fun f => (f, Puts p true)) on ++ map (fun f => (f, Puts p false)) off
  end.
(** all flags of interphon.py 116-298; the parser's dictionaries keep the last one. *)
Definition flags : list (string * flag) := rev (concat (map decl_flags declarations) ++ [("--help"%string, Help)]).
(** A flag of one dash and one letter is a short one, all others are long (click); the flags
    of interphon.py 116-298. *)
Definition is_short (f : string) : bool := match f with String "-" (String c EmptyString) => negb (Ascii.eqb c "-") | _ => false end.
(** click's dictionary of long flags, interphon.py 116-298. *)
Definition find_long (f : string) : option flag :=
  option_map snd (find (fun kv => String.eqb (fst kv) f) (filter (fun kv => negb (is_short (fst kv))) flags)).
(** click's dictionary of short flags, interphon.py 116-298. *)
Definition find_short (f : string) : option flag :=
  option_map snd (find (fun kv => String.eqb (fst kv) f) (filter (fun kv => is_short (fst kv)) flags)).

(** arg.split("=", 1) (click; the words of interphon.py 116-298). *)
Fixpoint cut_eq (s : string) : string * option string :=
  match s with
  | EmptyString => (EmptyString, None)
  | String c r => if Ascii.eqb c "=" then (EmptyString, Some r) else let (a, b) := cut_eq r in (String c a, b)
  end.

(** One setting found among the words. *)
(** interphon.py 116-298: raw values by variable. *)
Inductive setting : Type := Given (param text : string) | Const (param : string) (b : bool) | AskHelp.

(** What one word means before the words after it are seen (click's _process_opts,
    _match_long_opt, _match_short_opt; flags of interphon.py 116-298). *)
Inductive word : Type := WStop | WFile | WNext (param : string) | WSet (s : setting) | WBad.
(** click's _process_args_for_options on one word (flags of interphon.py 116-298).  The only
    short flag, -c, takes a value, so further letters of the word are that value. *)
Definition read_word (w : string) : word :=
  match w with
  | String "-" (String c r) =>
      if String.eqb w "--" then WStop
      else let (f, v) := cut_eq w in
           match find_long f, v with
           | Some (Takes p), None => WNext p
           | Some (Takes p), Some t => WSet (Given p t)
           | Some (Puts p b), None => WSet (Const p b)
           | Some Help, None => WSet AskHelp
           | Some _, Some _ => WBad
           | None, _ =>
               if Ascii.eqb c "-" then WBad
               else match find_short (String "-" (String c EmptyString)), r with
                    | Some (Takes p), EmptyString => WNext p
                    | Some (Takes p), _ => WSet (Given p r)
                    | Some (Puts p b), EmptyString => WSet (Const p b)
                    | _, _ => WBad
                    end
           end
  | _ => WFile
  end.
(** click's loop over the words: settings in order and positional words in order; [None]:
    usage error (flags of interphon.py 116-298; nargs=-1 of 117-120 takes all positionals). *)
Fixpoint read_words (ws : list string) : option (list setting * list string) :=
  match ws with
  | [] => Some ([], [])
  | w :: r =>
      match read_word w with
      | WStop => Some ([], r)
      | WFile => match read_words r with Some (s, fs) => Some (s, w :: fs) | None => None end
      | WSet s => match read_words r with Some (ss, fs) => Some (s :: ss, fs) | None => None end
      | WNext p => match r with
                   | v :: r' => match read_words r' with Some (ss, fs) => Some (Given p v :: ss, fs) | None => None end
                   | [] => None
                   end
      | WBad => None
      end
  end.

(** Path(exists=True) needs the file system; [exists_ s]: os.stat succeeds. *)
Section Command.
  Variable exists_ : string -> bool.

  (** The conversion of a given text (click's types; interphon.py 119-298). *)
  Definition convert_text (t : ptype) (s : string) : option pyval :=
    match t with
    | TStr => Some (VStr s)
    | TFloat => option_map VFloat (parse_float s)
    | TInt => option_map VInt (parse_int s)
    | TChoice l => if mem_string s l then Some (VStr s) else None
    | TPath => if exists_ s then Some (VStr s) else None
    end.
  (** click converts defaults as well: a default that is text goes through the type
      (interphon.py 160-164: POSCAR must exist). *)
  Definition convert_default (t : ptype) (v : pyval) : option pyval :=
    match v with VStr s => convert_text t s | _ => Some v end.
  (** The last setting of a variable wins; interphon.py 116-298. *)
  Definition last_setting (ss : list setting) (p : string) : option setting :=
    find (fun s => match s with Given q _ | Const q _ => String.eqb q p | AskHelp => false end) (rev ss).
  (** The value of one option; interphon.py 116-298. *)
  Definition decl_value (ss : list setting) (d : decl) : option (string * pyval) :=
    match d with
    | Valued _ p t dv =>
        option_map (fun v => (p, v)) (match last_setting ss p with Some (Given _ s) => convert_text t s | _ => convert_default t dv end)
    | Switch _ _ p db =>
        Some (p, match last_setting ss p with Some (Const _ b) => VInt (if b then 1 else 0) | _ => VInt (if db then 1 else 0) end)
    end.
  (** interphon.py 116-306, all or nothing: click stops at the first conversion that fails. *)
  Fixpoint all_values (ss : list setting) (ds : list decl) : option (list (string * pyval)) :=
    match ds with
    | [] => Some []
    | d :: r => match decl_value ss d, all_values ss r with Some x, Some xs => Some (x :: xs) | _, _ => None end
    end.

  (** The keyword arguments of main(), interphon.py 300-306. *)
  Definition env_of (l : list (string * pyval)) : env :=
    fun x => match find (fun kv => String.eqb (fst kv) x) l with Some kv => snd kv | None => VNone end.
  (** How the command ends: a usage error, the help text, or a call of main()
      (interphon.py 116-306). *)
  Inductive outcome : Type := Usage | HelpShown | Call (e : env) (force_files : list string).
  (** interphon.py 116-306: the decorated main. *)
  Definition command (argv : list string) : outcome :=
    match read_words argv with
    | None => Usage
    | Some (ss, fs) =>
        if existsb (fun s => match s with AskHelp => true | _ => false end) ss then HelpShown
        else match all_values ss declarations with
             | None => Usage
             | Some l => Call (env_of l) fs
             end
    end.
End Command.

(** The program from its words to its end: click, the option file, main(). *)
Section Program.
  (** as in Run.v: espresso.py 158-162, pre_process.py 144-157, post_process.py 111-172, interphon.py 510 *)
  Variable species : cell Qc -> list string.
  Variable wt : string -> string.
  Variable search : cell Qc -> cell Qc -> args -> result (option (string * list (nat * (v3 Qc * list (v3 Qc))))).
  Variable sym_forces : cell Qc -> cell Qc -> args -> (string -> result (list (v3 Qc))) -> list string -> fmat Qc * option err.
  Variable glob : string -> list string.
  (** os.stat of a path; simplification: directories do not exist (interphon.py 119-298). *)
  Definition file_exists (cwd : path) (w : world) (s : string) : bool := match w_file w (resolve cwd s) with Some _ => true | None => false end.
  (** interphon.py 307-309: the lines of the option file. *)
  Definition option_lines (cwd : path) (w : world) (e : env) : result (option (list string)) :=
    match e "option_file"%string with
    | VStr s => let! t := of_option EIO (w_file w (resolve cwd s)) in Ok (Some (readlines t))
    | _ => Ok None
    end.
  (** interphon.py 116-910; [None]: a usage error or the help text, main() is not called. *)
  Definition program (cwd : path) (argv : list string) (w : world) : world * option (result (option prepared)) :=
    match command (file_exists cwd w) argv with
    | Call e ff =>
        match option_lines cwd w e with
        | Err er => (w, Some (Err er))
        | Ok file => let (w', r) := main_run species wt search sym_forces glob cwd e file ff w in (w', Some r)
        end
    | _ => (w, None)
    end.
End Program.
