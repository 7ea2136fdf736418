(** Text layer shared by InterPhon/inout/{vasp,espresso,aims}.py: float
    formatting, file reading, numpy.asfarray on token lists, and the tuple that
    every read_input_lines returns. *)
From Coq Require Import String Ascii ZArith QArith Qcanon Bool Lia Arith List.
From Verif Require Import Base Dec Field Cell.
Import ListNotations.
Local Open Scope list_scope.
Local Open Scope nat_scope.

(** the character written by vasp.py 122-156, espresso.py 144-185, aims.py 127-144. *)
Definition nl : ascii := "010"%char.

(** "{:.16f}".format(x): sign, integer part, point, 16 decimals; the exact value
    is rounded half-to-even.  (Simplified: x is an exact rational; CPython formats
    the exact value of the binary64 in the same way.  Non-finite floats are not
    modelled; a negative number rounding to zero prints "-0.000..." as here.) *)
(** part of the format used at vasp.py 125, 148, 151, 155. *)
Definition round_half_even (n d : Z) : Z :=
  let q := (n / d)%Z in
  let r := (n mod d)%Z in
  if (2 * r <? d)%Z then q
  else if (d <? 2 * r)%Z then (q + 1)%Z
  else if Z.even q then q else (q + 1)%Z.

(** vasp.py 125: sixteen decimals. *)
Definition ten16 : Z := 10000000000000000%Z.

(** part of the format used at vasp.py 125. *)
Definition fmt16_unsigned (m : Z) : string :=   (* m in units of 1e-16 *)
  (nat_digits (m / ten16) ++ String "." (fix_digits 16 (m mod ten16) ""))%string.

(** vasp.py 125 (and every other coordinate line): '{:.16f}'. *)
Definition fmt16 (x : Qc) : string :=
  let n := Qnum (this x) in
  let d := Zpos (Qden (this x)) in
  let m := round_half_even (Z.abs n * ten16) d in
  if (n <? 0)%Z then String "-" (fmt16_unsigned m) else fmt16_unsigned m.

(** part of the format used at vasp.py 125. *)
Fixpoint spaces (n : nat) : string := match n with O => EmptyString | S k => String " " (spaces k) end.
(** right alignment in a field of 20 ("{:>20.16f}" and "{:20.16f}" for numbers). *)
(** vasp.py 125: '>20'. *)
Definition pad20 (s : string) : string := (spaces (20 - String.length s) ++ s)%string.

(** "{0:>20.16f}  {1:>20.16f}  {2:20.16f}" *)
(** vasp.py 125, 148, 151, 155; espresso.py 169-183; aims.py 127-143. *)
Definition fmt_row (v : v3 Qc) : string :=
  (pad20 (fmt16 (vx v)) ++ "  " ++ pad20 (fmt16 (vy v)) ++ "  " ++ pad20 (fmt16 (vz v)))%string.

(** outfile.write("".join(lines)) when every element ends with a newline. *)
(** unit_cell.py 302, 307, 312. *)
Definition to_text (ls : list string) : string := String.concat "" (map (fun l => (l ++ String nl "")%string) ls).

(** infile.readlines(): lines keep their newline.  (Universal-newline
    translation of carriage returns is not modelled.) *)
(** vasp.py 17, 175; espresso.py 17, 204; aims.py 16, 164. *)
Fixpoint readlines (s : string) : list string :=
  match s with
  | EmptyString => []
  | String c r =>
      if Ascii.eqb c nl then String c EmptyString :: readlines r
      else match readlines r with
           | [] => [String c EmptyString]
           | l :: ls => String c l :: ls
           end
  end.

(** numpy.asfarray on a list of token lists: every token must be a float
    literal and the rows must have equal lengths (ValueError otherwise). *)
(** one row of np.asfarray, vasp.py 25, 44, 199. *)
Definition parse_row (ts : list string) : result (list Qc) :=
  mapM (fun t => of_option EValue (parse_float t)) ts.
(** np.asfarray, vasp.py 25: rows of one length. *)
Definition rectangular {A} (rows : list (list A)) : bool :=
  match rows with [] => true | r :: rs => forallb (fun x => Nat.eqb (length x) (length r)) rs end.
(** vasp.py 25, 44, 48, 199, 215; espresso.py 57, 87, 225; aims.py 22, 67, 185. *)
Definition asfarray (rows : list (list string)) : result (list (list Qc)) :=
  let! m := mapM parse_row rows in
  if rectangular m then Ok m else Err EValue.

(** vasp.py 25, 199, 215; espresso.py 225; aims.py 185: multiplication by a number. *)
Definition scale_rows (k : Qc) (m : list (list Qc)) : list (list Qc) := map (map (fun x => Qcmult x k)) m.

(** Python slices l[a:b], a >= 0, b any integer. *)
(** vasp.py 25, 39, 54, 198, 214; espresso.py 57, 63, 224; aims.py 184. *)
Definition py_slice {A} (l : list A) (a : nat) (b : Z) : list A :=
  let n := Z.of_nat (length l) in
  let b' := if (b <? 0)%Z then Z.max 0 (n + b) else b in
  firstn (Z.to_nat (b' - Z.of_nat a)) (skipn a l).

(** tokens[a:b] *)
(** vasp.py 25, 43, 199, 215; espresso.py 57, 65, 225; aims.py 22, 38, 185. *)
Definition tslice (a b : nat) (l : list string) : list string := firstn (b - a) (skipn a l).

(** [ind_T for ind_T in true for _ in range(3)] *)
(** vasp.py 103-105, espresso.py 125-127, aims.py 105-107. *)
Definition xyz_of (tr : list nat) : list nat := flat_map (fun i => [i; i; i]) tr.

(** The tuple returned by every read_input_lines (vasp.py 107, espresso.py 129,
    aims.py 109). *)
Record rd : Type := mkRd {
  rd_lat : list (list Qc); rd_type : list string; rd_num : list Z; rd_sel : bool;
  rd_coord : string; rd_cart : list (list Qc); rd_true : list nat; rd_xyz : list nat }.

(** unit_cell.py 245-286 [read_unit_cell]: initialization, then the reader, then
    the eight assignments from left to right through the property setters.  The
    object is returned together with the pending exception, if any. *)
Definition rd_ops (r : rd) : list (cell_op Qc) :=
  [OpLattice (rd_lat r); OpType (rd_type r); OpNum (rd_num r); OpSelective (rd_sel r);
   OpCoord (rd_coord r); OpCart (rd_cart r); OpTrue (map Z.of_nat (rd_true r)); OpXyz (map Z.of_nat (rd_xyz r))].
(** unit_cell.py 257-264: tuple assignment through the setters. *)
Fixpoint assign_all (c : cell Qc) (ops : list (cell_op Qc)) : cell Qc * option err :=
  match ops with
  | [] => (c, None)
  | o :: os => match run_op c o with
               | Ok c' => assign_all c' os
               | Err e => (c, Some e)
               end
  end.
(** unit_cell.py 255-284 for one code. *)
Definition read_unit_cell (reader : list string -> result rd) (before : cell Qc) (text : string) : cell Qc * option err :=
  match reader (readlines text) with
  | Ok r => assign_all cell_init (rd_ops r)
  | Err e => (cell_init, Some e)
  end.

(** Run-length counting of consecutive equal types (espresso.py 78-91, aims.py
    58-71): variables pre_atom, num and the list of finished counts. *)
Fixpoint run_lengths_from (pre : option string) (num : Z) (l : list string) : list Z :=
  match l with
  | [] => [num]
  | a :: r =>
      match pre with
      | Some p => if String.eqb a p then run_lengths_from pre (num + 1) r
                  else if (num =? 0)%Z then run_lengths_from (Some a) 1 r
                       else num :: run_lengths_from (Some a) 1 r
      | None => if (num =? 0)%Z then run_lengths_from (Some a) 1 r
                else num :: run_lengths_from (Some a) 1 r
      end
  end.
(** espresso.py 71-84, aims.py 51-64. *)
Definition run_lengths (l : list string) : list Z := run_lengths_from None 0 l.

(** first index whose line satisfies p *)
(** vasp.py 188-191, 204-207; espresso.py 214-217; aims.py 174-177. *)
Fixpoint find_line (p : string -> bool) (ls : list string) : option nat :=
  match ls with
  | [] => None
  | l :: r => if p l then Some 0 else option_map S (find_line p r)
  end.

(** * Structure files *)

(** _lines[k].split()[0][0] *)
(** vasp.py 37, 41, 46, 56, 61. *)
Definition first_char (ls : list string) (k : nat) : result ascii :=
  let! l := py_nth ls k in
  match split_ws l with
  | String c _ :: _ => Ok c
  | _ => Err EIndex
  end.
(** vasp.py 37, 41, 46, 56, 61: membership in the tuple of letters. *)
Definition char_in (c : ascii) (l : list ascii) : bool := existsb (Ascii.eqb c) l.

(** numpy.dot(atom_direct, lattice): (n,3) x (3,3), ValueError otherwise (an
    empty position list has shape (0,)). *)
(** vasp.py 45, 60. *)
Definition dot_rows (m : list (list Qc)) (lat : list (list Qc)) : result (list (list Qc)) :=
  match m, rows3 m, mat33 lat with
  | _ :: _, Some p, Some L => Ok (map (fun v => let w := vmul v L in [vx w; vy w; vz w]) p)
  | _, _, _ => Err EValue
  end.

(** vasp.py 23-107 [read_input_lines]. *)
Definition vasp_coords (ls : list string) (k : nat) (lat : list (list Qc)) (pos : list string) : result (string * list (list Qc)) :=
  let! c := first_char ls k in
  let toks := map (fun p => tslice 0 3 (split_ws p)) pos in
  if char_in c ["D"; "d"]%char then
    let! m := asfarray toks in
    let! cart := dot_rows m lat in
    Ok ("direct"%string, cart)
  else if char_in c ["C"; "c"; "K"; "k"]%char then
    let! m := asfarray toks in Ok ("cartesian"%string, m)
  else Err EUnbound.

(** vasp.py 32-34. *)
Definition vasp_types (ls : list string) (num : list Z) : result (list string) :=
  let! rows := mapM (fun '(i, n) =>
      mapM (fun _ => let! l := py_nth ls 5 in py_nth (split_ws l) i) (repeat tt (Z.to_nat n))) (enumerate num) in
  Ok (concat rows).

(* the index list [i for i, v in enumerate(pos) if p v] *)
(** vasp.py 50, espresso.py 66-69. *)
Definition indices_where (p : string -> bool) (pos : list string) : list nat :=
  map fst (filter (fun iv => p (snd iv)) (enumerate pos)).

(** vasp.py 23-107 [read_input_lines]. *)
Definition vasp_read (ls : list string) : result rd :=
  let! l1 := py_nth ls 1 in
  let! t := py_nth (split_ws l1) 0 in
  let! ratio := of_option EValue (parse_float t) in
  let! lat0 := asfarray (map (fun l => tslice 0 3 (split_ws l)) (py_slice ls 2 5)) in
  let lat := scale_rows ratio lat0 in
  let! l6 := py_nth ls 6 in
  let! num := mapM (fun w => of_option EValue (parse_int w)) (split_ws l6) in
  let total := fold_left Z.add num 0%Z in
  let! ty := vasp_types ls num in
  let! c7 := first_char ls 7 in
  if char_in c7 ["S"; "s"]%char then
    let pos := py_slice ls 9 (9 + total) in
    let! (coord, cart) := vasp_coords ls 8 lat pos in
    let tr := indices_where (fun v => mem_string "T" (split_ws v)) pos in
    Ok (mkRd lat ty num true coord cart tr (xyz_of tr))
  else
    let pos := py_slice ls 8 (8 + total) in
    let! (coord, cart) := vasp_coords ls 7 lat pos in
    let tr := seq 0 (length pos) in
    Ok (mkRd lat ty num false coord cart tr (xyz_of tr)).

(** "sep".join(l) is String.concat. *)

(** vasp.py 122-158 [write_input_lines]; the lines without their newline.  The
    cell must have lattice, types, counts, positions ([EType]: None subscripted or
    iterated) and, if selective, a selection. *)
Fixpoint vasp_group_types (ty : list string) (off : Z) (num : list Z) : result (list string) :=
  match num with
  | [] | [_] => Ok []
  | n :: rest => let! t := of_option EIndex (if (off + n <? 0)%Z then None else nth_error ty (Z.to_nat (off + n))) in
                 let! ts := vasp_group_types ty (off + n) rest in
                 Ok (t :: ts)
  end.
(* (Simplified: negative running offsets, which Python would take from the end of
   the list, are an error here; counts are never negative in written cells.) *)

(** vasp.py 148. *)
Definition row_T : string := "   T   T   T".
(** vasp.py 151. *)
Definition row_F : string := "   F   F   F".
(** vasp.py 147, espresso.py 175, aims.py 133. *)
Definition in_sel (tr : list Z) (i : nat) : bool := existsb (Z.eqb (Z.of_nat i)) tr.

(** vasp.py 122-158 [write_input_lines]. *)
Definition vasp_write (c : cell Qc) (comment : string) : result (list string) :=
  let! L := of_option EType (c_lat c) in
  let! ty := of_option EType (c_type c) in
  let! t0 := py_nth ty 0 in
  let! num := of_option EType (c_num c) in
  let! ts := vasp_group_types ty 0 num in
  let! pos := of_option EType (c_cart c) in
  let head := [comment; "1.00000000000000"%string]
     ++ map (fun v => (" " ++ fmt_row v)%string) [r1 L; r2 L; r3 L]
     ++ [String.concat "    " (t0 :: ts); String.concat "    " (map z_string num)] in
  if c_sel c then
    let! rows := mapM (fun '(i, v) =>
        let! tr := of_option EType (c_true c) in
        Ok (" " ++ fmt_row v ++ (if in_sel tr i then row_T else row_F))%string) (enumerate pos) in
    Ok (head ++ ["Selective dynamics"; "Cartesian"]%string ++ rows)
  else
    Ok (head ++ ["Cartesian"%string] ++ map (fun v => (" " ++ fmt_row v)%string) pos).

(** espresso.py 144-187 [write_input_lines].  [species] is the iteration order of
    set(atom_type) (arbitrary), [wt] the text of get_atomic_weight(atom). *)
Definition qe_field (key val : string) : string :=
  ("    " ++ key ++ spaces (20 - String.length key) ++ " = " ++ val)%string.
(** espresso.py 162. *)
Definition species_line (wt : string -> string) (a : string) : string :=
  (a ++ " " ++ wt a ++ " " ++ a ++ "_dummy.URF")%string.
(** espresso.py 179. *)
Definition row_0 : string := "   0 0 0".

(** espresso.py 144-187 [write_input_lines]. *)
Definition espresso_write (species : list string) (wt : string -> string) (c : cell Qc) : result (list string) :=
  let! ty := of_option EType (c_type c) in
  let! L := of_option EType (c_lat c) in
  let head := ["&CONTROL"; "/"; "&SYSTEM";
     qe_field "ntyp" (z_string (Z.of_nat (length species)));
     qe_field "nat" (z_string (Z.of_nat (length ty)));
     qe_field "ibrav" "0"; "/"; "&ELECTRONS"; "/"; "&IONS"; "/"; "&CELL"; "/"; ""; "ATOMIC_SPECIES"]%string
     ++ map (species_line wt) species ++ [""; "K_POINTS gamma"; ""; "CELL_PARAMETERS angstrom"]%string
     ++ map (fun v => (" " ++ fmt_row v)%string) [r1 L; r2 L; r3 L] ++ [""; "ATOMIC_POSITIONS angstrom"]%string in
  let! pos := of_option EType (c_cart c) in
  let! rows := mapM (fun '(i, (a, v)) =>
      if c_sel c then
        let! tr := of_option EType (c_true c) in
        Ok (a ++ " " ++ fmt_row v ++ (if in_sel tr i then "" else row_0))%string
      else Ok (a ++ " " ++ fmt_row v)%string) (enumerate (combine ty pos)) in
  Ok (head ++ rows).

(** espresso.py 23-129 [read_input_lines].  The scan keeps the last index of each
    tag; the tests form an if/elif chain. *)
Record qe_scan : Type := mkScan { q_nat : option Z; q_lat : option nat; q_pos : option nat }.
(** espresso.py 27-33. *)
Fixpoint qe_scan_lines (i : nat) (st : qe_scan) (ls : list string) : result qe_scan :=
  match ls with
  | [] => Ok st
  | l :: r =>
      if contains "nat" l then
        let! w := py_nth (split_ws l) 2 in
        let! z := of_option EValue (parse_int w) in
        qe_scan_lines (S i) (mkScan (Some z) (q_lat st) (q_pos st)) r
      else if contains "CELL_PARAMETERS" l then qe_scan_lines (S i) (mkScan (q_nat st) (Some i) (q_pos st)) r
      else if contains "ATOMIC_POSITIONS" l then qe_scan_lines (S i) (mkScan (q_nat st) (q_lat st) (Some i)) r
      else qe_scan_lines (S i) st r
  end.
(** espresso.py 45-55. *)
Fixpoint blank_prefix (ls : list string) : nat :=
  match ls with
  | l :: r => if String.eqb l (String nl "") then S (blank_prefix r) else 0
  | [] => 0
  end.

(** espresso.py 23-129 [read_input_lines]. *)
Definition espresso_read (ls : list string) : result rd :=
  let! st := qe_scan_lines 0 (mkScan None None None) ls in
  match q_nat st, q_lat st, q_pos st with
  | Some total, Some li0, Some pi0 =>
      let li := li0 + blank_prefix (skipn (li0 + 1) ls) in
      let pi := pi0 + blank_prefix (skipn (pi0 + 1) ls) in
      let! lat := asfarray (map (fun l => tslice 0 3 (split_ws l)) (py_slice ls (li + 1) (Z.of_nat li + 4))) in
      let pos := py_slice ls (pi + 1) (Z.of_nat pi + 1 + total) in
      let! ty := mapM (fun l => py_nth (split_ws l) 0) pos in
      let! cart := asfarray (map (fun l => tslice 1 4 (split_ws l)) pos) in
      let tr := indices_where (fun l => negb (mem_string "0" (split_ws l))) pos in
      let sel := existsb (fun l => mem_string "0" (split_ws l)) pos in
      Ok (mkRd lat ty (run_lengths ty) sel "cartesian" cart tr (xyz_of tr))
  | _, _, _ => Err EAssert
  end.

(** aims.py 124-147 [write_input_lines] (the comment is not written). *)
Definition aims_constrain : string := "    constrain_relaxation .true.".
(** aims.py 124-147 [write_input_lines]. *)
Definition aims_write (c : cell Qc) : result (list string) :=
  let! L := of_option EType (c_lat c) in
  let head := map (fun v => ("lattice_vector " ++ fmt_row v)%string) [r1 L; r2 L; r3 L] in
  let! ty := of_option EType (c_type c) in
  let! pos := of_option EType (c_cart c) in
  let! rows := mapM (fun '(i, (a, v)) =>
      let l := ("atom " ++ fmt_row v ++ " " ++ a)%string in
      if c_sel c then
        let! tr := of_option EType (c_true c) in
        Ok (if in_sel tr i then [l] else [l; aims_constrain])
      else Ok [l]) (enumerate (combine ty pos)) in
  Ok (head ++ concat rows).

(** aims.py 22-109 [read_input_lines]: one pass over the lines; a constraint is
    looked for on the atom line and on the next line (IndexError at the end of
    the file is caught). *)
Definition aims_tag : string := "constrain_relaxation .true.".
(** aims.py 30-49. *)
Fixpoint aims_atoms (ls : list string) : result (list (string * list string * bool)) :=
  match ls with
  | [] => Ok []
  | l :: r =>
      if mem_string "atom" (split_ws l) then
        let! t := py_nth (split_ws l) 4 in
        let fixed := (contains aims_tag l || match r with l2 :: _ => contains aims_tag l2 | [] => false end)%bool in
        let! rest := aims_atoms r in
        Ok ((t, tslice 1 4 (split_ws l), fixed) :: rest)
      else aims_atoms r
  end.
(** aims.py 22-109 [read_input_lines]. *)
Definition aims_read (ls : list string) : result rd :=
  let! lat := asfarray (map (fun l => tslice 1 4 (split_ws l)) (filter (fun l => mem_string "lattice_vector" (split_ws l)) ls)) in
  let! atoms := aims_atoms ls in
  let ty := map (fun a => fst (fst a)) atoms in
  let! cart := asfarray (map (fun a => snd (fst a)) atoms) in
  let tr := map fst (filter (fun ia => negb (snd (snd ia))) (enumerate atoms)) in
  let sel := existsb (fun a => snd a) atoms in
  Ok (mkRd lat ty (run_lengths ty) sel "cartesian" cart tr (xyz_of tr)).

(** * Force files *)

(** exact values of the unit factors *)
(** decimal literals of vasp.py 182, espresso.py 210, aims.py 170. *)
Definition q_dec (m : Z) (e : Z) : Qc := scale10 m e.
(** (1.602 * 10**(-19)) / 10**(-10): vasp.py 182, aims.py 170 *)
Definition ev_ang : Qc := Qcdiv (q_dec 1602 (-22)) (q_dec 1 (-10)).
(** (13.605662 * 1.602 * 10**(-19)) / (0.529177 * 10**(-10)): espresso.py 210 *)
Definition ry_au : Qc := Qcdiv (Qcmult (q_dec 13605662 (-6)) (q_dec 1602 (-22))) (Qcmult (q_dec 529177 (-6)) (q_dec 1 (-10))).

(** vasp.py 183-199, 204-215; espresso.py 211-225; aims.py 171-185. *)
Definition force_block (tag : string) (skip c0 c1 : nat) (factor : Qc) (ls : list string) (n : nat) : result (list (list Qc)) :=
  match find_line (contains tag) ls with
  | None => Err EAssert
  | Some k =>
      let! m := asfarray (map (fun l => tslice c0 c1 (split_ws l)) (py_slice ls (k + skip) (Z.of_nat (k + skip + n)))) in
      Ok (scale_rows factor m)
  end.

(** vasp.py 173-217 [read_output_lines]; [fname] is the last path component; any
    other name leaves the result variable unbound. *)
Definition vasp_forces (fname : string) (ls : list string) (n : nat) : result (list (list Qc)) :=
  if String.eqb fname "vasprun.xml" then force_block "forces" 1 1 4 ev_ang ls n
  else if String.eqb fname "OUTCAR" then force_block "TOTAL-FORCE" 2 3 6 ev_ang ls n
  else Err EUnbound.
(** espresso.py 202-227. *)
Definition espresso_forces (ls : list string) (n : nat) := force_block "Forces acting on atoms" 2 6 9 ry_au ls n.
(** aims.py 162-187. *)
Definition aims_forces (ls : list string) (n : nat) := force_block "Total atomic forces" 1 2 5 ev_ang ls n.
