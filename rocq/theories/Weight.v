(** Model of InterPhon/util/atomic_weight.py and of UnitCell.set_mass_true
    (InterPhon/core/unit_cell.py 314-320). *)
From Coq Require Import String Ascii ZArith Bool Lia Arith List.
From Verif Require Import Base Field Cell Displace.
Import ListNotations.
Local Open Scope list_scope.
Local Open Scope nat_scope.

(** str.capitalize on ASCII strings: first character upper case, the others lower
    case.  (Other characters are not modelled.) *)
(** part of str.lower(), atomic_weight.py 13. *)
Definition is_upper (c : ascii) : bool := (65 <=? nat_of_ascii c) && (nat_of_ascii c <=? 90).
(** part of str.capitalize(), atomic_weight.py 13. *)
Definition is_lower (c : ascii) : bool := (97 <=? nat_of_ascii c) && (nat_of_ascii c <=? 122).
(** part of str.lower(), atomic_weight.py 13. *)
Definition lower_char (c : ascii) : ascii := if is_upper c then ascii_of_nat (nat_of_ascii c + 32) else c.
(** part of str.capitalize(), atomic_weight.py 13. *)
Definition upper_char (c : ascii) : ascii := if is_lower c then ascii_of_nat (nat_of_ascii c - 32) else c.
(** str.lower(), used by str.capitalize() (atomic_weight.py 13) and interphon.py 317. *)
Fixpoint lower (s : string) : string :=
  match s with EmptyString => EmptyString | String c r => String (lower_char c) (lower r) end.
(** str.capitalize(), atomic_weight.py 13. *)
Definition capitalize (s : string) : string :=
  match s with EmptyString => EmptyString | String c r => String (upper_char c) (lower r) end.

(** atomic_weight.py 24-144, with its header row. *)
Definition periodic_table : list (string * string * string) :=
  [ ("Short_name", "Full_name", "Atomic_number"); ("H", "Hydrogen", "1"); ("He", "Helium", "2"); ("Li", "Lithium", "3");
    ("Be", "Beryllium", "4"); ("B", "Boron", "5"); ("C", "Carbon", "6"); ("N", "Nitrogen", "7");
    ("O", "Oxygen", "8"); ("F", "Fluorine", "9"); ("Ne", "Neon", "10"); ("Na", "Sodium", "11");
    ("Mg", "Magnesium", "12"); ("Al", "Aluminium", "13"); ("Si", "Silicon", "14"); ("P", "Phosphorus", "15");
    ("S", "Sulfur", "16"); ("Cl", "Chlorine", "17"); ("Ar", "Argon", "18"); ("K", "Potassium", "19");
    ("Ca", "Calcium", "20"); ("Sc", "Scandium", "21"); ("Ti", "Titanium", "22"); ("V", "Vanadium", "23");
    ("Cr", "Chromium", "24"); ("Mn", "Manganese", "25"); ("Fe", "Iron", "26"); ("Co", "Cobalt", "27");
    ("Ni", "Nickel", "28"); ("Cu", "Copper", "29"); ("Zn", "Zinc", "30"); ("Ga", "Gallium", "31");
    ("Ge", "Germanium", "32"); ("As", "Arsenic", "33"); ("Se", "Selenium", "34"); ("Br", "Bromine", "35");
    ("Kr", "Krypton", "36"); ("Rb", "Rubidium", "37"); ("Sr", "Strontium", "38"); ("Y", "Yttrium", "39");
    ("Zr", "Zirconium", "40"); ("Nb", "Niobium", "41"); ("Mo", "Molybdenum", "42"); ("Tc", "Technetium", "43");
    ("Ru", "Ruthenium", "44"); ("Rh", "Rhodium", "45"); ("Pd", "Palladium", "46"); ("Ag", "Silver", "47");
    ("Cd", "Cadmium", "48"); ("In", "Indium", "49"); ("Sn", "Tin", "50"); ("Sb", "Antimony", "51");
    ("Te", "Tellurium", "52"); ("I", "Iodine", "53"); ("Xe", "Xenon", "54"); ("Cs", "Caesium", "55");
    ("Ba", "Barium", "56"); ("La", "Lanthanum", "57"); ("Ce", "Cerium", "58"); ("Pr", "Praseodymium", "59");
    ("Nd", "Neodymium", "60"); ("Pm", "Promethium", "61"); ("Sm", "Samarium", "62"); ("Eu", "Europium", "63");
    ("Gd", "Gadolinium", "64"); ("Tb", "Terbium", "65"); ("Dy", "Dysprosium", "66"); ("Ho", "Holmium", "67");
    ("Er", "Erbium", "68"); ("Tm", "Thulium", "69"); ("Yb", "Ytterbium", "70"); ("Lu", "Lutetium", "71");
    ("Hf", "Hafnium", "72"); ("Ta", "Tantalum", "73"); ("W", "Tungsten", "74"); ("Re", "Rhenium", "75");
    ("Os", "Osmium", "76"); ("Ir", "Iridium", "77"); ("Pt", "Platinum", "78"); ("Au", "Gold", "79");
    ("Hg", "Mercury", "80"); ("Tl", "Thallium", "81"); ("Pb", "Lead", "82"); ("Bi", "Bismuth", "83");
    ("Po", "Polonium", "84"); ("At", "Astatine", "85"); ("Rn", "Radon", "86"); ("Fr", "Francium", "87");
    ("Ra", "Radium", "88"); ("Ac", "Actinium", "89"); ("Th", "Thorium", "90"); ("Pa", "Protactinium", "91");
    ("U", "Uranium", "92"); ("Np", "Neptunium", "93"); ("Pu", "Plutonium", "94"); ("Am", "Americium", "95");
    ("Cm", "Curium", "96"); ("Bk", "Berkelium", "97"); ("Cf", "Californium", "98"); ("Es", "Einsteinium", "99");
    ("Fm", "Fermium", "100"); ("Md", "Mendelevium", "101"); ("No", "Nobelium", "102"); ("Lr", "Lawrencium", "103");
    ("Rf", "Rutherfordium", "104"); ("Db", "Dubnium", "105"); ("Sg", "Seaborgium", "106"); ("Bh", "Bohrium", "107");
    ("Hs", "Hassium", "108"); ("Mt", "Meitnerium", "109"); ("Ds", "Darmstadtium", "110"); ("Rg", "Roentgenium", "111");
    ("Cn", "Copernicium", "112"); ("Nh", "Nihonium", "113"); ("Fl", "Flerovium", "114"); ("Mc", "Moscovium", "115");
    ("Lv", "Livermorium", "116"); ("Ts", "Tennessine", "117"); ("Og", "Oganesson", "118") ]%string.

(** atomic_weight.py 149-268: a weight is (m, k) for the decimal m / 10^k. *)
Definition weight_table : list (option (Z * Z)) :=
  [ None; Some (1008, 3); Some (40026, 4); Some (694, 2); Some (90122, 4); Some (1081, 2); Some (12011, 3); Some (14007, 3);
    Some (15999, 3); Some (18998, 3); Some (20180, 3); Some (22990, 3); Some (24305, 3); Some (26982, 3); Some (28085, 3); Some (30974, 3);
    Some (3206, 2); Some (3545, 2); Some (39948, 3); Some (39098, 3); Some (40078, 3); Some (44956, 3); Some (47867, 3); Some (50942, 3);
    Some (51996, 3); Some (54938, 3); Some (55845, 3); Some (58933, 3); Some (58693, 3); Some (63546, 3); Some (6538, 2); Some (69723, 3);
    Some (72630, 3); Some (74922, 3); Some (78971, 3); Some (79904, 3); Some (83798, 3); Some (85468, 3); Some (8762, 2); Some (88906, 3);
    Some (91224, 3); Some (92906, 3); Some (9595, 2); Some (98, 0); Some (10107, 2); Some (10291, 2); Some (10642, 2); Some (10787, 2);
    Some (11241, 2); Some (11482, 2); Some (11871, 2); Some (12176, 2); Some (12760, 2); Some (12690, 2); Some (13129, 2); Some (13291, 2);
    Some (13733, 2); Some (13891, 2); Some (14012, 2); Some (14091, 2); Some (14424, 2); Some (145, 0); Some (15036, 2); Some (15196, 2);
    Some (15725, 2); Some (15893, 2); Some (16250, 2); Some (16493, 2); Some (16726, 2); Some (16893, 2); Some (17305, 2); Some (17497, 2);
    Some (17849, 2); Some (18095, 2); Some (18384, 2); Some (18621, 2); Some (19023, 2); Some (19222, 2); Some (19508, 2); Some (19697, 2);
    Some (20059, 2); Some (20438, 2); Some (2072, 1); Some (20898, 2); Some (209, 0); Some (210, 0); Some (222, 0); Some (223, 0);
    Some (226, 0); Some (227, 0); Some (23204, 2); Some (23104, 2); Some (23803, 2); Some (237, 0); Some (244, 0); Some (243, 0);
    Some (247, 0); Some (247, 0); Some (251, 0); Some (252, 0); Some (257, 0); Some (258, 0); Some (259, 0); Some (266, 0);
    Some (267, 0); Some (268, 0); Some (269, 0); Some (270, 0); Some (277, 0); Some (278, 0); Some (281, 0); Some (282, 0);
    Some (285, 0); Some (286, 0); Some (289, 0); Some (290, 0); Some (293, 0); Some (294, 0); Some (294, 0) ]%Z.

(** atomic_weight.py 13-16: mask.nonzero()[0][0] is the first row one of whose
    cells equals the capitalised name. *)
Definition row_has (s : string) (r : string * string * string) : bool :=
  let '(a, b, c) := r in (String.eqb a s || String.eqb b s || String.eqb c s)%bool.
(** atomic_weight.py 14-16: np.isin and the first row of the mask. *)
Fixpoint first_row (s : string) (k : nat) (t : list (string * string * string)) : option nat :=
  match t with
  | [] => None
  | r :: t' => if row_has s r then Some k else first_row s (S k) t'
  end.
(** atomic_weight.py 4-20 [get_atomic_weight]; the result [None] is Python None
    (entry 0 of the tuple). *)
Definition get_atomic_weight (element : string) : result (option (Z * Z)) :=
  match first_row (capitalize element) 0 periodic_table with
  | Some k => py_nth weight_table k
  | None => Err EName
  end.

Section Mass.
  Context {A : Type} {F : Fld A}.
  (** unit_cell.py 319: the weight as a number. *)
  Definition weight_num (w : Z * Z) : A := fdiv (fofZ (fst w)) (fofZ (10 ^ snd w)).
  (** unit_cell.py 319, one atom: weight / (6.022 * 10**23) / 1000.  A weight None
      would become nan (numpy.asfarray); simplified to a TypeError here. *)
  Definition atom_mass (t : string) : result A :=
    let! w := get_atomic_weight t in
    let! w := of_option EType w in
    Ok (fdiv (fdiv (weight_num w) (fofZ (6022 * 10 ^ 20))) (fofZ 1000)).
  (** unit_cell.py 314-320 [set_mass_true]. *)
  Definition set_mass_true (c : cell A) : result (cell A) :=
    let! ty := of_option EType (c_type c) in
    let! ms := mapM atom_mass ty in
    let! xyz := of_option EType (c_xyz c) in
    let! l := mapM (fun z => let! i := np_index (length ms) z in py_nth ms i) xyz in
    set_mass_true_field c l.
End Mass.
