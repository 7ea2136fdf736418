(** Property theorems: atomic weights and masses (C54).  Model: Weight.v. *)
From Coq Require Import String Ascii ZArith Bool Lia Arith Reals Lra DecimalString List.
From Verif Require Import Base Field Cell CellFacts Displace DisplaceFacts Weight.
Import ListNotations.
Local Open Scope list_scope.
Local Open Scope nat_scope.

(** Specification: two characters that are equal or the two cases of one letter. *)
Definition capitals : string := "ABCDEFGHIJKLMNOPQRSTUVWXYZ".
Definition smalls : string := "abcdefghijklmnopqrstuvwxyz".
Definition two_cases (c c' : ascii) : Prop := exists i, String.get i capitals = Some c /\ String.get i smalls = Some c'.
Definition same_letter (c c' : ascii) : Prop := c = c' \/ two_cases c c' \/ two_cases c' c.
Inductive same_but_case : string -> string -> Prop :=
| same_nil : same_but_case EmptyString EmptyString
| same_cons : forall c c' s s', same_letter c c' -> same_but_case s s' -> same_but_case (String c s) (String c' s').
(** The three names in a row of the table. *)
Definition names (r : string * string * string) : list string := let '(a, b, c) := r in [a; b; c].

Lemma two_cases_lower : forall c c', two_cases c c' -> lower_char c = c' /\ lower_char c' = c'.
Proof.
  intros c c' (i & A & B). unfold capitals, smalls in *.
  do 26 (destruct i as [|i]; [cbn in A, B; injection A as <-; injection B as <-; split; reflexivity|]).
  cbn in A. discriminate.
Qed.
Lemma lower_two_cases : forall c, lower_char c <> c -> two_cases c (lower_char c).
Proof.
  intros c H. exists (nat_of_ascii c - 65).
  destruct c as [b0 b1 b2 b3 b4 b5 b6 b7].
  destruct b0, b1, b2, b3, b4, b5, b6, b7; first [exfalso; apply H; reflexivity | split; reflexivity].
Qed.
Lemma upper_lower : forall c, upper_char (lower_char c) = upper_char c.
Proof. intros [b0 b1 b2 b3 b4 b5 b6 b7]. destruct b0, b1, b2, b3, b4, b5, b6, b7; reflexivity. Qed.
Lemma lower_upper : forall c, lower_char (upper_char c) = lower_char c.
Proof. intros [b0 b1 b2 b3 b4 b5 b6 b7]. destruct b0, b1, b2, b3, b4, b5, b6, b7; reflexivity. Qed.
Lemma lower_lower_char : forall c, lower_char (lower_char c) = lower_char c.
Proof. intros [b0 b1 b2 b3 b4 b5 b6 b7]. destruct b0, b1, b2, b3, b4, b5, b6, b7; reflexivity. Qed.

Lemma same_letter_lower : forall c c', same_letter c c' <-> lower_char c = lower_char c'.
Proof.
  intros c c'. split.
  - intros [->|[T|T]]; [reflexivity|destruct (two_cases_lower _ _ T) as [A B]; congruence|destruct (two_cases_lower _ _ T) as [A B]; congruence].
  - intro E. destruct (Ascii.ascii_dec (lower_char c) c) as [A|A], (Ascii.ascii_dec (lower_char c') c') as [B|B].
    + left. congruence.
    + right; right. pose proof (lower_two_cases _ B) as T. rewrite <- E, A in T. exact T.
    + right; left. pose proof (lower_two_cases _ A) as T. rewrite E, B in T. exact T.
    + (* both capitals of the same letter *)
      left. clear - E A B.
      destruct (lower_two_cases _ A) as (i & Ai & Ai'), (lower_two_cases _ B) as (j & Bj & Bj').
      rewrite <- E in Bj'. unfold capitals, smalls in *.
      assert (i = j).
      { clear A B E Ai Bj. assert (D : i < 26) by (destruct (Nat.lt_ge_cases i 26) as [L|L]; [exact L|]; do 26 (destruct i as [|i]; [lia|]); cbn in Ai'; discriminate).
        assert (D' : j < 26) by (destruct (Nat.lt_ge_cases j 26) as [L|L]; [exact L|]; do 26 (destruct j as [|j]; [lia|]); cbn in Bj'; discriminate).
        rewrite <- Ai' in Bj'. clear Ai'.
        assert (K : forallb (fun i => forallb (fun j => Nat.eqb i j || negb (match String.get j "abcdefghijklmnopqrstuvwxyz", String.get i "abcdefghijklmnopqrstuvwxyz" with Some a, Some b => Ascii.eqb a b | _, _ => false end)) (seq 0 26)) (seq 0 26) = true) by (vm_compute; reflexivity).
        rewrite forallb_forall in K. specialize (K i (proj2 (in_seq _ _ _) (conj (Nat.le_0_l _) D))).
        rewrite forallb_forall in K. specialize (K j (proj2 (in_seq _ _ _) (conj (Nat.le_0_l _) D'))).
        rewrite Bj' in K. apply orb_true_iff in K. destruct K as [K|K]; [apply Nat.eqb_eq, K|].
        exfalso. destruct (String.get i "abcdefghijklmnopqrstuvwxyz") eqn:G.
        - rewrite Ascii.eqb_refl in K. discriminate.
        - clear - G D. do 26 (destruct i as [|i]; [discriminate|]). lia. }
      subst j. congruence.
Qed.

Lemma same_lower : forall s s', same_but_case s s' <-> lower s = lower s'.
Proof.
  split.
  - induction 1 as [|c c' s s' H _ IH]; [reflexivity|]. cbn. f_equal; [apply same_letter_lower, H|exact IH].
  - revert s'. induction s as [|c s IH]; intros [|c' s'] E; cbn in E; try discriminate; [constructor|].
    injection E as E1 E2. constructor; [apply same_letter_lower, E1|apply IH, E2].
Qed.
Lemma lower_lower : forall s, lower (lower s) = lower s.
Proof. induction s as [|c s IH]; cbn; [reflexivity|]. now rewrite lower_lower_char, IH. Qed.
Lemma capitalize_lower : forall s s', lower s = lower s' -> capitalize s = capitalize s'.
Proof.
  intros [|c s] [|c' s'] E; cbn in *; try discriminate; [reflexivity|].
  injection E as E1 E2. rewrite <- (upper_lower c), E1, upper_lower, E2. reflexivity.
Qed.
Lemma lower_capitalize : forall s, lower (capitalize s) = lower s.
Proof. intros [|c s]; cbn; [reflexivity|]. now rewrite lower_upper, lower_lower. Qed.

(** every name of the table is written capitalised *)
Lemma table_capitalized : forall r n, In r periodic_table -> In n (names r) -> capitalize n = n.
Proof.
  assert (K : forallb (fun r => forallb (fun n => String.eqb (capitalize n) n) (names r)) periodic_table = true) by (vm_compute; reflexivity).
  intros r n I1 I2. rewrite forallb_forall in K. specialize (K r I1). rewrite forallb_forall in K. now apply String.eqb_eq, K.
Qed.
Lemma capitalize_table : forall r n s, In r periodic_table -> In n (names r) -> (capitalize s = n <-> same_but_case s n).
Proof.
  intros r n s I1 I2. rewrite same_lower. split; intro E.
  - rewrite <- E, lower_capitalize. reflexivity.
  - rewrite (capitalize_lower s n E). apply table_capitalized with r; assumption.
Qed.
Lemma row_has_names : forall s r, row_has s r = true <-> In s (names r).
Proof.
  intros s [[a b] c]. cbn. rewrite !orb_true_iff, !String.eqb_eq. intuition.
Qed.

Lemma first_row_table : forall k r, nth_error periodic_table k = Some r -> forall n, In n (names r) -> first_row n 0 periodic_table = Some k.
Proof.
  assert (K : forallb (fun '(k, r) => forallb (fun n => match first_row n 0 periodic_table with Some j => Nat.eqb j k | None => false end) (names r)) (combine (seq 0 (length periodic_table)) periodic_table) = true) by (vm_compute; reflexivity).
  intros k r H n I1. rewrite forallb_forall in K.
  assert (J : In (k, r) (combine (seq 0 (length periodic_table)) periodic_table)).
  { apply nth_error_In with k. assert (L : k < length periodic_table) by (apply nth_error_Some; congruence).
    revert H L. generalize periodic_table as t. intros t H L.
    enough (G : forall t k o r, nth_error t k = Some r -> nth_error (combine (seq o (length t)) t) k = Some (o + k, r)) by (exact (G t k 0 r H)).
    clear. induction t as [|x t IH]; intros [|k] o r H; cbn in *; try discriminate.
    - injection H as <-. do 2 f_equal. lia.
    - rewrite (IH k (S o) r H). do 2 f_equal. lia. }
  specialize (K (k, r) J). cbn beta iota in K. rewrite forallb_forall in K. specialize (K n I1).
  destruct (first_row n 0 periodic_table) as [j|]; [|discriminate]. apply Nat.eqb_eq in K. now subst.
Qed.

(** C54: symbol, full name and atomic number give the weight of the element, in any
    mixture of capital and small letters; the weight is a positive number. *)
Theorem weight_of_every_spelling : forall (k : nat) (r : string * string * string) (n s : string),
  nth_error periodic_table k = Some r -> In n (names r) -> same_but_case s n ->
  exists w, nth_error weight_table k = Some w /\ get_atomic_weight s = Ok w /\ (1 <= k -> exists m e, w = Some (m, e) /\ (0 < m /\ 0 <= e)%Z).
Proof.
  intros k r n s H I1 E.
  assert (I0 : In r periodic_table) by (apply nth_error_In with k; exact H).
  assert (L : k < 119) by (change 119 with (length periodic_table); apply nth_error_Some; congruence).
  destruct (nth_error weight_table k) as [w|] eqn:W.
  2: { exfalso. apply nth_error_None in W. change (length weight_table) with 119 in W. lia. }
  exists w. split; [reflexivity|]. split.
  - unfold get_atomic_weight. rewrite (proj2 (capitalize_table r n s I0 I1) E), (first_row_table k r H n I1). unfold py_nth. now rewrite W.
  - intro G.
    assert (K : forallb (fun w => match w with Some (m, e) => (0 <? m)%Z && (0 <=? e)%Z | None => false end) (skipn 1 weight_table) = true) by (vm_compute; reflexivity).
    rewrite forallb_forall in K. destruct k as [|k]; [lia|].
    change (nth_error weight_table (S k)) with (nth_error (skipn 1 weight_table) k) in W.
    specialize (K w (nth_error_In _ _ W)). destruct w as [[m e]|]; [|discriminate].
    apply andb_true_iff in K. destruct K as [K1 K2]. exists m, e. split; [reflexivity|]. split; [apply Z.ltb_lt, K1|apply Z.leb_le, K2].
Qed.
Print Assumptions weight_of_every_spelling.

Example spellings_witness :
  same_but_case "aLUminium" "Aluminium" /\ nth_error periodic_table 13 = Some ("Al", "Aluminium", "13")%string
  /\ get_atomic_weight "aLUminium" = Ok (Some (26982, 3)%Z) /\ get_atomic_weight "AL" = Ok (Some (26982, 3)%Z) /\ get_atomic_weight "13" = Ok (Some (26982, 3)%Z).
Proof. split; [apply same_lower; reflexivity|]. repeat split; vm_compute; reflexivity. Qed.

(** Standard atomic weights (for elements without a stable isotope, the mass number of the
    longest-lived one), in order of atomic number from 1: symbol, name, weight as integer and number
    of decimals.  Written independently of the repository's table. *)
Section Table.
Local Open Scope string_scope.
Local Open Scope Z_scope.
Definition standard_weights : list (string * string * (Z * Z)) :=
  [("H", "Hydrogen", (1008, 3)); ("He", "Helium", (40026, 4)); ("Li", "Lithium", (694, 2)); ("Be", "Beryllium", (90122, 4));
    ("B", "Boron", (1081, 2)); ("C", "Carbon", (12011, 3)); ("N", "Nitrogen", (14007, 3)); ("O", "Oxygen", (15999, 3));
    ("F", "Fluorine", (18998, 3)); ("Ne", "Neon", (20180, 3)); ("Na", "Sodium", (22990, 3)); ("Mg", "Magnesium", (24305, 3));
    ("Al", "Aluminium", (26982, 3)); ("Si", "Silicon", (28085, 3)); ("P", "Phosphorus", (30974, 3)); ("S", "Sulfur", (3206, 2));
    ("Cl", "Chlorine", (3545, 2)); ("Ar", "Argon", (39948, 3)); ("K", "Potassium", (39098, 3)); ("Ca", "Calcium", (40078, 3));
    ("Sc", "Scandium", (44956, 3)); ("Ti", "Titanium", (47867, 3)); ("V", "Vanadium", (50942, 3)); ("Cr", "Chromium", (51996, 3));
    ("Mn", "Manganese", (54938, 3)); ("Fe", "Iron", (55845, 3)); ("Co", "Cobalt", (58933, 3)); ("Ni", "Nickel", (58693, 3));
    ("Cu", "Copper", (63546, 3)); ("Zn", "Zinc", (6538, 2)); ("Ga", "Gallium", (69723, 3)); ("Ge", "Germanium", (72630, 3));
    ("As", "Arsenic", (74922, 3)); ("Se", "Selenium", (78971, 3)); ("Br", "Bromine", (79904, 3)); ("Kr", "Krypton", (83798, 3));
    ("Rb", "Rubidium", (85468, 3)); ("Sr", "Strontium", (8762, 2)); ("Y", "Yttrium", (88906, 3)); ("Zr", "Zirconium", (91224, 3));
    ("Nb", "Niobium", (92906, 3)); ("Mo", "Molybdenum", (9595, 2)); ("Tc", "Technetium", (98, 0)); ("Ru", "Ruthenium", (10107, 2));
    ("Rh", "Rhodium", (10291, 2)); ("Pd", "Palladium", (10642, 2)); ("Ag", "Silver", (10787, 2)); ("Cd", "Cadmium", (11241, 2));
    ("In", "Indium", (11482, 2)); ("Sn", "Tin", (11871, 2)); ("Sb", "Antimony", (12176, 2)); ("Te", "Tellurium", (12760, 2));
    ("I", "Iodine", (12690, 2)); ("Xe", "Xenon", (13129, 2)); ("Cs", "Caesium", (13291, 2)); ("Ba", "Barium", (13733, 2));
    ("La", "Lanthanum", (13891, 2)); ("Ce", "Cerium", (14012, 2)); ("Pr", "Praseodymium", (14091, 2));
    ("Nd", "Neodymium", (14424, 2)); ("Pm", "Promethium", (145, 0)); ("Sm", "Samarium", (15036, 2)); ("Eu", "Europium", (15196, 2));
    ("Gd", "Gadolinium", (15725, 2)); ("Tb", "Terbium", (15893, 2)); ("Dy", "Dysprosium", (16250, 2)); ("Ho", "Holmium", (16493, 2));
    ("Er", "Erbium", (16726, 2)); ("Tm", "Thulium", (16893, 2)); ("Yb", "Ytterbium", (17305, 2)); ("Lu", "Lutetium", (17497, 2));
    ("Hf", "Hafnium", (17849, 2)); ("Ta", "Tantalum", (18095, 2)); ("W", "Tungsten", (18384, 2)); ("Re", "Rhenium", (18621, 2));
    ("Os", "Osmium", (19023, 2)); ("Ir", "Iridium", (19222, 2)); ("Pt", "Platinum", (19508, 2)); ("Au", "Gold", (19697, 2));
    ("Hg", "Mercury", (20059, 2)); ("Tl", "Thallium", (20438, 2)); ("Pb", "Lead", (2072, 1)); ("Bi", "Bismuth", (20898, 2));
    ("Po", "Polonium", (209, 0)); ("At", "Astatine", (210, 0)); ("Rn", "Radon", (222, 0)); ("Fr", "Francium", (223, 0));
    ("Ra", "Radium", (226, 0)); ("Ac", "Actinium", (227, 0)); ("Th", "Thorium", (23204, 2)); ("Pa", "Protactinium", (23104, 2));
    ("U", "Uranium", (23803, 2)); ("Np", "Neptunium", (237, 0)); ("Pu", "Plutonium", (244, 0)); ("Am", "Americium", (243, 0));
    ("Cm", "Curium", (247, 0)); ("Bk", "Berkelium", (247, 0)); ("Cf", "Californium", (251, 0)); ("Es", "Einsteinium", (252, 0));
    ("Fm", "Fermium", (257, 0)); ("Md", "Mendelevium", (258, 0)); ("No", "Nobelium", (259, 0)); ("Lr", "Lawrencium", (266, 0));
    ("Rf", "Rutherfordium", (267, 0)); ("Db", "Dubnium", (268, 0)); ("Sg", "Seaborgium", (269, 0)); ("Bh", "Bohrium", (270, 0));
    ("Hs", "Hassium", (277, 0)); ("Mt", "Meitnerium", (278, 0)); ("Ds", "Darmstadtium", (281, 0)); ("Rg", "Roentgenium", (282, 0));
    ("Cn", "Copernicium", (285, 0)); ("Nh", "Nihonium", (286, 0)); ("Fl", "Flerovium", (289, 0)); ("Mc", "Moscovium", (290, 0));
    ("Lv", "Livermorium", (293, 0)); ("Ts", "Tennessine", (294, 0)); ("Og", "Oganesson", (294, 0)) ].
End Table.

Lemma mem_names s l : mem_string s l = true -> In s l.
Proof. unfold mem_string. rewrite existsb_exists. intros (x & Hx & E). apply String.eqb_eq in E. now subst. Qed.

(** Every element is weighed by its symbol, its name or its atomic number, in any
    letter case, with its standard atomic weight. *)
Theorem standard_weight_of_every_element : forall (k : nat) sym name w s,
  nth_error standard_weights k = Some (sym, name, w) ->
  same_but_case s sym \/ same_but_case s name \/ s = NilEmpty.string_of_uint (Nat.to_uint (k + 1)) ->
  exists m e, get_atomic_weight s = Ok (Some (m, e)) /\ (m * 10 ^ snd w = fst w * 10 ^ e)%Z.
Proof.
  intros k sym name w s HK HS.
  assert (K : forallb (fun x => match x with (i, (sy, na, (wm, we))) =>
              match nth_error periodic_table (S i), nth_error weight_table (S i) with
              | Some r, Some (Some (m, e)) => (mem_string sy (names r) && mem_string na (names r) && mem_string (NilEmpty.string_of_uint (Nat.to_uint (i + 1))) (names r)
                                          && Z.eqb (m * 10 ^ we) (wm * 10 ^ e))%bool
              | _, _ => false
              end end) (combine (seq 0 118) standard_weights) = true) by (vm_compute; reflexivity).
  rewrite forallb_forall in K.
  assert (IN : In (k, (sym, name, w)) (combine (seq 0 118) standard_weights)).
  { assert (k < 118). { change 118 with (length standard_weights). apply nth_error_Some. congruence. }
    apply nth_error_In with (n := k).
    assert (C : forall (l : list (string * string * (Z * Z))) a n x, nth_error l n = Some x -> nth_error (combine (seq a (length l)) l) n = Some (a + n, x)).
    { clear. induction l as [|y l IH]; intros a n x; [destruct n; discriminate|]. destruct n as [|n]; cbn [nth_error length seq combine].
      - intros X; injection X as ->. f_equal. f_equal. lia.
      - intros X. rewrite (IH (S a) n x X). f_equal. f_equal. lia. }
    change 118 with (length standard_weights). rewrite (C _ 0 _ _ HK). reflexivity. }
  specialize (K _ IN). cbn beta iota in K. destruct w as [wm we].
  destruct (nth_error periodic_table (S k)) as [r|] eqn:ER; [|discriminate].
  destruct (nth_error weight_table (S k)) as [[[m e]|]|] eqn:EW; try discriminate.
  apply andb_true_iff in K. destruct K as (K & K4). apply andb_true_iff in K. destruct K as (K & K3).
  apply andb_true_iff in K. destruct K as (K1 & K2). apply Z.eqb_eq in K4.
  apply mem_names in K1. apply mem_names in K2. apply mem_names in K3.
  assert (exists n, In n (names r) /\ same_but_case s n) as (n & N1 & N2).
  { destruct HS as [HS|[HS| ->]]; [eauto|eauto|]. eexists. split; [exact K3|]. apply same_lower. reflexivity. }
  destruct (weight_of_every_spelling (S k) r n s ER N1 N2) as (w' & W1 & W2 & _).
  rewrite EW in W1. injection W1 as <-. exists m, e. split; [exact W2|]. exact K4.
Qed.

Example tungsten_weight : exists m e, get_atomic_weight "tUNGSTEN" = Ok (Some (m, e)) /\ (m * 10 ^ 2 = 18384 * 10 ^ e)%Z.
Proof.
  apply (standard_weight_of_every_element 73 "W" "Tungsten" (18384, 2)%Z "tUNGSTEN"); [reflexivity|].
  right; left. apply same_lower. reflexivity.
Qed.

(** C54: NameError exactly when the string is no spelling of a name in the table. *)
Theorem unknown_element_rejected : forall s,
  get_atomic_weight s = Err EName <-> ~ exists r n, In r periodic_table /\ In n (names r) /\ same_but_case s n.
Proof.
  intro s. unfold get_atomic_weight.
  assert (F : forall t k, match first_row (capitalize s) k t with Some j => exists r, In r t /\ In (capitalize s) (names r) | None => forall r, In r t -> ~ In (capitalize s) (names r) end).
  { induction t as [|r t IH]; intro k; cbn [first_row]; [intros r []|].
    destruct (row_has (capitalize s) r) eqn:E.
    - exists r. split; [left; reflexivity|apply row_has_names, E].
    - specialize (IH (S k)). destruct (first_row (capitalize s) (S k) t).
      + destruct IH as (r' & A & B). exists r'. split; [right; exact A|exact B].
      + intros r' [<-|I1]; [|exact (IH r' I1)]. intro J. apply row_has_names in J. congruence. }
  specialize (F periodic_table 0). destruct (first_row (capitalize s) 0 periodic_table) as [k|] eqn:E.
  - split.
    + intro H. exfalso. assert (D : k < 119).
      { clear - E. assert (G : forall t o j, first_row (capitalize s) o t = Some j -> j < o + length t).
        { induction t as [|r t IH]; intros o j; cbn; [discriminate|]. destruct (row_has _ r); [intro X; injection X as <-; lia|].
          intro X. specialize (IH (S o) j X). lia. }
        specialize (G periodic_table 0 k E). exact G. }
      unfold py_nth in H. destruct (nth_error weight_table k) eqn:W; [discriminate|].
      cbn in H. discriminate.
    + intro H. exfalso. destruct F as (r & A & B). apply H. exists r, (capitalize s). split; [exact A|]. split; [exact B|].
      apply (capitalize_table r _ s A B). reflexivity.
  - split; [|reflexivity]. intros _ (r & n & A & B & C). apply (F r A). rewrite (proj2 (capitalize_table r n s A B) C). exact B.
Qed.
Print Assumptions unknown_element_rejected.

Example unknown_witness : get_atomic_weight "Xx" = Err EName /\ get_atomic_weight "" = Err EName /\ get_atomic_weight "119" = Err EName.
Proof. repeat split; vm_compute; reflexivity. Qed.

(** C54: the header row of the table is searched as well: its titles are accepted as
    elements, with the weight None. *)
Theorem header_titles_accepted : forall s,
  get_atomic_weight s = Ok None <-> same_but_case s "Short_name" \/ same_but_case s "Full_name" \/ same_but_case s "Atomic_number".
Proof.
  intro s. split.
  - unfold get_atomic_weight. destruct (first_row (capitalize s) 0 periodic_table) as [[|k]|] eqn:E; [intros _|intro H; exfalso|discriminate].
    + change periodic_table with (("Short_name", "Full_name", "Atomic_number")%string :: skipn 1 periodic_table) in E.
      cbn [first_row] in E. destruct (row_has (capitalize s) ("Short_name", "Full_name", "Atomic_number")%string) eqn:R.
      * apply row_has_names in R. cbn [names In] in R.
        assert (J : forall n, In n (names ("Short_name", "Full_name", "Atomic_number")%string) -> n = capitalize s -> same_but_case s n).
        { intros n I1 Q. apply (capitalize_table ("Short_name", "Full_name", "Atomic_number")%string n s); [left; reflexivity|exact I1|symmetry; exact Q]. }
        cbn [names In] in J. destruct R as [R|[R|[R|[]]]]; [left|right; left|right; right]; apply J; auto.
      * exfalso. assert (G : forall t o j, first_row (capitalize s) o t = Some j -> o <= j).
        { induction t as [|r t IH]; intros o j; cbn; [discriminate|]. destruct (row_has _ r); [intro X; injection X as <-; lia|].
          intro X. specialize (IH (S o) j X). lia. }
        pose proof (G _ _ _ E). lia.
    + assert (K : forall k w, nth_error (skipn 1 weight_table) k = Some w -> w <> None).
      { intros j w Hn ->. apply nth_error_In in Hn. revert Hn. vm_compute. intuition discriminate. }
      unfold py_nth in H. change (nth_error weight_table (S k)) with (nth_error (skipn 1 weight_table) k) in H.
      destruct (nth_error (skipn 1 weight_table) k) as [w|] eqn:W; [|discriminate]. injection H as ->. exact (K k None W eq_refl).
  - intro H.
    assert (G : forall n, In n (names ("Short_name", "Full_name", "Atomic_number")%string) -> same_but_case s n -> get_atomic_weight s = Ok None).
    { intros n I1 S1. destruct (weight_of_every_spelling 0 _ n s eq_refl I1 S1) as (w & A & B & _).
      cbn in A. injection A as <-. exact B. }
    cbn [names In] in G. destruct H as [H|[H|H]]; refine (G _ _ H); auto.
Qed.
Print Assumptions header_titles_accepted.

(** C54: masses in kg of the degrees of freedom: weight of the atom's type divided by
    6.022e23 and by 1000, all positive. *)
Theorem masses_of_selected_atoms : forall (c : cell R) ty xyz,
  c_type c = Some ty -> c_xyz c = Some xyz ->
  (forall t, In t ty -> exists k r n, 1 <= k /\ nth_error periodic_table k = Some r /\ In n (names r) /\ same_but_case t n) ->
  (forall z, In z xyz -> (0 <= z < Z.of_nat (length ty))%Z) ->
  (forall tr, c_true c = Some tr -> length xyz = 3 * length tr) ->
  exists c' ms, set_mass_true c = Ok c' /\ c_mass c' = Some ms /\ length ms = length xyz /\
    c_type c' = c_type c /\ c_xyz c' = c_xyz c /\ c_cart c' = c_cart c /\ c_lat c' = c_lat c /\ c_true c' = c_true c /\
    forall i z t, nth_error xyz i = Some z -> nth_error ty (Z.to_nat z) = Some t ->
      exists m e, get_atomic_weight t = Ok (Some (m, e)) /\ nth_error ms i = Some (IZR m / IZR (10 ^ e) / (IZR 6022 * IZR (10 ^ 20)) / 1000)%R
                  /\ (0 < IZR m / IZR (10 ^ e) / (IZR 6022 * IZR (10 ^ 20)) / 1000)%R.
Proof.
  intros c ty xyz T X K Z3 L3.
  pose (massof t := match @atom_mass R _ t with Ok x => x | Err _ => 0%R end).
  assert (AM : forall t, In t ty -> exists m e, get_atomic_weight t = Ok (Some (m, e)) /\ (0 < m /\ 0 <= e)%Z /\ @atom_mass R _ t = Ok (IZR m / IZR (10 ^ e) / (IZR 6022 * IZR (10 ^ 20)) / 1000)%R).
  { intros t I1. destruct (K t I1) as (k & r & n & K1 & K2 & K3 & K4).
    destruct (weight_of_every_spelling k r n t K2 K3 K4) as (w & W1 & W2 & W3). destruct (W3 K1) as (m & e & -> & P).
    exists m, e. split; [exact W2|]. split; [exact P|]. unfold atom_mass. rewrite W2. cbn [bind of_option].
    apply f_equal. unfold weight_num. cbn [fst snd]. unfold fdiv, fofZ. cbn [Fld_R].
    change (6022 * 10 ^ 20)%Z with (6022 * 10 ^ 20)%Z. rewrite (mult_IZR 6022 (10 ^ 20)). reflexivity. }
  assert (MM : mapM atom_mass ty = Ok (map massof ty)).
  { clear - AM. induction ty as [|t ty IH]; [reflexivity|]. cbn [mapM map].
    destruct (AM t (or_introl eq_refl)) as (m & e & _ & _ & E). unfold massof at 1. rewrite E. cbn [bind].
    rewrite IH; [reflexivity|]. intros t' I1. apply AM. right. exact I1. }
  assert (ML : mapM (fun z => let! i := np_index (length (map massof ty)) z in py_nth (map massof ty) i) xyz = Ok (map (fun z => nth (Z.to_nat z) (map massof ty) 0%R) xyz)).
  { clear - Z3. induction xyz as [|z xyz IH]; [reflexivity|]. cbn [mapM map].
    assert (B := Z3 z (or_introl eq_refl)). unfold np_index at 1. rewrite map_length.
    destruct (Z.leb_spec 0 z); [|lia]. destruct (Z.ltb_spec z (Z.of_nat (length ty))); [|lia]. cbn [bind].
    unfold py_nth. rewrite (nth_error_nth' (map massof ty) 0%R) by (rewrite map_length; lia). cbn [of_option bind].
    rewrite map_length in IH. unfold py_nth in IH. rewrite IH; [reflexivity|]. intros z' I1. apply Z3. right. exact I1. }
  unfold set_mass_true. rewrite T, X. cbn [of_option bind]. rewrite MM. cbn [bind]. rewrite ML. cbn [bind].
  unfold set_mass_true_field.
  assert (G : match c_true c with Some t => length (map (fun z => nth (Z.to_nat z) (map massof ty) 0%R) xyz) =? 3 * length t | None => true end = true).
  { destruct (c_true c) as [tr|]; [|reflexivity]. rewrite map_length. apply Nat.eqb_eq, L3. reflexivity. }
  rewrite G. eexists. eexists. split; [reflexivity|]. cbn [c_mass c_type c_xyz c_cart c_lat c_true].
  split; [reflexivity|]. split; [apply map_length|]. do 5 (split; [first [reflexivity|assumption]|]).
  intros i z t Hi Ht. destruct (AM t (nth_error_In _ _ Ht)) as (m & e & W & P & E). exists m, e. split; [exact W|]. split.
  - rewrite nth_error_map, Hi. cbn [option_map]. f_equal. apply nth_error_nth with (d := 0%R).
    rewrite nth_error_map, Ht. cbn [option_map]. f_equal. unfold massof. rewrite E. reflexivity.
  - assert (A1 : (0 < IZR m)%R) by (apply IZR_lt; lia).
    assert (A2 : (0 < IZR (10 ^ e))%R) by (apply IZR_lt; apply Z.pow_pos_nonneg; lia).
    assert (A3 : (0 < IZR (10 ^ 20))%R) by (apply IZR_lt; reflexivity).
    unfold Rdiv. repeat apply Rmult_lt_0_compat; try apply Rinv_0_lt_compat; try lra.
Qed.
Print Assumptions masses_of_selected_atoms.

(** A cell with a misspelt and a numeric type name. *)
Example masses_witness :
  exists c' ms, set_mass_true (mkCell None (Some ["cU"; "8"]%string) None false None None (Some [1]%Z) (Some [1; 1; 1]%Z) (@None (list R))) = Ok c'
    /\ c_mass c' = Some ms /\ length ms = 3.
Proof.
  destruct (masses_of_selected_atoms (mkCell None (Some ["cU"; "8"]%string) None false None None (Some [1]%Z) (Some [1; 1; 1]%Z) (@None (list R))) ["cU"; "8"]%string [1; 1; 1]%Z eq_refl eq_refl) as (c' & ms & A & B & C & _).
  - intros t [<-|[<-|[]]]; [exists 29, ("Cu", "Copper", "29")%string, "Cu"%string | exists 8, ("O", "Oxygen", "8")%string, "8"%string];
      (split; [lia|]); (split; [reflexivity|]); (split; [cbn; tauto|]); apply same_lower; reflexivity.
  - cbn. intros z [<-|[<-|[<-|[]]]]; lia.
  - cbn. intros tr E. injection E as <-. reflexivity.
  - exists c', ms. split; [exact A|]. split; [exact B|exact C].
Qed.
Print Assumptions standard_weight_of_every_element.
