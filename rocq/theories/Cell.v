(** Model of InterPhon/core/unit_cell.py: the UnitCell object and its setters. *)
From Coq Require Import String Ascii ZArith Bool Lia List.
From Verif Require Import Base Field.
Import ListNotations.
Local Open Scope list_scope.
Local Open Scope nat_scope.

(** unit_cell.py 142-145: the two stored coordinate names. *)
Inductive coord : Type := Direct | Cartesian.   (* 'direct' | 'cartesian' *)

Section CellSec.
  Context {A : Type} {F : Fld A}.

  (** unit_cell.py 85-93: instance variables ([None] = Python None).  A stored
      lattice is a 3x3 array, stored positions are an (n,3) array.  Integer
      lists hold Python ints. *)
  Record cell : Type := mkCell {
    c_lat : option (m3 A);
    c_type : option (list string);
    c_num : option (list Z);
    c_sel : bool;
    c_coord : option coord;
    c_cart : option (list (v3 A));
    c_true : option (list Z);
    c_xyz : option (list Z);
    c_mass : option (list A) }.

  (** unit_cell.py 231-243 [initialization]. *)
  Definition cell_init : cell := mkCell None None None false None None None None None.

  (** numpy shape tests: a value is given as a list of rows; ragged rows or rows
      of another width have a different shape.  (Simplified: an empty list is
      taken to be an array of shape (0,3); numpy.array([]) has shape (0,).) *)
  (** unit_cell.py 103, 158, 171: shape tests. *)
  Definition row3 (r : list A) : option (v3 A) :=
    match r with [a; b; c] => Some (V3 a b c) | _ => None end.
  (** unit_cell.py 158, 171: shape (n, 3). *)
  Fixpoint rows3 (m : list (list A)) : option (list (v3 A)) :=
    match m with
    | [] => Some []
    | r :: m' => match row3 r, rows3 m' with
                 | Some v, Some vs => Some (v :: vs)
                 | _, _ => None
                 end
    end.
  (** unit_cell.py 103: shape (3, 3). *)
  Definition mat33 (m : list (list A)) : option (m3 A) :=
    match m with
    | [a; b; c] => match row3 a, row3 b, row3 c with
                   | Some u, Some v, Some w => Some (M3 u v w)
                   | _, _, _ => None
                   end
    | _ => None
    end.

  (** unit_cell.py 99-106. *)
  Definition set_lattice (c : cell) (m : list (list A)) : result cell :=
    match mat33 m with
    | Some L => Ok (mkCell (Some L) (c_type c) (c_num c) (c_sel c) (c_coord c) (c_cart c) (c_true c) (c_xyz c) (c_mass c))
    | None => Err EValue
    end.

  (** unit_cell.py 112-119. *)
  Definition set_atom_type (c : cell) (t : list string) : result cell :=
    let good := match c_cart c with None => true | Some p => Nat.eqb (length t) (length p) end in
    if good then Ok (mkCell (c_lat c) (Some t) (c_num c) (c_sel c) (c_coord c) (c_cart c) (c_true c) (c_xyz c) (c_mass c))
    else Err EValue.

  (** unit_cell.py 125-132. *)
  Definition zsum (l : list Z) : Z := fold_right Z.add 0%Z l.
  (** unit_cell.py 125-132. *)
  Definition set_num_atom (c : cell) (n : list Z) : result cell :=
    let good := match c_cart c with None => true | Some p => Z.eqb (zsum n) (Z.of_nat (length p)) end in
    if good then Ok (mkCell (c_lat c) (c_type c) (Some n) (c_sel c) (c_coord c) (c_cart c) (c_true c) (c_xyz c) (c_mass c))
    else Err EValue.

  (** [selective] is a plain attribute (unit_cell.py 88). *)
  Definition set_selective (c : cell) (b : bool) : cell :=
    mkCell (c_lat c) (c_type c) (c_num c) b (c_coord c) (c_cart c) (c_true c) (c_xyz c) (c_mass c).

  (** unit_cell.py 138-148; subscripting an empty string is an IndexError. *)
  Definition set_coordinate (c : cell) (s : string) : result cell :=
    match s with
    | EmptyString => Err EIndex
    | String a _ =>
        let put k := Ok (mkCell (c_lat c) (c_type c) (c_num c) (c_sel c) (Some k) (c_cart c) (c_true c) (c_xyz c) (c_mass c)) in
        if (Ascii.eqb a "D" || Ascii.eqb a "d")%bool%char then put Direct
        else if (Ascii.eqb a "C" || Ascii.eqb a "c" || Ascii.eqb a "K" || Ascii.eqb a "k")%bool%char then put Cartesian
        else Err EValue
    end.

  (** unit_cell.py 159, 172: the assignment of the positions. *)
  Definition put_cart (c : cell) (p : list (v3 A)) : cell :=
    mkCell (c_lat c) (c_type c) (c_num c) (c_sel c) (c_coord c) (Some p) (c_true c) (c_xyz c) (c_mass c).

  (** unit_cell.py 158, 171: the shape is (len(atom_type), 3).  An empty list of rows
      is numpy's array of shape (0,), which never passes the test. *)
  Definition shape_ok (t : list string) (p : list (v3 A)) : bool :=
    (Nat.eqb (length p) (length t) && Nat.ltb 0 (length p))%bool.

  (** unit_cell.py 154-161.  Simplified: with atom_type unset the code accepts any
      array; here it must still have three columns (or no row at all). *)
  Definition set_atom_cart (c : cell) (m : list (list A)) : result cell :=
    match rows3 m with
    | None => Err EValue
    | Some p =>
        let good := match c_type c with None => true | Some t => shape_ok t p end in
        if good then Ok (put_cart c p) else Err EValue
    end.

  (** unit_cell.py 164-165: atom_cart . inv(lattice); LinAlgError if singular,
      TypeError/ValueError class of failures when a field is None ([EType]). *)
  Definition get_atom_direct (c : cell) : result (list (v3 A)) :=
    match c_cart c, c_lat c with
    | Some p, Some L =>
        if f_dec (det L) f0 then Err ELinAlg
        else Ok (map (fun v => vmul v (minv_raw L)) p)
    | _, _ => Err EType
    end.

  (** unit_cell.py 168-174. *)
  Definition set_atom_direct (c : cell) (m : list (list A)) : result cell :=
    match rows3 m with
    | None => Err EValue
    | Some p =>
        let good := match c_type c with None => Nat.ltb 0 (length p) | Some t => shape_ok t p end in
        if good then
          match c_lat c with
          | Some L => Ok (put_cart c (map (fun v => vmul v L) p))
          | None => Err EType
          end
        else Err EValue
    end.

  (** sorted() on ints. *)
  (** unit_cell.py 185, 189, 206, 210: Python sorted(). *)
  Fixpoint insert_sorted (x : Z) (l : list Z) : list Z :=
    match l with
    | [] => [x]
    | y :: r => if (x <=? y)%Z then x :: y :: r else y :: insert_sorted x r
    end.
  (** unit_cell.py 185, 189, 206, 210: Python sorted(). *)
  Definition py_sorted (l : list Z) : list Z := fold_right insert_sorted [] l.

  (** unit_cell.py 187: np.isin for one index. *)
  Definition in_range (n : nat) (z : Z) : bool := ((0 <=? z) && (z <? Z.of_nat n))%Z%bool.

  (** unit_cell.py 181-191. *)
  Definition set_atom_true (c : cell) (l : list Z) : result cell :=
    let good := match c_type c with None => true | Some t => forallb (in_range (length t)) l end in
    if good then Ok (mkCell (c_lat c) (c_type c) (c_num c) (c_sel c) (c_coord c) (c_cart c) (Some (py_sorted l)) (c_xyz c) (c_mass c))
    else Err EValue.

  (** unit_cell.py 201-212. *)
  Definition set_xyz_true (c : cell) (l : list Z) : result cell :=
    let good := match c_true c with None => true | Some t => forallb (fun z => existsb (Z.eqb z) t) l end in
    if good then Ok (mkCell (c_lat c) (c_type c) (c_num c) (c_sel c) (c_coord c) (c_cart c) (c_true c) (Some (py_sorted l)) (c_mass c))
    else Err EValue.

  (** unit_cell.py 218-229. *)
  Definition set_mass_true_field (c : cell) (l : list A) : result cell :=
    let good := match c_true c with None => true | Some t => Nat.eqb (length l) (3 * length t) end in
    if good then Ok (mkCell (c_lat c) (c_type c) (c_num c) (c_sel c) (c_coord c) (c_cart c) (c_true c) (c_xyz c) (Some l))
    else Err EValue.

  (** One public assignment on the object. *)
  (** unit_cell.py 96-229: the property setters as commands. *)
  Inductive cell_op : Type :=
  | OpLattice (m : list (list A))
  | OpType (t : list string)
  | OpNum (n : list Z)
  | OpSelective (b : bool)
  | OpCoord (s : string)
  | OpCart (m : list (list A))
  | OpDirect (m : list (list A))
  | OpTrue (l : list Z)
  | OpXyz (l : list Z)
  | OpMass (l : list A).

  (** unit_cell.py 96-229: one assignment. *)
  Definition run_op (c : cell) (o : cell_op) : result cell :=
    match o with
    | OpLattice m => set_lattice c m
    | OpType t => set_atom_type c t
    | OpNum n => set_num_atom c n
    | OpSelective b => Ok (set_selective c b)
    | OpCoord s => set_coordinate c s
    | OpCart m => set_atom_cart c m
    | OpDirect m => set_atom_direct c m
    | OpTrue l => set_atom_true c l
    | OpXyz l => set_xyz_true c l
    | OpMass l => set_mass_true_field c l
    end.

  (** The object seen by a caller who catches the exception: every setter makes
      its single assignment last, so a raising setter assigns nothing. *)
  (** unit_cell.py 96-229: one assignment whose exception is caught. *)
  Definition step_op (c : cell) (o : cell_op) : cell :=
    match run_op c o with Ok c' => c' | Err _ => c end.
  (** Not code of the repository: a sequence of assignments by a caller (unit_cell.py 96-229). *)
  Definition run_ops (c : cell) (os : list cell_op) : cell := fold_left step_op os c.
End CellSec.
Arguments cell A : clear implicits.
Arguments cell_op A : clear implicits.
