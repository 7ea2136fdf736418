(** Model of InterPhon/core/super_cell.py. *)
From Coq Require Import String Ascii ZArith Bool Lia List.
From Verif Require Import Base Field Args Cell.
Import ListNotations.
Local Open Scope list_scope.
Local Open Scope nat_scope.

Section SuperSec.
  Context {A : Type} {F : Fld A}.

  (** super_cell.py 68-71, 105-108; pre_process.py 131-134; interphon.py 41-44;
      post_check.py 47-50: product of the enlargements of periodic directions. *)
  Fixpoint enlarge_from (ind : nat) (enl pbc : list Z) (acc : Z) : result Z :=
    match pbc with
    | [] => Ok acc
    | v :: r => if Z.eqb v 0 then enlarge_from (S ind) enl r acc
                else let! e := py_nth enl ind in enlarge_from (S ind) enl r (acc * e)%Z
    end.
  (** super_cell.py 68-71, 105-108. *)
  Definition enlarge (enl pbc : list Z) : result Z := enlarge_from 0 enl pbc 1%Z.

  (** range(n) for a Python int (empty when n <= 0). *)
  (** super_cell.py 82-84, 114: Python range(). *)
  Definition py_range (n : Z) : list Z := map Z.of_nat (seq 0 (Z.to_nat n)).

  (** super_cell.py 81-88: the fractional translations, x outermost, z fastest. *)
  Definition super_direct (e1 e2 e3 : Z) : list (v3 A) :=
    flat_map (fun x => flat_map (fun y => map (fun z =>
        V3 (fdiv (fofZ x) (fofZ e1)) (fdiv (fofZ y) (fofZ e2)) (fdiv (fofZ z) (fofZ e3)))
      (py_range e3)) (py_range e2)) (py_range e1).

  (** super_cell.py 80-88: numpy.empty([E, 3]) raises ValueError for negative E;
      writing a row beyond E raises IndexError; a row never written is garbage
      when read later ([EUninit]; numpy raises nothing). *)
  Definition super_direct_array (E e1 e2 e3 : Z) : result (list (v3 A)) :=
    if (E <? 0)%Z then Err EValue
    else
      let g := super_direct e1 e2 e3 in
      if (Z.of_nat (length g) <? E)%Z then Err EUninit
      else if (E <? Z.of_nat (length g))%Z then Err EIndex
      else Ok g.

  (** super_cell.py 78: the coordinate name handed to the setter. *)
  Definition coord_string (k : coord) : string :=
    match k with Direct => "direct" | Cartesian => "cartesian" end.

  (** super_cell.py 55-93 [set_super_cell]: the object's previous state is
      dropped by initialization().  A field that is None in [u] or [ar] gives a
      TypeError ([EType]); str(None) as coordinate is rejected (ValueError). *)
  Definition set_super_cell (u : cell A) (ar : args) : result (cell A) :=
    let! L := of_option EType (c_lat u) in
    let! enl := of_option EType (a_enl ar) in
    let! e1 := py_nth enl 0 in let! e2 := py_nth enl 1 in let! e3 := py_nth enl 2 in
    let SL := M3 (vscale (fofZ e1) (r1 L)) (vscale (fofZ e2) (r2 L)) (vscale (fofZ e3) (r3 L)) in
    let! pbc := of_option EType (a_pbc ar) in
    let! E := enlarge enl pbc in
    let! ty := of_option EType (c_type u) in
    let types := flat_map (fun t => repeat t (Z.to_nat E)) ty in
    let! num := of_option EType (c_num u) in
    let nums := map (fun n => (n * E)%Z) num in
    let! k := of_option EValue (c_coord u) in
    let! sd := super_direct_array E e1 e2 e3 in
    let! cart := of_option EType (c_cart u) in
    (* atom_cart setter of super_cell.py 90: (n_cart*E, 3) against len(atom_type) *)
    if negb (Nat.eqb (length cart * Z.to_nat E) (length types)) then Err EValue
    else
      let pos := flat_map (fun r => map (fun s => vadd r (vmul s SL)) sd) cart in
      Ok (mkCell (Some SL) (Some types) (Some nums) false (Some k) (Some pos) None None None).

  (** super_cell.py 95-118 [set_super_ind_true].  The [extend] calls bypass the
      setters; xyz_true is extended from the new atom_true. *)
  Definition set_super_ind_true (s u : cell A) (ar : args) : result (cell A) :=
    let! enl := of_option EType (a_enl ar) in
    let! pbc := of_option EType (a_pbc ar) in
    let! E := enlarge enl pbc in
    let! tr := of_option EType (c_true u) in
    let trues := flat_map (fun i => map (fun k => (i * E + k)%Z) (py_range E)) tr in
    let xyz := flat_map (fun i => [i; i; i]) trues in
    Ok (mkCell (c_lat s) (c_type s) (c_num s) true (c_coord s) (c_cart s) (Some trues) (Some xyz) (c_mass s)).

  (** pre_process.py 109-110 [PreProcess.set_super_cell] without the file. *)
  Definition build_super (u : cell A) (ar : args) : result (cell A) :=
    let! s := set_super_cell u ar in set_super_ind_true s u ar.
End SuperSec.
