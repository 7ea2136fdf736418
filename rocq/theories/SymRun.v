(** Model of a whole run with symmetry: the displaced structures written by
    PreProcess.write_displace_cell (InterPhon/core/pre_process.py 143-183) and the force
    constants set by PostProcess.set_force_constant (InterPhon/core/post_process.py
    110-176), each performing its own symmetry search on the two cells. *)
From Coq Require Import String ZArith Bool Arith List.
From Verif Require Import Base Field Args Cell Super Displace Force Sym.
Import ListNotations.
Local Open Scope list_scope.
Local Open Scope nat_scope.

Section Run.
  Context {A : Type} {F : Fld A} {N : Num A F}.
  (** symmetry.py 157, 331: the selected atoms of a cell.  Simplified: selections hold no
      negative numbers (they are built by UnitCell.set_atom_true; numpy would count from the end). *)
  Definition selected (c : cell A) : result (list (atom A)) :=
    let! atoms := atoms_of c in
    let! tr := of_option EType (c_true c) in
    mapM (fun z => py_nth atoms (Z.to_nat z)) tr.
  (** pre_process.py 146-157 and post_process.py 112-117: the search for the unit cell [u] and
      supercell [s]; symmetry.py 328: the enlargement is the quotient of the numbers of
      atoms.  [norms]: numpy.linalg.norm of the lattice vectors, [hs]: 1/sqrt(2). *)
  Definition cell_symmetry (fuel : nat) (norms : v3 A) (hs : A) (pqr : nat * nat * nat) (u s : cell A) : result (symdata A) :=
    let! L := of_option EType (c_lat u) in
    let! atoms := atoms_of u in
    let! tr := of_option EType (c_true u) in
    let! SL := of_option EType (c_lat s) in
    let! satoms := atoms_of s in
    let! ssel := selected s in
    symmetry_search fuel L SL norms hs pqr atoms (map Z.to_nat tr) (length satoms / length atoms) ssel.
  (** pre_process.py 160-166: for each required atom the first direction and the additional ones. *)
  Definition requests (sd : symdata A) : result (list (nat * (v3 A * list (v3 A)))) :=
    mapM (fun '(i, r) =>
      let! single := py_nth (sd_single sd) i in
      let! u0 := py_nth single 0 in
      let! adds := py_nth (sd_additional sd) i in
      Ok (r, (u0, adds))) (enumerate (sd_require sd)).
  (** pre_process.py 143-183 *)
  Definition preprocess_sym (fuel : nat) (norms : v3 A) (hs : A) (pqr : nat * nat * nat) (u s : cell A) (ar : args) (d : option A) : result (cell A * list (out A)) :=
    let! sd := cell_symmetry fuel norms hs pqr u s in
    let! req := requests sd in
    write_displace_sym u s ar d req.
  (** post_process.py 110-176 (identical for the other codes, 189-335) on the force constants [m]. *)
  Definition postprocess_sym {file : Type} (read : file -> result (list (v3 A))) (fuel : nat) (norms : v3 A) (hs : A) (pqr : nat * nat * nat)
      (u s : cell A) (d : A) (m : fmat A) (files : list file) : fmat A * option err :=
    match (let! sd := cell_symmetry fuel norms hs pqr u s in
           let! L := of_option EType (c_lat u) in
           let! tr := of_option EType (c_true u) in
           let! ts := of_option EType (c_true s) in
           let! ty := of_option EType (c_type s) in
           Ok (set_force_constant_sym read (length ty) (length tr) (map Z.to_nat ts) sd L norms d m files)) with
    | Ok r => r
    | Err e => (m, Some e)
    end.
End Run.
