(** Model of InterPhon/util/symmetry.py 4-481 (Symmetry2D).  numpy floats are exact
    numbers of a type with an order test and a floor ([Num]: Qc, executable, and R).
    numpy.linalg.norm of the lattice rows and 1/sqrt(2) are parameters ([norms],
    [hs]); PropsSym.v instantiates them with the real square roots. *)
From Coq Require Import String Ascii ZArith QArith Qcanon Qround Bool Lia Arith Reals List.
From Verif Require Import Base Field Args Cell Super Displace Force.
Import ListNotations.
Local Open Scope list_scope.
Local Open Scope nat_scope.

(** the comparisons and np.rint/np.modf of symmetry.py 152, 179-182, 198-200 on exact numbers. *)
Class Num (A : Type) (F : Fld A) : Type := { fleb : A -> A -> bool; ffloor : A -> Z }.
(** symmetry.py 152-200 on rationals. *)
#[export] Instance Num_Qc : Num Qc Fld_Qc := {| fleb := Qcleb; ffloor := fun x => Qfloor (this x) |}.
(** symmetry.py 152-200 on reals. *)
#[export] Instance Num_R : Num R Fld_R :=
  {| fleb := fun x y => if Rle_dec x y then true else false; ffloor := fun x => (up x - 1)%Z |}.

(** A 2x2 integer matrix ((m11 m12) (m21 m22)). *)
(** symmetry.py 5-51: a 2x2 integer matrix. *)
Record mat2 : Type := M2 { m11 : Z; m12 : Z; m21 : Z; m22 : Z }.
(** symmetry.py 391, 476: np.allclose of two integer matrices, which is equality. *)
Definition mat2_eqb (a b : mat2) : bool :=
  ((m11 a =? m11 b) && (m12 a =? m12 b) && (m21 a =? m21 b) && (m22 a =? m22 b))%Z%bool.
(** symmetry.py 388: np.identity, in the plane. *)
Definition id2 : mat2 := M2 1 0 0 1.
(** symmetry.py 390, 393: product, in the plane. *)
Definition mul2 (a b : mat2) : mat2 :=
  M2 (m11 a * m11 b + m12 a * m21 b) (m11 a * m12 b + m12 a * m22 b)
     (m21 a * m11 b + m22 a * m21 b) (m21 a * m12 b + m22 a * m22 b).
(** symmetry.py 223: np.trace. *)
Definition tr2 (a : mat2) : Z := (m11 a + m22 a)%Z.
(** symmetry.py 223: np.linalg.det. *)
Definition det2 (a : mat2) : Z := (m11 a * m22 a - m12 a * m21 a)%Z.

(** symmetry.py 5-51, in order. *)
Definition W_candidate : list mat2 :=
  [ M2 0 1 1 0; M2 0 1 (-1) 0; M2 0 (-1) 1 0; M2 0 (-1) (-1) 0;
    M2 0 1 1 1; M2 0 1 1 (-1); M2 0 1 (-1) 1; M2 0 (-1) 1 1; M2 0 (-1) (-1) 1; M2 0 (-1) 1 (-1); M2 0 1 (-1) (-1); M2 0 (-1) (-1) (-1);
    M2 1 0 0 1; M2 1 0 0 (-1); M2 (-1) 0 0 1; M2 (-1) 0 0 (-1);
    M2 1 0 1 1; M2 1 0 1 (-1); M2 1 0 (-1) 1; M2 (-1) 0 1 1; M2 (-1) 0 (-1) 1; M2 (-1) 0 1 (-1); M2 1 0 (-1) (-1); M2 (-1) 0 (-1) (-1);
    M2 1 1 0 1; M2 1 1 0 (-1); M2 1 (-1) 0 1; M2 (-1) 1 0 1; M2 (-1) (-1) 0 1; M2 (-1) 1 0 (-1); M2 1 (-1) 0 (-1); M2 (-1) (-1) 0 (-1);
    M2 1 1 1 0; M2 1 1 (-1) 0; M2 1 (-1) 1 0; M2 (-1) 1 1 0; M2 (-1) (-1) 1 0; M2 (-1) 1 (-1) 0; M2 1 (-1) (-1) 0; M2 (-1) (-1) (-1) 0 ]%Z.

(** periodicity.nonzero()[0] (two indices) and the first index with periodicity 0. *)
(** symmetry.py 143, 162, 180: periodicity.nonzero()[0] and the first direction without periodicity. *)
Definition plane (pbc : list Z) : option (nat * nat * nat) :=
  match map (fun z => negb (Z.eqb z 0)) pbc with
  | [true; true; false] => Some (0, 1, 2)
  | [true; false; true] => Some (0, 2, 1)
  | [false; true; true] => Some (1, 2, 0)
  | _ => None
  end.

(** symmetry.py 223-238: position in the table (m, 1, 2, 3, 4, 6); None = assert False. *)
Definition op_class (W : mat2) : option nat :=
  let is t d := ((tr2 W =? t) && (det2 W =? d))%Z%bool in
  if is 0%Z (-1)%Z then Some 0 else if is 2%Z 1%Z then Some 1 else if is (-2)%Z 1%Z then Some 2
  else if is (-1)%Z 1%Z then Some 3 else if is 0%Z 1%Z then Some 4 else if is 1%Z 1%Z then Some 5 else None.
(** symmetry.py 240-277. *)
Definition point_group_name (t : list nat) : option string :=
  match t with
  | [0; 1; 0; 0; 0; 0] => Some "1" | [0; 1; 1; 0; 0; 0] => Some "2" | [1; 1; 0; 0; 0; 0] => Some "m"
  | [2; 1; 1; 0; 0; 0] => Some "2mm" | [2; 2; 0; 0; 0; 0] => Some "m (cm)" | [4; 2; 2; 0; 0; 0] => Some "2mm (c2mm)"
  | [0; 1; 1; 0; 2; 0] => Some "4" | [4; 1; 1; 0; 2; 0] => Some "4mm" | [0; 1; 0; 2; 0; 0] => Some "3"
  | [3; 1; 0; 2; 0; 0] => Some "3m" | [0; 1; 1; 2; 0; 2] => Some "6" | [6; 1; 1; 2; 0; 2] => Some "6mm"
  | _ => None
  end%string.
(** symmetry.py 225-235: look_up_table[k] += 1. *)
Definition bump (k : nat) (t : list nat) : list nat := set_nth k (S (nth k t 0)) t.

(** symmetry.py 388-393: I, W, W^2, ... until the identity returns; [None] when that
    takes more than [fuel] steps (the code loops).  Simplified: powers of the
    embedded 3x3 matrix are those of the 2x2 block. *)
Fixpoint powers_from (fuel : nat) (W tmp : mat2) : option (list mat2) :=
  if mat2_eqb tmp id2 then Some []
  else match fuel with
       | 0 => None
       | S f => match powers_from f W (mul2 tmp W) with Some l => Some (tmp :: l) | None => None end
       end.
(** symmetry.py 388-393.  The loop is bounded by a fuel argument. *)
Definition powers (fuel : nat) (W : mat2) : option (list mat2) :=
  match powers_from fuel W W with Some l => Some (id2 :: l) | None => None end.

Section SymSec.
  Context {A : Type} {F : Fld A} {N : Num A F}.

  (** symmetry.py 414, 450: <. *)
  Definition fltb (x y : A) : bool := negb (fleb y x).
  (** np.allclose, symmetry.py 152, 182, 200: absolute value. *)
  Definition fabs (x : A) : A := if fleb f0 x then x else fopp x.
  (** symmetry.py 152, 179: millionths. *)
  Definition dec6 (n : Z) : A := fdiv (fofZ n) (fofZ (10 ^ 6)).
  (** numpy.rint: nearest integer, ties to even. *)
  (** symmetry.py 198, 350: np.rint (half to even). *)
  Definition frint (x : A) : Z :=
    let n := ffloor x in
    let d := fsub x (fofZ n) in
    let half := fdiv f1 (fofZ 2) in
    if fltb d half then n else if fltb half d then (n + 1)%Z else if Z.even n then n else (n + 1)%Z.
  (** numpy.round_(x, 6) *)
  (** symmetry.py 179: np.round_(x, 6). *)
  Definition round6 (x : A) : A := dec6 (frint (fmul x (fofZ (10 ^ 6)))).
  (** numpy.modf(x)[0] *)
  (** symmetry.py 181: fractional part of np.modf. *)
  Definition ffrac (x : A) : A := fsub x (fofZ (if fleb f0 x then ffloor x else (- ffloor (fopp x))%Z)).
  (** entrywise operation on a vector, symmetry.py 179-181. *)
  Definition vmap (g : A -> A) (v : v3 A) : v3 A := V3 (g (vx v)) (g (vy v)) (g (vz v)).
  (** numpy.allclose(v, zeros, atol): rtol multiplies 0 *)
  (** symmetry.py 182, 200, 352: np.allclose(v, zeros, atol). *)
  Definition small (atol : A) (v : v3 A) : bool :=
    (fleb (fabs (vx v)) atol && fleb (fabs (vy v)) atol && fleb (fabs (vz v)) atol)%bool.
  (** numpy.isclose(a, b, atol) with the default rtol = 1e-05 *)
  (** symmetry.py 152: np.isclose with the default rtol 1e-05. *)
  Definition isclose (atol a b : A) : bool := fleb (fabs (fsub a b)) (fadd atol (fmul (fdiv (fofZ 1) (fofZ (10 ^ 5))) (fabs b))).

  (** symmetry.py 143-146: entries (g11, g12, g22) of B B^T, B the block of lattice_matrix
      of the periodic rows and columns. *)
  Definition metric (L : m3 A) (p q : nat) : A * A * A :=
    let e := mget L in
    (fadd (fmul (e p p) (e p p)) (fmul (e p q) (e p q)),
     fadd (fmul (e p p) (e q p)) (fmul (e p q) (e q q)),
     fadd (fmul (e q p) (e q p)) (fmul (e q q) (e q q))).
  (** symmetry.py 151: W^T G W; W^T G W is symmetric. *)
  Definition rotate_metric (G : A * A * A) (W : mat2) : A * A * A :=
    let '(g11, g12, g22) := G in
    let a := fofZ (m11 W) in let b := fofZ (m12 W) in let c := fofZ (m21 W) in let d := fofZ (m22 W) in
    let h x1 y1 x2 y2 := fadd (fadd (fmul (fmul x1 x2) g11) (fmul (fadd (fmul x1 y2) (fmul y1 x2)) g12)) (fmul (fmul y1 y2) g22) in
    (h a c a c, h a c b d, h b d b d).
  (** symmetry.py 149-153 *)
  Definition metric_ok (G : A * A * A) (W : mat2) : bool :=
    let '(g11, g12, g22) := G in
    let '(h11, h12, h22) := rotate_metric G W in
    (isclose (dec6 1) g11 h11 && isclose (dec6 1) g12 h12 && isclose (dec6 1) g22 h22)%bool.
  (** symmetry.py 148-153. *)
  Definition lattice_ops (L : m3 A) (p q : nat) : list mat2 := filter (metric_ok (metric L p q)) W_candidate.

  (** symmetry.py 161-163: identity(3) with the block replaced. *)
  Definition embed (p q : nat) (W : mat2) : m3 A :=
    let e i j : A :=
      if Nat.eqb i p && Nat.eqb j p then fofZ (m11 W) else if Nat.eqb i p && Nat.eqb j q then fofZ (m12 W)
      else if Nat.eqb i q && Nat.eqb j p then fofZ (m21 W) else if Nat.eqb i q && Nat.eqb j q then fofZ (m22 W)
      else if Nat.eqb i j then f1 else f0 in
    M3 (V3 (e 0 0) (e 0 1) (e 0 2)) (V3 (e 1 0) (e 1 1) (e 1 2)) (V3 (e 2 0) (e 2 1) (e 2 2)).

  (** unit_cell.py: atom_type and atom_direct of one atom, symmetry.py 156, 178. *)
  Definition atom : Type := string * v3 A.
  (** symmetry.py 169-172: the reference atom: the first one outside the selection. *)
  Definition ref_atom (n : nat) (tr : list nat) : nat :=
    if length tr <? n then nth 0 (filter (fun i => negb (existsb (Nat.eqb i) tr)) (seq 0 n)) 0 else 0.
  (** symmetry.py 173-183.  The enumeration index, not the atom index, selects the
      position (line 179). *)
  Definition w_candidates (r : nat) (atoms : list atom) (tr : list nat) (W : m3 A) : list (v3 A) :=
    let n := length atoms in
    let t := ref_atom n tr in
    let aty i := match nth_error atoms i with Some a => fst a | None => EmptyString end in
    let apos i := match nth_error atoms i with Some a => snd a | None => v3z end in
    let others := filter (fun i => negb (Nat.eqb i t)) (seq 0 n) in
    v3z :: flat_map (fun '(oi, o) =>
      if String.eqb (aty o) (aty t) then
        let w := vmap round6 (vsub (apos oi) (mvmul W (apos t))) in
        if f_dec (vget w r) f0 then
          let w' := vmap ffrac w in
          if small (dec6 1) w' then [] else [w']
        else []
      else []) (enumerate others).

  (** symmetry.py 197-200 (and 349-352) *)
  Definition same_place (L : m3 A) (y x : v3 A) : bool :=
    let dx := vsub y x in
    small (dec6 100) (mvmul (transpose L) (vsub dx (vmap (fun t => fofZ (frint t)) dx))).
  (** symmetry.py 193-202: the indices appended for one atom. *)
  Definition matches (L : m3 A) (sel : list atom) (ty : string) (y : v3 A) : list nat :=
    flat_map (fun '(j, (ty', x)) => if String.eqb ty' ty && same_place L y x then [j] else []) (enumerate sel).
  (** symmetry.py 191-207 (and 337-358): the list object is appended to the results each time its length equals the
      number of selected atoms and may still grow; result = final list, number of times. *)
  Fixpoint match_loop (L : m3 A) (sel : list atom) (ys : list atom) (acc : list nat) (hits : nat) : list nat * nat :=
    match ys with
    | [] => (acc, hits)
    | (ty, y) :: r =>
        let acc' := acc ++ matches L sel ty y in
        match_loop L sel r acc' (hits + (if Nat.eqb (length acc') (length sel) then 1 else 0))
    end.
  (** symmetry.py 191-207. *)
  Definition accepted (L : m3 A) (sel ys : list atom) : list (list nat) :=
    let (same, hits) := match_loop L sel ys [] 0 in repeat same hits.

  (** One selected operation: rotation, translations with their index maps. *)
  (** symmetry.py 219-221: one entry of W_select, w_select and same_index_select. *)
  Record op : Type := mkOp { op_W : mat2; op_maps : list (v3 A * list nat) }.

  (** symmetry.py 160-210: one lattice operation. *)
  Definition space_op (L : m3 A) (p q r : nat) (atoms : list atom) (tr : list nat) (sel : list atom) (W : mat2) : op :=
    let M := embed p q W in
    mkOp W (flat_map (fun w => map (fun same => (w, same))
                (accepted L sel (map (fun '(ty, x) => (ty, vadd (mvmul M x) w)) sel)))
              (w_candidates r atoms tr M)).

  (** symmetry.py 212-238 *)
  Fixpoint count_ops (l : list op) (t : list nat) : result (list nat) :=
    match l with
    | [] => Ok t
    | o :: rest => let! k := of_option EAssert (op_class (op_W o)) in count_ops rest (bump k t)
    end.
  (** symmetry.py 215. *)
  Definition nonempty_op (o : op) : bool := match op_maps o with [] => false | _ => true end.

  (** symmetry.py 131-279 on a crystal given by lattice, atoms (type, direct position)
      and the selected atoms; lists W_select, w_select, same_index_select zipped, and
      the point-group name.  No atoms: other_atom_ind.remove raises ValueError. *)
  Definition search_point_group (L : m3 A) (pqr : nat * nat * nat) (atoms : list atom) (tr : list nat) : result (list op * string) :=
    let '(p, q, r) := pqr in
    match atoms with
    | [] => Err EValue
    | _ =>
        let! sel := mapM (py_nth atoms) tr in
        let ops := filter nonempty_op (map (space_op L p q r atoms tr sel) (lattice_ops L p q)) in
        let! t := count_ops ops [0; 0; 0; 0; 0; 0] in
        let! g := of_option ECannotSearchPointGroup (point_group_name t) in
        Ok (ops, g)
    end.

  (** same_index_select[i][0] *)
  (** symmetry.py 297, 333, 369: same[0]. *)
  Definition first_map (o : op) : result (list nat) := let! m := py_nth (op_maps o) 0 in Ok (snd m).

  (** symmetry.py 296-301: first operation that maps atom [ind] to a required one. *)
  Fixpoint find_image (ops : list op) (k ind : nat) (req : list nat) : result (option nat) :=
    match ops with
    | [] => Ok None
    | o :: rest =>
        let! m := first_map o in
        let! j := py_nth m ind in
        if existsb (Nat.eqb j) req then Ok (Some k) else find_image rest (S k) ind req
    end.
  (** symmetry.py 293-305 *)
  Fixpoint image_loop (ops : list op) (inds : list nat) (pgi req nreq : list nat) : result (list nat * list nat * list nat) :=
    match inds with
    | [] => Ok (pgi, req, nreq)
    | i :: rest =>
        match req with
        | [] => image_loop ops rest pgi (req ++ [i]) nreq
        | _ => let! f := find_image ops 0 i req in
               match f with
               | Some k => image_loop ops rest (pgi ++ [k]) req (nreq ++ [i])
               | None => image_loop ops rest pgi (req ++ [i]) nreq
               end
        end
    end.
  (** symmetry.py 293-305 (the supercell part, 307-309, is search_cell_image_index below). *)
  Definition search_image_atom (ops : list op) (ntrue : nat) : result (list nat * list nat * list nat) :=
    image_loop ops (seq 0 ntrue) [] [] [].

  (** symmetry.py 463-481: entries are small integers, so allclose is equality. *)
  Fixpoint find_op (W : mat2) (k : nat) (ops : list op) : result nat :=
    match ops with
    | [] => Err EAssert
    | o :: rest => if mat2_eqb (op_W o) W then Ok k else find_op W (S k) rest
    end.

  (** symmetry.py 313-360 on a cell with lattice [SL] and selected atoms [ssel]; E is int(len(cell)/len(unit cell)). *)
  Definition search_cell_image_index (ops : list op) (p q : nat) (E : nat) (SL : m3 A) (ssel : list atom) (W : mat2) : result (list (list nat)) :=
    let! k := find_op W 0 ops in
    let! o := py_nth ops k in
    let! m := first_map o in
    let! ls := mapM (fun '(ai, ii) =>
        let! a0 := py_nth ssel (ai * E) in
        let! a1 := py_nth ssel (ii * E) in
        Ok (accepted SL ssel (map (fun '(ty, x) => (ty, vadd (snd a1) (mvmul (embed p q W) (vsub x (snd a0))))) ssel))) (enumerate m) in
    Ok (concat ls).
  (** symmetry.py 307-309 *)
  Definition same_super (ops : list op) (p q E : nat) (SL : m3 A) (ssel : list atom) : result (list (list (list nat))) :=
    mapM (fun o => search_cell_image_index ops p q E SL ssel (op_W o)) ops.

  (** symmetry.py 362-371 *)
  Definition self_ops (ops : list op) (r : nat) : result (list nat) :=
    let! l := mapM (fun '(k, o) => let! m := first_map o in let! j := py_nth m r in Ok (if Nat.eqb j r then [k] else [])) (enumerate ops) in
    Ok (concat l).

  Section Independent.
    Variable L : m3 A.
    Variable norms : v3 A.
    (** 1/sqrt(2) *)
    Variable hs : A.
    (** symmetry.py 382: (1, 0, 1) / sqrt 2. *)
    Definition seed : v3 A := V3 hs f0 hs.
    (** symmetry.py 408-416, 445-451: the Cauchy-Schwarz test *)
    Definition parallel (u v : v3 A) : bool :=
      fltb (fsub (fmul (vdot u u) (vdot v v)) (fmul (vdot u v) (vdot u v))) (dec6 1).
    (** symmetry.py 405-424: [seen] are all earlier vectors, [kept] the chosen ones. *)
    Fixpoint pick (seen : list (v3 A)) (kept : list mat2) (rest : list (mat2 * v3 A)) : list mat2 :=
      match rest with
      | [] => kept
      | (W, v) :: r =>
          if existsb (parallel v) seen then pick (seen ++ [v]) kept r
          else if length kept <? 3 then pick (seen ++ [v]) (kept ++ [W]) r
          else kept
      end.
    (** symmetry.py 373-428 for one required atom with self-operations [self]:
        (independent_by_W_index, independent_by_W_displacement_cart,
        independent_by_single_displacement_cart). [fuel] bounds the order loop
        (result EUninit when it is not enough: the code does not terminate). *)
    Definition independent_one (fuel : nat) (ops : list op) (p q : nat) (self : list nat) : result (list nat * list (m3 A) * list (v3 A)) :=
      let! ls := mapM (fun k => let! o := py_nth ops k in of_option EUninit (powers fuel (op_W o))) self in
      let cart W := cart_op L norms (embed p q W) in
      let all := map (fun W => (W, mvmul (cart W) seed)) (concat ls) in
      match all with
      | [] => Err EIndex
      | (W0, v0) :: rest =>
          let ks := pick [v0] [W0] rest in
          let! idx := mapM (fun W => find_op W 0 ops) ks in
          Ok (idx, map cart ks, map (fun W => mvmul (cart W) seed) ks)
      end.
    (** symmetry.py 430-461 *)
    Definition additional_candidates : list (v3 A) := [V3 f0 hs hs; V3 hs hs f0].
    (** symmetry.py 434-461, one atom. *)
    Definition additional (single : list (v3 A)) : list (v3 A) :=
      match length single with
      | 2 => match filter (fun c => negb (existsb (parallel c) single)) additional_candidates with
             | c :: _ => [c]
             | [] => []
             end
      | 1 => additional_candidates
      | _ => []
      end.
  End Independent.

  (** pre_process.py 136-151: the symmetry flag ([None]: symmetry is not used).  The handler of
      Cannot_Search_Point_Group evaluates e.value (line 150), an attribute the class
      does not define (error/error.py 137-145): AttributeError. *)
  Definition pre_symmetry (flag : bool) (pbc : list Z) (L : m3 A) (atoms : list atom) (tr : list nat) : result (option (list op * string)) :=
    if negb flag then Ok None
    else match plane pbc with
         | None => Ok None
         | Some pqr => match search_point_group L pqr atoms tr with
                       | Ok x => Ok (Some x)
                       | Err ECannotSearchPointGroup => Err EAttr
                       | Err e => Err e
                       end
         end.
  (** pre_process.py 142-157 and post_process.py 112-117: the whole search. *)
  Definition symmetry_search (fuel : nat) (L SL : m3 A) (norms : v3 A) (hs : A) (pqr : nat * nat * nat) (atoms : list atom) (tr : list nat) (E : nat) (ssel : list atom)
    : result (symdata A) :=
    let '(p, q, r) := pqr in
    let! (ops, g) := search_point_group L pqr atoms tr in
    let! (pgi, req, nreq) := search_image_atom ops (length tr) in
    let! ss := same_super ops p q E SL ssel in
    let! selfs := mapM (self_ops ops) req in
    let! ind := mapM (independent_one L norms hs fuel ops p q) selfs in
    let single := map snd ind in
    Ok (mkSym (map (fun o => embed p q (op_W o)) ops) (map (fun o => map snd (op_maps o)) ops) pgi req nreq ss
          (map (fun x => fst (fst x)) ind) (map (fun x => snd (fst x)) ind) single (map (additional hs) single)).
End SymSec.
Arguments op A : clear implicits.
Arguments atom A : clear implicits.

(** The inputs of the search taken from a cell (symmetry.py 156-157, 331). *)
Section OfCell.
  Context {A : Type} {F : Fld A}.
  (** symmetry.py 156, 178: atom_type and atom_direct. *)
  Definition atoms_of (c : cell A) : result (list (atom A)) :=
    let! ty := of_option EType (c_type c) in
    let! xs := get_atom_direct c in
    Ok (combine ty xs).
End OfCell.
