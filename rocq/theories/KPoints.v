(** Model of InterPhon/util/k_points.py and PostProcess.set_k_points
    (InterPhon/core/post_process.py 347-389). *)
From Coq Require Import String Ascii ZArith QArith Qcanon Bool Lia Arith List.
From Verif Require Import Base Dec Field Cell Super Text.
Import ListNotations.
Local Open Scope list_scope.
Local Open Scope nat_scope.

(** user_arg.periodicity.nonzero()[0]: the indices of periodic directions. *)
(** post_process.py 373: periodicity.nonzero()[0]. *)
Definition nonzero_indices (p : list Z) : list nat :=
  map fst (filter (fun iv => negb (Z.eqb (snd iv) 0)) (enumerate p)).
(** k_points.py 22, 278: `i in _ind_pbc`. *)
Definition mem_nat (n : nat) (l : list nat) : bool := existsb (Nat.eqb n) l.

(** np.zeros((3,)) with component [a] set to x (k_points.py 37-38, ...). *)
Definition axis_vec (a : nat) (x : Qc) : v3 Qc :=
  V3 (if Nat.eqb a 0 then x else 0%Qc) (if Nat.eqb a 1 then x else 0%Qc) (if Nat.eqb a 2 then x else 0%Qc).
(** k_points.py 34, 206: np.zeros((3,)). *)
Definition zero3 : v3 Qc := V3 0%Qc 0%Qc 0%Qc.

(** int(token), float(token) *)
(** k_points.py 20, 192, 275, 305: int(). *)
Definition to_int (t : string) : result Z := of_option EValue (parse_int t).
(** k_points.py 29, 201, 285: float(). *)
Definition to_float (t : string) : result Qc := of_option EValue (parse_float t).

(** k_points.py 20-26, 192-198: a count different from 1 along a non-periodic
    direction is rejected; auto_k_points[ind] may be missing. *)
Fixpoint check_counts (auto : list Z) (ind_pbc : list nat) (inds : list nat) : result unit :=
  match inds with
  | [] => Ok tt
  | i :: r =>
      if mem_nat i ind_pbc then check_counts auto ind_pbc r
      else let! n := py_nth auto i in
           if Z.eqb n 1 then check_counts auto ind_pbc r else Err EMismatchKpathPBC
  end.

(** One term __tmp * (ind + shift (+ 0.5)) / float(auto). *)
(** k_points.py 33-103 and 205-249: one component of a grid point. *)
Definition grid_term (auto : list Z) (shift : list Qc) (half : Qc) (a : nat) (i : Z) : result (v3 Qc) :=
  let! s := py_nth shift a in
  let! n := py_nth auto a in
  Ok (axis_vec a (Qcdiv (Qcplus (Qcplus (fofZ i) s) half) (fofZ n))).
(** k_points.py 33-103 and 205-249: range over one grid direction. *)
Definition axis_range (auto : list Z) (a : nat) : result (list Z) :=
  let! n := py_nth auto a in Ok (py_range n).
(** k_points.py 33-103 and 205-249: nested loops that append. *)
Definition concatM {A B} (f : A -> result (list B)) (l : list A) : result (list B) :=
  let! m := mapM f l in Ok (concat m).

(** k_points.py 28-31, 200-203: the optional fifth line. *)
Definition read_shift (lines : list string) : result (list Qc) :=
  match nth_error lines 4 with
  | Some l => mapM to_float (tslice 0 3 (split_ws l))
  | None => Ok [0%Qc; 0%Qc; 0%Qc]
  end.

(** k_points.py 33-103 (offset 0) and 205-249 (offset 0.5): loops over the
    periodic directions only. *)
Definition grid_points (auto : list Z) (shift : list Qc) (half : Qc) (ind_pbc : list nat) : result (list (v3 Qc)) :=
  let term := grid_term auto shift half in
  match ind_pbc with
  | [] => Ok [zero3]
  | [a] => let! r1 := axis_range auto a in mapM (fun i => term a i) r1
  | [a; b] =>
      let! r1 := axis_range auto a in
      concatM (fun i => let! r2 := axis_range auto b in
        mapM (fun j => let! t1 := term a i in let! t2 := term b j in Ok (vadd t1 t2)) r2) r1
  | [a; b; c] =>
      let! r1 := axis_range auto a in
      concatM (fun i => let! r2 := axis_range auto b in
        concatM (fun j => let! r3 := axis_range auto c in
          mapM (fun k => let! t1 := term a i in let! t2 := term b j in let! t3 := term c k in
                         Ok (vadd (vadd t1 t2) t3)) r3) r2) r1
  | _ => Ok []
  end.

(** k_points.py 7-176 [gamma_centered] (half = 0) and 179-259 [monkhorst_pack]
    (half = 0.5); the two functions differ in that term only. *)
Definition auto_grid (half : Qc) (lines : list string) (ind_pbc : list nat) : result (list (v3 Qc) * list Z) :=
  let! l3 := py_nth lines 3 in
  let! auto := mapM to_int (tslice 0 3 (split_ws l3)) in
  let! _ := check_counts auto ind_pbc [0; 1; 2] in
  let! shift := read_shift lines in
  let! ks := grid_points auto shift half ind_pbc in
  Ok (ks, auto).
(** k_points.py 7-176. *)
Definition gamma_centered := auto_grid 0%Qc.
(** k_points.py 179-259. *)
Definition monkhorst_pack := auto_grid (Q2Qc (1 # 2)).

(** numpy.asfarray of one row of tokens.  Simplified: rows of other lengths than
    3 are an error (numpy would fail later, or broadcast a single number). *)
(** k_points.py 285, 306: np.asfarray of the first three words. *)
Definition k_row (ts : list string) : result (v3 Qc) :=
  let! r := parse_row ts in of_option EValue (row3 r).

(** __k_point[_ind_non_pbc].any(); an empty index list is a float array, which
    cannot be used as an index (IndexError). *)
(** k_points.py 287: component of a k-point. *)
Definition comp (v : v3 Qc) (i : nat) : Qc := match i with 0 => vx v | 1 => vy v | _ => vz v end.
(** k_points.py 278. *)
Definition non_periodic (ind_pbc : list nat) : list nat := filter (fun i => negb (mem_nat i ind_pbc)) [0; 1; 2].
(** k_points.py 287. *)
Definition any_nonperiodic (ind_pbc : list nat) (v : v3 Qc) : result bool :=
  match non_periodic ind_pbc with
  | [] => Err EIndex
  | l => Ok (existsb (fun i => negb (if Qc_eq_dec (comp v i) 0 then true else false)) l)
  end.

(** numpy.linspace(a, b, n): n samples including both ends (one sample: a);
    negative n is a ValueError. *)
(** k_points.py 290-291: np.linspace. *)
Definition linspace (a b : v3 Qc) (n : Z) : result (list (v3 Qc)) :=
  if (n <? 0)%Z then Err EValue
  else Ok (map (fun i => vadd a (vscale (Qcdiv (fofZ i) (fofZ (n - 1))) (vsub b a))) (py_range n)).
(* (for n = 1 the code's single sample is a; here 0/0 * (b - a) with x/0 = 0.) *)

(** k_points.py 284-291: the loop over pairs of points. *)
Fixpoint path_segments (ind_pbc : list nat) (n : Z) (pts : list (list string)) : result (list (v3 Qc)) :=
  match pts with
  | t1 :: t2 :: r =>
      let! a := k_row t1 in
      let! bad := any_nonperiodic ind_pbc a in
      if bad then Err EMismatchKpathPBC
      else
        let! b := k_row t2 in
        let! seg := linspace a b n in
        let! rest := path_segments ind_pbc n r in
        Ok (seg ++ rest)
  | _ => Ok []
  end.

(** k_points.py 276, 306: lines with at least one word. *)
Definition nonblank (l : string) : bool := match split_ws l with [] => false | _ => true end.
(** k_points.py 262-293 [line_path]. *)
Definition line_path (lines : list string) (ind_pbc : list nat) : result (list (v3 Qc)) :=
  let! l1 := py_nth lines 1 in
  let! t := py_nth (split_ws l1) 0 in
  let! n := to_int t in
  let pts := map (fun l => tslice 0 3 (split_ws l)) (filter nonblank (skipn 3 lines)) in
  if Nat.odd (length pts) then Err EInvalidLineKpath
  else path_segments ind_pbc n pts.

(** k_points.py 296-308 [explicit_reciprocal]. *)
Definition explicit_reciprocal (lines : list string) : result (list (v3 Qc)) :=
  let! l1 := py_nth lines 1 in
  let! t := py_nth (split_ws l1) 0 in
  let! n := to_int t in
  mapM (fun l => k_row (tslice 0 3 (split_ws l))) (filter nonblank (py_slice lines 3 (3 + n))).

(** post_process.py 364-389: k_points and auto_k_points are reset first; the
    returned pair is their value afterwards, with the pending exception. *)
Definition set_k_points (lines : list string) (pbc : option (list Z)) : (list (v3 Qc) * list Z) * option err :=
  let run (r : result (list (v3 Qc) * list Z)) :=
    match r with Ok x => (x, None) | Err e => (([], []), Some e) end in
  run (let! p := of_option EAttr pbc in
       let ind := nonzero_indices p in
       let! c := first_char lines 2 in
       if char_in c ["G"; "g"]%char then gamma_centered lines ind
       else if char_in c ["M"; "m"]%char then monkhorst_pack lines ind
       else if char_in c ["L"; "l"]%char then let! ks := line_path lines ind in Ok (ks, [])
       else if char_in c ["R"; "r"]%char then let! ks := explicit_reciprocal lines in Ok (ks, [])
       else Ok ([], [])).
