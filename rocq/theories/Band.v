(** Model of analysis.Band (InterPhon/analysis/band.py 16-44) and of the parts of
    PostProcess that the analysis classes read. *)
From Coq Require Import Reals ZArith Bool Lia Arith List.
From Coquelicot Require Import Complex.
From Verif Require Import Base Field Phonon.
Import ListNotations.
Local Open Scope list_scope.
Local Open Scope nat_scope.

(** process.k_points, process.w_q / v_q (one pair per k-point, as eval_phonon leaves them),
    len(process.unit_cell.xyz_true), process.auto_k_points, process.user_arg.periodicity. *)
(** the attributes of PostProcess read by band.py 19-43 and dos.py 26-100. *)
Record proc := mkProc { p_k : list (v3 R); p_modes : list (list R * cmat); p_n : nat; p_auto : list Z; p_pbc : list Z }.

(** numpy.allclose(a, b) on two 3-vectors, default tolerances. *)
(** np.isclose with its default tolerances, band.py 35, mode.py 67. *)
Definition iscloseR (a b : R) : bool := if Rle_dec (Rabs (a - b)) (/ 10 ^ 8 + / 10 ^ 5 * Rabs b) then true else false.
(** np.allclose, band.py 35, mode.py 67. *)
Definition allcloseR (a b : v3 R) : bool := (iscloseR (vx a) (vx b) && iscloseR (vy a) (vy b) && iscloseR (vz a) (vz b))%bool.

(** band.py 19-24: the object. *)
Record band := mkBand { b_len : list R; b_ticks : list nat; b_proj : list (nat -> nat -> R) }.
(** band.py 20-25; projected_w is numpy.empty: represented by an empty list until set. *)
Definition band_init (p : proc) : band := mkBand (map (fun _ => 0%R) (p_k p)) [0] [].

(** band.py 31-37, the loop over k_points[1:]: [prev] is k_points[ind - 1], [acc] its length. *)
Fixpoint band_loop (ind : nat) (prev : v3 R) (acc : R) (ks : list (v3 R)) : list R * list nat :=
  match ks with
  | [] => ([], [])
  | k :: r =>
      let d := vsub k prev in
      let x := (acc + sqrt (vdot d d))%R in
      let (xs, ts) := band_loop (S ind) k x r in
      (x :: xs, if allcloseR k prev then ind :: ts else ts)
  end.
(** |z| ** 2, band.py 43-44 *)
Definition abs2 (z : C) : R := (Cmod z ^ 2)%R.
(** Band.set, band.py 27-44.  After the loop, "self.ind_high_sym.append(ind)" reads the loop
    variable: unbound when there are fewer than two k-points.  k_points_length[0] is not
    written. *)
Definition band_set (p : proc) (b : band) : result band :=
  match p_k p with
  | k0 :: ((_ :: _) as r) =>
      let start := nth 0 (b_len b) 0%R in
      let (xs, ts) := band_loop 1 k0 start r in
      Ok (mkBand (start :: xs) (b_ticks b ++ ts ++ [length r])
                 (map (fun m i j => abs2 (snd m i j)) (p_modes p)))
  | _ => Err EUnbound
  end.
