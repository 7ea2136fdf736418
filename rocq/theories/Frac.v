(** Model of the commensurate enlargement of InterPhon/analysis/mode.py 170-180:
    Fraction(k).limit_denominator(100).denominator of each periodic component.
    fractions.Fraction.limit_denominator is CPython's Lib/fractions.py; it is
    modelled statement by statement. *)
From Coq Require Import ZArith QArith Qcanon Bool Lia List.
From Verif Require Import Base Args.
Import ListNotations.
Local Open Scope list_scope.
Local Open Scope Z_scope.

(** The while loop: p0, q0, p1, q1, n, d.  "//" of Python is Z.div (floor).  [fuel] bounds
    the iterations; running out is [EUninit], proved unreachable; d = 0 would be a
    ZeroDivisionError (also [EUninit] here, also unreachable). *)
(** mode.py 174: the loop of Fraction.limit_denominator. *)
Fixpoint limit_loop (fuel : nat) (m p0 q0 p1 q1 n d : Z) : result (Z * Z * Z * Z) :=
  match fuel with
  | O => Err EUninit
  | S fuel' =>
      if d =? 0 then Err EUninit
      else
        let a := n / d in
        let q2 := q0 + a * q1 in
        if m <? q2 then Ok (p0, q0, p1, q1)
        else limit_loop fuel' m p1 q1 (p0 + a * p1) q2 d (n - a * d)
  end.

(** Fraction(p, q) with q > 0. *)
(** mode.py 174: Fraction(p, q). *)
Definition fraction (p q : Z) : Qc := Q2Qc (p # Z.to_pos q).
(** mode.py 174: the comparison of distances in limit_denominator. *)
Definition Qcabs_diff (a b : Qc) : Qc := if Qcltb a b then (b - a)%Qc else (a - b)%Qc.

(** Fraction.limit_denominator(m), m >= 1. *)
(** mode.py 174: Fraction(x).limit_denominator(m). *)
Definition limit_denominator (m : Z) (x : Qc) : result Qc :=
  let N := Qnum (this x) in
  let D := Zpos (Qden (this x)) in
  if D <=? m then Ok x
  else
    let! (p0, q0, p1, q1) := limit_loop (S (Z.to_nat D)) m 0 1 1 0 N D in
    let k := (m - q0) / q1 in
    let bound1 := fraction (p0 + k * p1) (q0 + k * q1) in
    let bound2 := fraction p1 q1 in
    if Qcltb (Qcabs_diff bound1 x) (Qcabs_diff bound2 x) then Ok bound1 else Ok bound2.

(** mode.py 172-174. *)
Definition denominator (x : Qc) : Z := Zpos (Qden (this x)).
(** mode.py 171-174: one direction. *)
Definition comm_entry (flag : Z) (k : Qc) : result Z :=
  if flag =? 0 then Ok 1
  else let! y := limit_denominator 100 k in Ok (denominator y).
