(** Model of analysis.ThermalProperty (InterPhon/analysis/thermal_properties.py 19-102)
    over the real numbers.  numpy continues after an invalid operation with inf or nan;
    [None] stands for such a value (once an entry is not finite, adding to it leaves it
    not finite).  Overflow is not modelled: arithmetic is exact. *)
From Coq Require Import Reals Bool Lia Arith List.
From Verif Require Import Base.
Import ListNotations.
Local Open Scope list_scope.
Local Open Scope nat_scope.

(** propagation of nan/inf in thermal_properties.py 48-58. *)
Definition obind {A B} (x : option A) (f : A -> option B) : option B := match x with Some a => f a | None => None end.
(** numpy floating division and logarithm: not finite for a zero divisor, resp. an argument <= 0 *)
(** numpy division, thermal_properties.py 49-56; nan/inf when the divisor is 0. *)
Definition np_div (x y : R) : option R := if Req_EM_T y 0 then None else Some (x / y)%R.
(** np.log, thermal_properties.py 49, 56; nan/inf outside the positive numbers. *)
Definition np_log (x : R) : option R := if Rlt_dec 0 x then Some (ln x) else None.
(** numpy +, thermal_properties.py 48-58. *)
Definition oadd (x y : option R) : option R := obind x (fun a => obind y (fun b => Some (a + b)%R)).

(** thermal_properties.py 34-35 *)
Definition kb : R := ((138 / 100) * / 10 ^ 23 / ((1602 / 1000) * / 10 ^ 19))%R.
(** thermal_properties.py 35. *)
Definition h : R := ((6626 / 1000) * / 10 ^ 34 / ((1602 / 1000) * / 10 ^ 19))%R.

(** thermal_properties.py 48-49 (the bracket): f = eig_freq * 10 ** 12 *)
Definition free_term (f T : R) : option R :=
  obind (np_div (- h * f) (kb * T)) (fun x =>
  obind (np_log (1 - exp x)) (fun l => Some (1 / 2 * h * f + kb * T * l)%R)).
(** thermal_properties.py 53-56 (the bracket) *)
Definition entropy_term (f T : R) : option R :=
  obind (np_div 1 (2 * T)) (fun a =>
  obind (np_div (h * f) (2 * kb * T)) (fun y =>
  obind (np_div (a * h * f * cosh y) (sinh y)) (fun c =>
  obind (np_log (2 * sinh y)) (fun l => Some (c - kb * l)%R)))).
(** "/ len(self.process.k_points) / (self.process.w_q.shape[1] / 3)", 50-51 and 57-58; w_q has
    one row per k-point (post_process.py 399) *)
Definition share (nk nb : nat) (x : option R) : option R :=
  obind x (fun v => obind (np_div v (INR nk)) (fun v => np_div v (INR nb / 3))).

(** thermal_properties.py 24-27: the object. *)
Record thermal := mkThermal { t_temp : list R; t_free : list (option R); t_entropy : list (option R) }.
(** __init__, 24-27 *)
(** thermal_properties.py 24-27. *)
Definition thermal_init (temp : list R) : thermal :=
  mkThermal temp (map (fun _ => Some 0%R) temp) (map (fun _ => Some 0%R) temp).

(** [a += b] on arrays of one shape *)
(** thermal_properties.py 48, 53, 83, 91: += of arrays. *)
Fixpoint arr_add (a b : list (option R)) : list (option R) :=
  match a, b with x :: a', y :: b' => oadd x y :: arr_add a' b' | _, _ => [] end.

(** np.isin(self.temp, 0).nonzero()[0], 38 *)
(** thermal_properties.py 38. *)
Fixpoint zero_positions (i : nat) (temp : list R) : list nat :=
  match temp with
  | [] => []
  | T :: r => if Req_EM_T T 0 then i :: zero_positions (S i) r else zero_positions (S i) r
  end.
(** np.delete and np.insert at one position *)
(** thermal_properties.py 70: np.delete. *)
Definition delete_at {A} (i : nat) (l : list A) : list A := firstn i l ++ skipn (S i) l.
(** thermal_properties.py 98-99: np.insert. *)
Definition insert_at {A} (i : nat) (x : A) (l : list A) : list A := firstn i l ++ x :: skipn i l.

(** the accumulators of both branches: free energy, entropy, zero point energy, is_imaginary *)
(** thermal_properties.py 71-73: the running totals. *)
Definition acc : Type := (list (option R) * list (option R) * option R * bool)%type.
(** loop body, 42-58 and 77-96: the zero point energy is only used by the second branch *)
(** thermal_properties.py 42-58 and 77-96: one mode. *)
Definition mode_step (nk nb : nat) (temp : list R) (a : acc) (eig_freq : R) : acc :=
  let '(F, En, z, im) := a in
  if Rlt_dec eig_freq 0 then (F, En, z, true)
  else
    let f := (eig_freq * 10 ^ 12)%R in
    (arr_add F (map (fun T => share nk nb (free_term f T)) temp),
     arr_add En (map (fun T => share nk nb (entropy_term f T)) temp),
     oadd z (share nk nb (Some (1 / 2 * h * f)%R)), im).
(** thermal_properties.py 40-58 and 75-96: the loops. *)
Definition all_modes (nk nb : nat) (temp : list R) (wq : list (list R)) (a : acc) : acc :=
  fold_left (fun a eig_freqs => fold_left (mode_step nk nb temp) eig_freqs a) wq a.

(** ThermalProperty.set, 30-102: the new object and whether the caution is printed. *)
(** thermal_properties.py 30-102. *)
Definition thermal_set (wq : list (list R)) (nb : nat) (t : thermal) : thermal * bool :=
  let nk := length wq in
  match zero_positions 0 (t_temp t) with
  | [] =>
      let '(F, En, _, im) := all_modes nk nb (t_temp t) wq (t_free t, t_entropy t, Some 0%R, false) in
      (mkThermal (t_temp t) F En, im)
  | [i] =>
      let temp := delete_at i (t_temp t) in
      let '(F, En, z, im) := all_modes nk nb temp wq (map (fun _ => Some 0%R) temp, map (fun _ => Some 0%R) temp, Some 0%R, false) in
      (mkThermal (t_temp t) (insert_at i z F) (insert_at i (Some 0%R) En), im)
  | _ => (t, false)
  end.
