(** Model of the files the analyses write: Band.write (InterPhon/analysis/band.py 46-63),
    DOS.write (analysis/dos.py 104-146), ThermalProperty.write (analysis/thermal_properties.py
    104-122) and the frequencies of a non-periodic system (core/post_process.py 462-470).
    Numbers are exact reals; a number that is not finite is [None] and is printed as the word
    [bad] ("nan", "inf" or "-inf": which one is not modelled, nor is the sign of a zero). *)
From Coq Require Import Reals Qreals.
From Coquelicot Require Import Complex.
From Coq Require Import String Ascii ZArith QArith Qcanon Bool Lia Arith List.
From Verif Require Import Base Dec Field Text Phonon Band Thermal Dos.
Import ListNotations.
Local Open Scope list_scope.
Local Open Scope nat_scope.

(** rounding to an integer, half to even: part of '%.9f', band.py 60-62. *)
Definition rintR (x : R) : Z :=
  let n := Int_part x in
  if Rlt_dec (frac_part x) (1 / 2) then n
  else if Rlt_dec (1 / 2) (frac_part x) then (n + 1)%Z
  else if Z.even n then n else (n + 1)%Z.
(** 10 ** k for the k decimals of '%.9f' (band.py 60) and '%f' (dos.py 117). *)
Definition tenk (k : nat) : Z := (10 ^ Z.of_nat k)%Z.
(** integer part, point, k decimals: part of '%.9f', band.py 60-62. *)
Definition dec_text (k : nat) (m : Z) : string :=
  (nat_digits (m / tenk k) ++ String "." (fix_digits k (m mod tenk k) ""))%string.
(** '%.kf' % x: band.py 60-62, dos.py 117, 125, 134, 143-145, thermal_properties.py 121. *)
Definition fixed (k : nat) (x : R) : string :=
  let m := rintR (Rabs x * IZR (tenk k))%R in
  if Rlt_dec x 0 then String "-" (dec_text k m) else dec_text k m.
(** right alignment in w characters: '%16', '%20' (band.py 60, thermal_properties.py 121). *)
Definition padw (w : nat) (s : string) : string := (spaces (w - String.length s) ++ s)%string.
(** '{0:0>3}'.format(int), dos.py 139. *)
Definition pad3 (z : Z) : string := (zeros (3 - String.length (z_string z)) ++ z_string z)%string.

Section Files.
  (** the text of a number that is not finite *)
  Variable bad : string.
  (** the digits of one value, band.py 60-62. *)
  Definition value_text (k : nat) (x : option R) : string := match x with Some v => fixed k v | None => bad end.
  (** ' %16.9f ' % x (w = 16) or ' %20.9f ' % x (w = 20): band.py 60-62, dos.py 125, 143-145, thermal_properties.py 121. *)
  Definition column_text (w : nat) (x : option R) : string := (" " ++ padw w (value_text 9 x) ++ " ")%string.
  (** one line of a table: the columns joined, band.py 60-63, dos.py 125-126, 143-146, thermal_properties.py 121-122. *)
  Definition table_line (w : nat) (xs : list (option R)) : string := String.concat "" (map (column_text w) xs).

  (** Band.write, band.py 52-63: name and lines of band.dat; zip stops at the shorter array. *)
  Definition band_write (folder : string) (p : proc) (b : band) : string * list string :=
    ((folder ++ "/band.dat")%string,
     ["Phonon Band"; "    K_Points_Path    Frequency (THz)"]%string
       ++ map (fun xy => table_line 16 (Some (fst xy) :: map Some (snd xy))) (combine (b_len b) (map fst (p_modes p)))).

  (** dos.py 112-118 and 129-135: the comment line. *)
  Definition dos_comment (what : string) (sigma : R) : string :=
    if Req_EM_T sigma 0 then (what ++ " phonon DOS by Linear Tetrahedron Method")%string
    else (what ++ " phonon DOS by Gaussian Smearing with Sigma = " ++ fixed 6 sigma)%string.
  (** total_dos.dat, dos.py 111-126. *)
  Definition total_write (folder : string) (d : dos) : string * list string :=
    ((folder ++ "/total_dos.dat")%string,
     [dos_comment "Total" (d_sigma d); "    Frequency (THz)    Total_Density_of_State"%string]
       ++ map (fun xy => table_line 16 [Some (fst xy); snd xy]) (total_rows d)).
  (** dos.py 138-139: one label of the header. *)
  Definition pdos_label (z : Z) : string := ("   pdos-atom-" ++ pad3 z ++ "  ")%string.
  (** dos.py 142-146: one line per entry of _freq; _pdos[ind, x_ind] raises IndexError when
      there are fewer columns.  [n] is the number of components. *)
  Fixpoint projected_lines (n : nat) (freq : list R) (cols : list column) : list string * option err :=
    match freq with
    | [] => ([], None)
    | f :: fr =>
        match n, cols with
        | S _, [] => ([], Some EIndex)
        | _, _ =>
            let c := match cols with c :: _ => c | [] => fun _ => None end in
            let (ls, e) := projected_lines n fr (tl cols) in
            (table_line 16 (Some f :: map c (seq 0 n)) :: ls, e)
        end
    end.
  (** projected_dos.dat, dos.py 128-146; [xyz] is unit_cell.xyz_true.  The lines written before
      an exception stay in the file. *)
  Definition projected_write (folder : string) (xyz : list Z) (d : dos) : (string * list string) * option err :=
    let (ls, e) := projected_lines (length xyz) (d_freq d) (d_pdos d) in
    (((folder ++ "/projected_dos.dat")%string,
      [dos_comment "Projected" (d_sigma d);
       ("    Frequency (THz)" ++ String.concat "" (map pdos_label xyz))%string] ++ ls), e).
  (** DOS.write, dos.py 104-146: the files in writing order and the pending exception. *)
  Definition dos_write (folder : string) (xyz : list Z) (d : dos) : list (string * list string) * option err :=
    let (f, e) := projected_write folder xyz d in ([total_write folder d; f], e).

  (** zip of three arrays, thermal_properties.py 120. *)
  Fixpoint zip_three {A B C} (a : list A) (b : list B) (c : list C) : list (A * B * C) :=
    match a, b, c with x :: a', y :: b', z :: c' => (x, y, z) :: zip_three a' b' c' | _, _, _ => [] end.
  (** ThermalProperty.write, thermal_properties.py 104-122. *)
  Definition thermal_write (folder : string) (t : thermal) : string * list string :=
    ((folder ++ "/thermal_properties.dat")%string,
     ["Thermal Properties / atom"; "    Temperature (K)    Free_energy (eV/atom)    Entropy (meV/K/atom)"]%string
       ++ map (fun '(x, y1, y2) => table_line 20 [Some x; y1; omul y2 (num 1000)])
              (zip_three (t_temp t) (t_free t) (t_entropy t))).

  (** post_process.py 462-470: written when no direction is periodic; w_q[0] of an empty array
      raises IndexError after the two header lines. *)
  Definition gamma_write (p : proc) : option ((string * list string) * option err) :=
    match ind_pbc (p_pbc p) with
    | [] => let head := ["Discrete frequency of non-periodic system"; "    Frequency (THz)"]%string in
            match p_modes p with
            | [] => Some (("./freqency_at_gamma_point.dat"%string, head), Some EIndex)
            | m :: _ => Some (("./freqency_at_gamma_point.dat"%string, head ++ map (fun x => table_line 16 [Some x]) (fst m)), None)
            end
    | _ => None
    end.
End Files.
