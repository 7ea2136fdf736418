(** Model of PostProcess.set_force_constant (InterPhon/core/post_process.py 89-345)
    and set_reciprocal_lattice (78-87).  The three code_name branches (110-187,
    189-266, 268-345) differ in the force-file reader only; the reader is
    the parameter [read].  The results of the symmetry search are the record
    [symdata]. *)
From Coq Require Import String Ascii ZArith Bool Lia Arith List.
From Verif Require Import Base Field Cell Super.
Import ListNotations.
Local Open Scope list_scope.
Local Open Scope nat_scope.

(** list with element [k] replaced (numpy item assignment); IndexError outside. *)
(** post_process.py 148-149: assignment to a row of an array. *)
Definition np_set {B} (l : list B) (k : nat) (x : B) : result (list B) :=
  if k <? length l then Ok (set_nth k x l) else Err EIndex.

Section ForceSec.
  Context {A : Type} {F : Fld A}.

  (** numpy.empty((nrow, ncol)): a cell not written yet holds arbitrary memory
      ([None]). *)
  (** post_process.py 54-55: the array of force constants, None where np.empty left it unset. *)
  Definition fmat : Type := nat -> nat -> option A.
  (** post_process.py 54-55: np.empty. *)
  Definition empty_mat : fmat := fun _ _ => None.

  (** Subtraction of two (n, 3) arrays with numpy broadcasting of a single row. *)
  (** post_process.py 186: difference of two force arrays; shapes must agree. *)
  Definition np_sub (a b : list (v3 A)) : result (list (v3 A)) :=
    if Nat.eqb (length a) (length b) then Ok (map (fun '(u, v) => vsub u v) (combine a b))
    else match a, b with
         | [u], _ => Ok (map (fun v => vsub u v) b)
         | _, [v] => Ok (map (fun u => vsub u v) a)
         | _, _ => Err EValue
         end.

  (** 10 ** (-10) *)
  (** post_process.py 161, 186: 10 ** (-10). *)
  Definition angstrom : A := fdiv f1 (fofZ (10 ^ 10)).
  (** - x / (2 * displacement * 10 ** (-10)); over numpy a zero displacement gives
      inf/nan, here x / 0 is arbitrary: theorems assume the displacement non-zero. *)
  (** post_process.py 186: - x / (2 * displacement * 10 ** (-10)). *)
  Definition fd (d x : A) : A := fdiv (fopp x) (fmul (fmul (fofZ 2) d) angstrom).
  (** post_process.py 187: reshape to one axis. *)
  Definition flatten (m : list (v3 A)) : list A := flat_map (fun v => [vx v; vy v; vz v]) m.

  (** force_constant[:, j] = col.reshape([nrow, ]) *)
  (** post_process.py 187: assignment of one column. *)
  Definition set_column (nrow ncol : nat) (m : fmat) (j : nat) (col : list A) : result fmat :=
    if negb (Nat.eqb (length col) nrow) then Err EValue
    else if ncol <=? j then Err EIndex
    else Ok (fun r c => if Nat.eqb c j then nth_error col r else m r c).

  Section Reader.
    Context {file : Type} (read : file -> result (list (v3 A))).

    (** post_process.py 178-187 (257-266, 336-345): files are consumed in pairs by parity of their
        position; the state written so far stays when a file raises. *)
    Fixpoint fd_loop (nrow ncol : nat) (d : A) (idx : nat) (fwd : option (list (v3 A))) (m : fmat) (files : list file)
      : fmat * option err :=
      match files with
      | [] => (m, None)
      | f :: r =>
          match read f with
          | Err e => (m, Some e)
          | Ok forces =>
              if Nat.even idx then fd_loop nrow ncol d (S idx) (Some forces) m r
              else
                match (let! fw := of_option EUnbound fwd in
                       let! df := np_sub fw forces in
                       set_column nrow ncol m (idx / 2) (map (fd d) (flatten df))) with
                | Err e => (m, Some e)
                | Ok m' => fd_loop nrow ncol d (S idx) fwd m' r
                end
          end
      end.
    (** nrow = 3 * supercell atoms, ncol = 3 * selected atoms (post_process.py 54-55). *)
    Definition set_force_constant_nosym (nsuper nsel : nat) (d : A) (m : fmat) (files : list file) : fmat * option err :=
      fd_loop (3 * nsuper) (3 * nsel) d 0 None m files.

    (** What the symmetry search hands over (util/symmetry.py 79-96). *)
    Record symdata : Type := mkSym {
      sd_W : list (m3 A);                         (* W_select *)
      sd_same_index : list (list (list nat));     (* same_index_select *)
      sd_pgi : list nat;                          (* point_group_ind *)
      sd_require : list nat;                      (* require_atom *)
      sd_not_require : list nat;                  (* not_require_atom *)
      sd_same_super : list (list (list nat));     (* same_supercell_index_select *)
      sd_W_index : list (list nat);               (* independent_by_W_index *)
      sd_W_cart : list (list (m3 A));             (* independent_by_W_displacement_cart *)
      sd_single : list (list (v3 A));             (* independent_by_single_displacement_cart *)
      sd_additional : list (list (v3 A)) }.       (* independent_additional_displacement_cart *)

    (** post_process.py 123-128: columns of to_cart_displace; inv raises LinAlgError
        when there are not three of them or they are dependent. *)
    Definition displace_inverse (l : list (v3 A)) : result (m3 A) :=
      match l with
      | [a; b; c] => let M := transpose (M3 a b c) in
                     if f_dec (det M) f0 then Err ELinAlg else Ok (minv_raw M)
      | _ => Err ELinAlg
      end.

    (** dest[image] = src[original], element by element (post_process.py 145-149);
        super_cell.atom_true is [st]. *)
    Fixpoint scatter (st : list nat) (src : list (v3 A)) (k : nat) (img : list nat) (dest : list (v3 A)) : result (list (v3 A)) :=
      match img with
      | [] => Ok dest
      | v :: r =>
          let! t := py_nth st v in
          let! s := py_nth st k in
          let! x := py_nth src s in
          let! dest' := np_set dest t x in
          scatter st src (S k) r dest'
      end.

    (** post_process.py 130-131: forward_force and backward_force, None where unset. *)
    Definition columns : Type := nat -> option (list (v3 A) * list (v3 A)).
    (** forward_force[:, c] = ... and backward_force[:, c] = ... *)
    (** post_process.py 151-152, 156-157: assignment of one column of both. *)
    Definition put_columns (n : nat) (cols : columns) (c : nat) (f b : list (v3 A)) : result columns :=
      if negb (Nat.eqb (length f) n && Nat.eqb (length b) n) then Err EValue
      else if 3 <=? c then Err EIndex
      else Ok (fun k => if Nat.eqb k c then Some (f, b) else cols k).

    (** post_process.py 140-153: the loop over the operations applied to the first
        displacement; f', b' are __forward_matrix, __backward_matrix. *)
    Fixpoint rotate_loop (n : nat) (st : list nat) (same_super : list (list (list nat))) (require : nat)
        (f b : list (v3 A)) (k : nat) (ops : list (nat * m3 A)) (f' b' : list (v3 A)) (cols : columns) (kk : option nat)
      : result (columns * option nat) :=
      match ops with
      | [] => Ok (cols, kk)
      | (wi, W) :: r =>
          let! per_atom := py_nth same_super wi in
          let! img := py_nth per_atom require in
          let! f1 := scatter st (map (mvmul W) f) 0 img f' in
          let! b1 := scatter st (map (mvmul W) b) 0 img b' in
          let! cols' := put_columns n cols (0 + k) f1 b1 in
          rotate_loop n st same_super require f b (S k) r f1 b1 cols' (Some k)
      end.

    (** post_process.py 130-159: the pairs of files of one required atom; [p] is j // 2. *)
    Fixpoint atom_loop (n : nat) (st : list nat) (same_super : list (list (list nat))) (require : nat)
        (ops : list (nat * m3 A)) (adds : list (v3 A)) (p count : nat) (cols : columns) (kk : option nat) (files : list file)
      : result (columns * list file) :=
      match count with
      | 0 => Ok (cols, files)
      | S count' =>
          match files with
          | f :: b :: r =>
              let! ff := read f in
              let! fb := read b in
              let! (cols', kk') :=
                if Nat.eqb p 0 then rotate_loop n st same_super require ff fb 0 ops ff fb cols kk
                else match adds with
                     | [] => Ok (cols, kk)
                     | _ => let! k0 := of_option EUnbound kk in
                            let! c := put_columns n cols (p + k0) ff fb in Ok (c, kk)
                     end in
              atom_loop n st same_super require ops adds (S p) count' cols' kk' r
          | [f] => let! _ := read f in Err EIndex
          | [] => Err EIndex
          end
      end.

    (** 3x3 block of supercell atom [s]: column c is (forward - backward) of column c. *)
    (** post_process.py 161: forward_force - backward_force, the rows of one atom. *)
    Definition diff_block (cols : columns) (s : nat) : option (m3 A) :=
      match cols 0, cols 1, cols 2 with
      | Some (f0', b0'), Some (f1', b1'), Some (f2', b2') =>
          match nth_error f0' s, nth_error b0' s, nth_error f1' s, nth_error b1' s, nth_error f2' s, nth_error b2' s with
          | Some u0, Some v0, Some u1, Some v1, Some u2, Some v2 =>
              Some (transpose (M3 (vsub u0 v0) (vsub u1 v1) (vsub u2 v2)))
          | _, _, _, _, _, _ => None
          end
      | _, _, _ => None
      end.
    (** post_process.py 161: an entrywise operation. *)
    Definition map_m3 (g : A -> A) (M : m3 A) : m3 A :=
      let mv v := V3 (g (vx v)) (g (vy v)) (g (vz v)) in M3 (mv (r1 M)) (mv (r2 M)) (mv (r3 M)).
    (** - (forward - backward) @ to_random / (2 d 1e-10): numpy negates first; the
        order of negation, product and division does not matter exactly. *)
    (** post_process.py 161. *)
    Definition fc_block (d : A) (inv : m3 A) (B : m3 A) : m3 A :=
      map_m3 (fun x => fdiv x (fmul (fmul (fofZ 2) d) angstrom)) (mmul (map_m3 fopp B) inv).

    (** entry (i, j) of a 3x3 block *)
    (** component of a 3-vector, post_process.py 161-162. *)
    Definition vget (v : v3 A) (i : nat) : A := match i with 0 => vx v | 1 => vy v | _ => vz v end.
    (** entry of a 3x3 block, post_process.py 161-162. *)
    Definition mget (M : m3 A) (i j : nat) : A :=
      vget (match i with 0 => r1 M | 1 => r2 M | _ => r3 M end) j.
    (** post_process.py 174-175: reading a 3x3 block. *)
    Definition block_of (m : fmat) (s c : nat) : option (m3 A) :=
      let e i j := m (3 * s + i) (3 * c + j) in
      match e 0 0, e 0 1, e 0 2, e 1 0, e 1 1, e 1 2, e 2 0, e 2 1, e 2 2 with
      | Some a, Some b, Some c', Some d, Some e', Some f, Some g, Some h, Some i =>
          Some (M3 (V3 a b c') (V3 d e' f) (V3 g h i))
      | _, _, _, _, _, _, _, _, _ => None
      end.
    (** force_constant[3s:3s+3, 3c:3c+3] = B *)
    (** post_process.py 162, 171-172: assigning a 3x3 block. *)
    Definition put_block (m : fmat) (s c : nat) (B : option (m3 A)) : fmat :=
      fun i j => if (Nat.eqb (i / 3) s && Nat.eqb (j / 3) c)%bool
                 then option_map (fun M => mget M (i mod 3) (j mod 3)) B else m i j.
    (** force_constant[:, 3c:3c+3] = ... (post_process.py 161-162) *)
    Definition put_block_column (m : fmat) (c : nat) (B : nat -> option (m3 A)) : fmat :=
      fun i j => if Nat.eqb (j / 3) c then option_map (fun M => mget M (i mod 3) (j mod 3)) (B (i / 3)) else m i j.

    (** post_process.py 119-162: all required atoms.  A slice beyond the columns is a
        shape mismatch (ValueError). *)
    Fixpoint require_loop (n nsel : nat) (st : list nat) (sd : symdata) (d : A) (i : nat) (require : list nat)
        (m : fmat) (files : list file) : fmat * option err :=
      match require with
      | [] => (m, None)
      | r :: rest =>
          match (let! adds := py_nth (sd_additional sd) i in
                 let! single := py_nth (sd_single sd) i in
                 let! inv := displace_inverse (single ++ adds) in
                 let! wi := py_nth (sd_W_index sd) i in
                 let! wc := py_nth (sd_W_cart sd) i in
                 let! (cols, files') := atom_loop n st (sd_same_super sd) r (combine wi wc) adds 0 (length adds + 1) (fun _ => None) None files in
                 if nsel <=? r then Err EValue
                 else Ok (put_block_column m r (fun s => option_map (fc_block d inv) (diff_block cols s)), files')) with
          | Err e => (m, Some e)
          | Ok (m', files') => require_loop n nsel st sd d (S i) rest m' files'
          end
      end.

    (** post_process.py 164-168: the Cartesian form of an operation given in direct
        coordinates: columns of to_cart are the lattice vectors divided by their
        norms [norms] (numpy.linalg.norm, a parameter here). *)
    Definition to_cart (L : m3 A) (norms : v3 A) : m3 A :=
      transpose (M3 (vscale (finv (vx norms)) (r1 L)) (vscale (finv (vy norms)) (r2 L)) (vscale (finv (vz norms)) (r3 L))).
    (** post_process.py 164-168 and symmetry.py 378-395: an operation in cartesian coordinates. *)
    Definition cart_op (L : m3 A) (norms : v3 A) (W : m3 A) : m3 A :=
      mmul (mmul (to_cart L norms) W) (minv_raw (to_cart L norms)).

    (** post_process.py 170-176: rows of one derived atom. *)
    Fixpoint derive_rows (st : list nat) (Wc : m3 A) (nr g : nat) (k : nat) (img : list nat) (m : fmat) : result fmat :=
      match img with
      | [] => Ok m
      | v :: r =>
          let! s := py_nth st k in
          let! gs := py_nth st v in
          derive_rows st Wc nr g (S k) r
            (put_block m s nr (option_map (fun B => mmul (mmul (minv_raw Wc) B) Wc) (block_of m gs g)))
      end.
    (** post_process.py 167-176. *)
    Fixpoint derive_loop (st : list nat) (sd : symdata) (L : m3 A) (norms : v3 A) (l : list (nat * nat)) (m : fmat) : fmat * option err :=
      match l with
      | [] => (m, None)
      | (pg, nr) :: rest =>
          match (let! W := py_nth (sd_W sd) pg in
                 let Wc := cart_op L norms W in
                 let! per_atom := py_nth (sd_same_super sd) pg in
                 let! img := py_nth per_atom nr in
                 if f_dec (det Wc) f0 then Err ELinAlg
                 else
                   let! same := py_nth (sd_same_index sd) pg in
                   let! s0 := py_nth same 0 in
                   let! g := py_nth s0 nr in
                   derive_rows st Wc nr g 0 img m) with
          | Err e => (m, Some e)
          | Ok m' => derive_loop st sd L norms rest m'
          end
      end.

    (** post_process.py 111-176 (identical for the other codes, 189-335). *)
    Definition set_force_constant_sym (nsuper nsel : nat) (st : list nat) (sd : symdata) (L : m3 A) (norms : v3 A) (d : A) (m : fmat) (files : list file)
      : fmat * option err :=
      let (m1, e) := require_loop nsuper nsel st sd d 0 (sd_require sd) m files in
      match e with
      | Some e => (m1, Some e)
      | None =>
          if f_dec (det (to_cart L norms)) f0 then (m1, Some ELinAlg)
          else derive_loop st sd L norms (combine (sd_pgi sd) (sd_not_require sd)) m1
      end.
  End Reader.

  (** post_process.py 78-87: b_i = 2 pi a_{i+1} x a_{i+2} / V; [pi] is numpy.pi. *)
  Definition reciprocal (pi : A) (L : m3 A) : m3 A :=
    let vol := vdot (r1 L) (vcross (r2 L) (r3 L)) in
    let b u v := let c := vcross u v in
      V3 (fdiv (fmul (fmul (fofZ 2) pi) (vx c)) vol) (fdiv (fmul (fmul (fofZ 2) pi) (vy c)) vol) (fdiv (fmul (fmul (fofZ 2) pi) (vz c)) vol) in
    M3 (b (r2 L) (r3 L)) (b (r3 L) (r1 L)) (b (r1 L) (r2 L)).
End ForceSec.
Arguments fmat A : clear implicits.
Arguments symdata A : clear implicits.
