(** Model of the objects a Python session holds: PreProcess / PostProcess
    (InterPhon/core/pre_process.py, post_process.py) as records of references
    into a heap of argument and cell objects.  What a method computes is taken
    from the other files of the model; this file says which object it is read
    from and written to, in which order, and what is left after an exception. *)
From Coq Require Import String Ascii ZArith QArith Qcanon Bool Lia Arith List.
From Verif Require Import Base Dec Field Args Cell Super Displace Text Check KPoints Weight.
Import ListNotations.
Local Open Scope list_scope.
Local Open Scope nat_scope.

(** Objects: a PreArgument ([post] = PostArgument, post_check.py 8), a UnitCell
    ([super] = SuperCell, super_cell.py 8), or an object of another class. *)
(** pre_check.py 18-40, post_check.py 8-31, unit_cell.py 48-93, super_cell.py 8-53. *)
Inductive obj : Type :=
| OArg (post : bool) (a : args)
| OCell (super : bool) (c : cell Qc)
| OOther.

(** A reference to a Python object (pre_process.py 30-32). *)
Definition ref : Type := nat.
(** All live objects (pre_process.py 24-32: attributes hold references). *)
Definition heap : Type := list obj.

(** Attribute access on a reference: AttributeError for another class
    (pre_process.py 78, 91; unit_cell.py 84-93). *)
Definition get_cell (h : heap) (r : ref) : result (cell Qc) :=
  match nth_error h r with Some (OCell _ c) => Ok c | _ => Err EAttr end.
(** set_super_cell exists on SuperCell only (super_cell.py 55, 95). *)
Definition get_super (h : heap) (r : ref) : result (cell Qc) :=
  match nth_error h r with Some (OCell true c) => Ok c | _ => Err EAttr end.
(** pre_check.py 42-89: the argument object. *)
Definition get_arg (h : heap) (r : ref) : result args :=
  match nth_error h r with Some (OArg _ a) => Ok a | _ => Err EAttr end.
(** check_match_argument exists on PostArgument only (post_check.py 33). *)
Definition get_post_arg (h : heap) (r : ref) : result args :=
  match nth_error h r with Some (OArg true a) => Ok a | _ => Err EAttr end.

(** Updating an object in place keeps its class (unit_cell.py 96-243, pre_check.py 42-97). *)
Fixpoint put_nth {A} (n : nat) (f : A -> A) (l : list A) : list A :=
  match l, n with
  | [], _ => []
  | x :: r, O => f x :: r
  | x :: r, S k => x :: put_nth k f r
  end.
(** unit_cell.py 96-243: assignment to the attributes of a cell object. *)
Definition put_cell (h : heap) (r : ref) (c : cell Qc) : heap :=
  put_nth r (fun o => match o with OCell b _ => OCell b c | _ => o end) h.
(** pre_check.py 42-97: assignment to the attributes of an argument object. *)
Definition put_arg (h : heap) (r : ref) (a : args) : heap :=
  put_nth r (fun o => match o with OArg b _ => OArg b a | _ => o end) h.

(** unit_cell.py 256-284: the reader chosen by code_name; another name reads nothing. *)
Definition reader_of (code : string) : option (list string -> result rd) :=
  if String.eqb code "vasp" then Some vasp_read
  else if String.eqb code "espresso" then Some espresso_read
  else if String.eqb code "aims" then Some aims_read
  else None.

(** unit_cell.py 245-284 on the object [r]; [file] = None: it cannot be opened
    (the object is initialised before the file is opened, line 255). *)
Definition read_cell (h : heap) (r : ref) (file : option string) (code : string) : heap * option err :=
  match get_cell h r with
  | Err e => (h, Some e)
  | Ok _ =>
      match reader_of code with
      | None => (put_cell h r cell_init, None)
      | Some rdr =>
          match file with
          | None => (put_cell h r cell_init, Some EIO)
          | Some t => let (c, e) := read_unit_cell rdr cell_init t in (put_cell h r c, e)
          end
      end
  end.

(** super_cell.py 55-93, statement by statement: the object's fields after the
    call together with the pending exception (Super.v has the value only). *)
Definition set_super_cell_st (u : cell Qc) (ar : args) : cell Qc * option err :=
  match (let! L := of_option EType (c_lat u) in
         let! enl := of_option EType (a_enl ar) in
         let! e1 := py_nth enl 0 in let! e2 := py_nth enl 1 in let! e3 := py_nth enl 2 in
         Ok (M3 (vscale (fofZ e1) (r1 L)) (vscale (fofZ e2) (r2 L)) (vscale (fofZ e3) (r3 L)), (enl, e1, e2, e3))) with
  | Err e => (cell_init, Some e)
  | Ok (SL, (enl, e1, e2, e3)) =>
      match (let! pbc := of_option EType (a_pbc ar) in enlarge enl pbc) with
      | Err e => (mkCell (Some SL) None None false None None None None None, Some e)
      | Ok E =>
          match c_type u with
          | None => (mkCell (Some SL) (Some []) None false None None None None None, Some EType)
          | Some ty =>
              let types := flat_map (fun t => repeat t (Z.to_nat E)) ty in
              match c_num u with
              | None => (mkCell (Some SL) (Some types) None false None None None None None, Some EType)
              | Some num =>
                  let nums := map (fun n => (n * E)%Z) num in
                  match c_coord u with
                  | None => (mkCell (Some SL) (Some types) (Some nums) false None None None None None, Some EValue)
                  | Some k =>
                      let c5 := mkCell (Some SL) (Some types) (Some nums) false (Some k) None None None None in
                      match super_direct_array E e1 e2 e3, c_cart u with
                      | Err e, _ => (c5, Some e)
                      | Ok _, None => (c5, Some EType)
                      | Ok sd, Some cart =>
                          if negb (Nat.eqb (length cart * Z.to_nat E) (length types)) then (c5, Some EValue)
                          else (put_cart c5 (flat_map (fun r => map (fun s => vadd r (vmul s SL)) sd) cart), None)
                      end
                  end
              end
          end
      end
  end.

(** pre_process.py 109 on the heap: initialization (super_cell.py 65) happens
    before the unit cell is read, so the two may be the same object. *)
Definition set_super_h (h : heap) (ru rs ra : ref) : heap * option err :=
  match get_super h rs with
  | Err e => (h, Some e)
  | Ok _ =>
      let h1 := put_cell h rs cell_init in
      match get_cell h1 ru, get_arg h1 ra with
      | Ok u, Ok a => let (s, e) := set_super_cell_st u a in (put_cell h1 rs s, e)
      | Err e, _ => (h1, Some e)
      | _, Err e => (h1, Some e)
      end
  end.

(** super_cell.py 104-118 on the heap: atom_true is emptied before the unit
    cell's list is read. *)
Definition set_super_ind_h (h : heap) (ru rs ra : ref) : heap * option err :=
  match get_super h rs, get_arg h ra with
  | Err e, _ => (h, Some e)
  | _, Err e => (h, Some e)
  | Ok s, Ok a =>
      match (let! enl := of_option EType (a_enl a) in let! pbc := of_option EType (a_pbc a) in enlarge enl pbc) with
      | Err e => (h, Some e)
      | Ok E =>
          let blank := mkCell (c_lat s) (c_type s) (c_num s) true (c_coord s) (c_cart s) (Some []) (c_xyz s) (c_mass s) in
          let h1 := put_cell h rs blank in
          match get_cell h1 ru with
          | Err e => (h1, Some e)
          | Ok u =>
              match c_true u with
              | None => (h1, Some EType)
              | Some tr =>
                  let trues := flat_map (fun i => map (fun k => (i * E + k)%Z) (py_range E)) tr in
                  let xyz := flat_map (fun i => [i; i; i]) trues in
                  (put_cell h1 rs (mkCell (c_lat s) (c_type s) (c_num s) true (c_coord s) (c_cart s)
                                          (Some trues) (Some xyz) (c_mass s)), None)
              end
          end
      end
  end.

(** pre_process.py 71-79 on the argument object. *)
Definition set_arg_h (h : heap) (ra : ref) (d : list (string * pyval)) : heap * option err :=
  match get_arg h ra with
  | Err e => (h, Some e)
  | Ok a => let (a', e) := set_user_arg_st a d in (put_arg h ra a', e)
  end.

(** Run the second statement only if the first did not raise (e.g. pre_process.py 78-79). *)
Definition andthen {S : Type} (r : S * option err) (f : S -> S * option err) : S * option err :=
  match r with (h, Some e) => (h, Some e) | (h, None) => f h end.

Section Session.
  (** What the session stores but this file does not look into: the reciprocal
      matrix, the force-constant array and the result at one wave vector, with
      the computations on them (modelled in Phonon.v, Force.v and SymRun.v). *)
  Context {RM FC W : Type}.
  Variable rm_empty : RM.                                        (* post_process.py 56 *)
  Variable fc_empty : nat -> nat -> FC.                          (* post_process.py 57-58 *)
  Variable recip : cell Qc -> RM -> RM * option err.             (* post_process.py 79-87 *)
  Variable forces : cell Qc -> cell Qc -> args -> bool -> list string -> FC -> FC * option err.   (* post_process.py 89-345 *)
  Variable phonon : cell Qc -> cell Qc -> args -> RM -> FC -> v3 Qc -> result W.  (* post_process.py 418-459 *)
  (** pre_process.py 144-157: the required atoms with their directions; [Ok None]
      when Cannot_Search_Point_Group is caught. *)
  Variable search : cell Qc -> cell Qc -> args -> result (option (list (nat * (v3 Qc * list (v3 Qc))))).

  (** post_process.py 56-69: the attributes only a PostProcess has.  An entry of
      [po_w] is None while numpy.empty left it unset. *)
  Record post : Type := mkPost {
    po_rm : RM; po_fc : FC; po_k : list (v3 Qc); po_auto : list Z; po_w : list (option W) }.

  (** pre_process.py 30-33 and symmetry.py 66-71: a process holds references to
      its three objects and to the three its symmetry object was built with. *)
  Record proc : Type := mkProc {
    p_arg : ref; p_unit : ref; p_super : ref;
    y_unit : ref; y_super : ref; y_arg : ref;
    p_post : option post }.

  (** The session: live objects, processes, and the file written by line 463
      (None: never written; the list holds the frequency rows).  post_process.py 462-470. *)
  Record state : Type := mkState { st_heap : heap; st_procs : list proc; st_gamma : option (list (option W)) }.

  (** Importing the package evaluates the default arguments once:
      pre_process.py 24-26 and post_process.py 41-43. *)
  Definition start : state :=
    mkState [OArg false args_init; OCell false cell_init; OCell true cell_init;
             OArg true args_init; OCell false cell_init; OCell true cell_init] [] None.
  (** pre_process.py 24: PreArgument() of the signature. *)
  Definition pre_arg0 : ref := 0.
  (** pre_process.py 25: UnitCell() of the signature. *)
  Definition pre_unit0 : ref := 1.
  (** pre_process.py 26: SuperCell() of the signature. *)
  Definition pre_super0 : ref := 2.
  (** post_process.py 41: PostArgument() of the signature. *)
  Definition post_arg0 : ref := 3.
  (** post_process.py 42: UnitCell() of the signature. *)
  Definition post_unit0 : ref := 4.
  (** post_process.py 43: SuperCell() of the signature. *)
  Definition post_super0 : ref := 5.

  (** A parameter that was not passed takes the object of the signature (pre_process.py 24-26). *)
  Definition default (r : option ref) (d : ref) : ref := match r with Some x => x | None => d end.

  (** The statements of a session (pre_process.py 24-202, post_process.py 38-470).
      A structure or k-point file is given by its contents, None when it cannot
      be opened. *)
  Inductive cmd : Type :=
  | NewArg (post : bool)                                            (* PreArgument() / PostArgument() *)
  | NewCell (super : bool)                                          (* UnitCell() / SuperCell() *)
  | NewOther                                                        (* any other object *)
  | NewPre (a u s : option ref)
  | NewPost (fu fs : option string) (code : string) (a u s : option ref)
  | AssignArg (p : nat) (r : ref)
  | AssignUnit (p : nat) (r : ref)
  | AssignSuper (p : nat) (r : ref)
  | SetUserArg (p : nat) (d : list (string * pyval))
  | SetUnitCell (p : nat) (f : option string) (code : string)
  | SetSuperCell (p : nat)
  | WriteDisplace (p : nat) (sym : bool)
  | SetRecip (p : nat)
  | SetForces (p : nat) (files : list string) (sym : bool)
  | SetK (p : nat) (f : option string)
  | Eval (p : nat)
  | EditArg (r : ref) (d : list (string * pyval))                   (* obj.set_user_argument + check *)
  | EditCell (r : ref) (o : cell_op Qc)                             (* obj.attribute = value *)
  | Copy (p : nat).                                                 (* copy.deepcopy(process) *)

  (** pre_process.py 35-68: isinstance tests of the three setters. *)
  Definition is_arg (h : heap) (r : ref) : bool := match nth_error h r with Some (OArg _ _) => true | _ => false end.
  (** pre_process.py 52: SuperCell is a subclass of UnitCell. *)
  Definition is_unit (h : heap) (r : ref) : bool := match nth_error h r with Some (OCell _ _) => true | _ => false end.
  (** pre_process.py 64. *)
  Definition is_super (h : heap) (r : ref) : bool := match nth_error h r with Some (OCell true _) => true | _ => false end.

  (** Rebind the attributes of process [p] (pre_process.py 42, 53, 65). *)
  Definition with_proc (st : state) (p : nat) (f : proc -> proc) : state :=
    mkState (st_heap st) (put_nth p f (st_procs st)) (st_gamma st).
  (** pre_process.py 42. *)
  Definition with_arg (r : ref) (q : proc) : proc := mkProc r (p_unit q) (p_super q) (y_unit q) (y_super q) (y_arg q) (p_post q).
  (** pre_process.py 53. *)
  Definition with_unit (r : ref) (q : proc) : proc := mkProc (p_arg q) r (p_super q) (y_unit q) (y_super q) (y_arg q) (p_post q).
  (** pre_process.py 65. *)
  Definition with_super (r : ref) (q : proc) : proc := mkProc (p_arg q) (p_unit q) r (y_unit q) (y_super q) (y_arg q) (p_post q).
  (** pre_process.py 33, 146; post_process.py 112, 191, 270: a new symmetry object of the current objects. *)
  Definition with_sym (q : proc) : proc := mkProc (p_arg q) (p_unit q) (p_super q) (p_unit q) (p_super q) (p_arg q) (p_post q).
  (** post_process.py 56-69, 368-369, 399-406: the post-process attributes. *)
  Definition with_post (o : post) (q : proc) : proc := mkProc (p_arg q) (p_unit q) (p_super q) (y_unit q) (y_super q) (y_arg q) (Some o).

  (** Same processes, new heap (methods that change objects only, pre_process.py 71-112). *)
  Definition with_heap (st : state) (r : heap * option err) : state * option err :=
    (mkState (fst r) (st_procs st) (st_gamma st), snd r).

  (** post_process.py 51-69: construction of a PostProcess on the three objects;
      when it raises no process is bound but the objects stay changed. *)
  Definition new_post (st : state) (fu fs : option string) (code : string) (a u s : ref) : state * option err :=
    let h := st_heap st in
    match andthen (read_cell h u fu code) (fun h1 =>
          andthen (match (let! c := get_cell h1 u in set_mass_true c) with
                   | Ok c => (put_cell h1 u c, None) | Err e => (h1, Some e) end) (fun h2 =>
          read_cell h2 s fs code)) with
    | (h3, Some e) => (mkState h3 (st_procs st) (st_gamma st), Some e)
    | (h3, None) =>
        match (let! sc := get_cell h3 s in let! uc := get_cell h3 u in
               let! ty := of_option EType (c_type sc) in let! tr := of_option EType (c_true uc) in
               let! xyz := of_option EType (c_xyz uc) in
               Ok (fc_empty (length ty * 3) (length tr * 3))) with
        | Err e => (mkState h3 (st_procs st) (st_gamma st), Some e)
        | Ok fc => (mkState h3 (st_procs st ++ [mkProc a u s u s a (Some (mkPost rm_empty fc [] [] []))]) (st_gamma st), None)
        end
    end.

  (** pre_process.py 71-79; post_process.py 71-77 for a PostProcess. *)
  Definition set_user_arg_p (h : heap) (q : proc) (d : list (string * pyval)) : heap * option err :=
    andthen (set_arg_h h (p_arg q) d) (fun h1 =>
      match p_post q with
      | None => (h1, None)
      | Some _ =>
          match (let! a := get_post_arg h1 (p_arg q) in let! u := get_cell h1 (p_unit q) in
                 let! s := get_cell h1 (p_super q) in check_match_argument u s a) with
          | Err e => (h1, Some e)
          | Ok _ => set_super_ind_h h1 (p_unit q) (p_super q) (p_arg q)
          end
      end).

  (** pre_process.py 114-202 on the heap; the second component says whether a
      new symmetry object was built.  In every failing case of the model the
      supercell is left with selective = False and its positions unchanged. *)
  Definition write_displace_p (h : heap) (q : proc) (sym : bool) : (heap * bool) * option err :=
    match get_cell h (p_super q) with
    | Err e => ((h, false), Some e)
    | Ok s =>
        let h1 := put_cell h (p_super q) (set_selective s false) in
        match (let! a := get_arg h1 (p_arg q) in let! u := get_cell h1 (p_unit q) in
               let! pbc := of_option EType (a_pbc a) in Ok (a, u, pbc)) with
        | Err e => ((h1, false), Some e)
        | Ok (a, u, pbc) =>
            let sym := (sym && Nat.eqb (length (nonzero_indices pbc)) 2)%bool in
            match (if sym then
                     let! r := search u (set_selective s false) a in
                     match r with
                     | Some req => write_displace_sym u s a (a_disp a) req
                     | None => write_displace_nosym u s a (a_disp a)
                     end
                   else write_displace_nosym u s a (a_disp a)) with
            | Ok (s', _) => ((put_cell h1 (p_super q) s', sym), None)
            | Err e => ((h1, sym), Some e)
            end
        end
    end.

  (** post_process.py 417-459: the loop over the wave vectors; [done] rows are
      filled, the others stay unset. *)
  Fixpoint eval_rows (f : v3 Qc -> result W) (ks : list (v3 Qc)) : list (option W) * option err :=
    match ks with
    | [] => ([], None)
    | k :: r =>
        match f k with
        | Err e => (repeat None (length ks), Some e)
        | Ok w => let (ws, e) := eval_rows f r in (Some w :: ws, e)
        end
    end.

  (** post_process.py 394-470.  With no wave vectors the arrays are not renewed. *)
  Definition eval_p (h : heap) (q : proc) (o : post) : (list (option W) * option (list (option W))) * option err :=
    match (let! u := get_cell h (p_unit q) in
           match po_k o with [] => Ok u | _ => let! _ := of_option EType (c_xyz u) in Ok u end) with
    | Err e => ((po_w o, None), Some e)
    | Ok u =>
        let w0 := match po_k o with [] => po_w o | ks => repeat None (length ks) end in
        match (let! a := get_arg h (p_arg q) in let! s := get_cell h (p_super q) in
               let! pbc := of_option EType (a_pbc a) in
               let! E := (let! enl := of_option EType (a_enl a) in enlarge enl pbc) in Ok (a, s, pbc)) with
        | Err e => ((w0, None), Some e)
        | Ok (a, s, pbc) =>
            let (w, e) := match po_k o with
                          | [] => (w0, None)
                          | ks => eval_rows (phonon u s a (po_rm o) (po_fc o)) ks
                          end in
            match e with
            | Some e => ((w, None), Some e)
            | None =>
                match nonzero_indices pbc with
                | [] => match w with
                        | [] => ((w, Some []), Some EIndex)
                        | w1 :: _ => ((w, Some [w1]), None)
                        end
                | _ => ((w, None), None)
                end
            end
        end
    end.

  (** copy.deepcopy of one attribute: an object already copied is not copied
      again (the memo of pre_process.py 204-212). *)
  Definition copy_ref (h : heap) (memo : list (ref * ref)) (r : ref) : heap * list (ref * ref) * ref :=
    match find (fun m => Nat.eqb (fst m) r) memo with
    | Some m => (h, memo, snd m)
    | None => (h ++ [nth r h OOther], (r, length h) :: memo, length h)
    end.
  (** pre_process.py 204-212: attributes in the order of __dict__. *)
  Definition copy_proc (h : heap) (q : proc) : heap * proc :=
    let '(h1, m1, a) := copy_ref h [] (p_arg q) in
    let '(h2, m2, u) := copy_ref h1 m1 (p_unit q) in
    let '(h3, m3, s) := copy_ref h2 m2 (p_super q) in
    let '(h4, m4, yu) := copy_ref h3 m3 (y_unit q) in
    let '(h5, m5, ys) := copy_ref h4 m4 (y_super q) in
    let '(h6, m6, ya) := copy_ref h5 m5 (y_arg q) in
    (h6, mkProc a u s yu ys ya (p_post q)).

  (** Every reference written in a statement is to an existing object. *)
  (** Not code of the repository: the objects passed to a statement (pre_process.py 24-26, 38, 49, 60; post_process.py 41-43). *)
  Definition passed (c : cmd) : list ref :=
    match c with
    | NewPre a u s => [default a pre_arg0; default u pre_unit0; default s pre_super0]
    | NewPost _ _ _ a u s => [default a post_arg0; default u post_unit0; default s post_super0]
    | AssignArg _ r | AssignUnit _ r | AssignSuper _ r | EditArg r _ | EditCell r _ => [r]
    | _ => []
    end.

  (** One statement whose exception, if any, is caught by the caller
      (pre_process.py 24-212, post_process.py 38-470).  An unknown name is a
      NameError; a PostProcess method on a PreProcess an AttributeError. *)
  Definition step (st : state) (c : cmd) : state * option err :=
    if negb (forallb (fun r => Nat.ltb r (length (st_heap st))) (passed c)) then (st, Some EName) else
    let h := st_heap st in
    let alloc o := (mkState (h ++ [o]) (st_procs st) (st_gamma st), None) in
    let on p (f : proc -> state * option err) :=
      match nth_error (st_procs st) p with Some q => f q | None => (st, Some EName) end in
    let on_post p (f : proc -> post -> state * option err) :=
      on p (fun q => match p_post q with Some o => f q o | None => (st, Some EAttr) end) in
    match c with
    | NewArg b => alloc (OArg b args_init)
    | NewCell b => alloc (OCell b cell_init)
    | NewOther => alloc OOther
    | NewPre a u s =>
        let a := default a pre_arg0 in let u := default u pre_unit0 in let s := default s pre_super0 in
        (mkState h (st_procs st ++ [mkProc a u s u s a None]) (st_gamma st), None)
    | NewPost fu fs code a u s =>
        new_post st fu fs code (default a post_arg0) (default u post_unit0) (default s post_super0)
    | AssignArg p r => on p (fun q => (if is_arg h r then with_proc st p (with_arg r) else st, None))
    | AssignUnit p r => on p (fun q => (if is_unit h r then with_proc st p (with_unit r) else st, None))
    | AssignSuper p r => on p (fun q => (if is_super h r then with_proc st p (with_super r) else st, None))
    | SetUserArg p d => on p (fun q => with_heap st (set_user_arg_p h q d))
    | SetUnitCell p f code => on p (fun q => with_heap st (read_cell h (p_unit q) f code))
    | SetSuperCell p => on p (fun q => with_heap st
        (andthen (set_super_h h (p_unit q) (p_super q) (p_arg q))
                 (fun h1 => set_super_ind_h h1 (p_unit q) (p_super q) (p_arg q))))
    | WriteDisplace p sym => on p (fun q =>
        match write_displace_p h q sym with
        | ((h1, b), e) =>
            (mkState h1 (if b then put_nth p with_sym (st_procs st) else st_procs st) (st_gamma st), e)
        end)
    | SetRecip p => on_post p (fun q o =>
        match get_cell h (p_unit q) with
        | Err e => (st, Some e)
        | Ok u => let (rm, e) := recip u (po_rm o) in
                  (with_proc st p (with_post (mkPost rm (po_fc o) (po_k o) (po_auto o) (po_w o))), e)
        end)
    | SetForces p files sym => on_post p (fun q o =>
        match (let! a := get_arg h (p_arg q) in let! pbc := of_option EAttr (a_pbc a) in
               let! u := get_cell h (p_unit q) in let! s := get_cell h (p_super q) in Ok (a, pbc, u, s)) with
        | Err e => (st, Some e)
        | Ok (a, pbc, u, s) =>
            let sym := (sym && Nat.eqb (length (nonzero_indices pbc)) 2)%bool in
            let (fc, e) := forces u s a sym files (po_fc o) in
            (with_proc st p (fun q0 => with_post (mkPost (po_rm o) fc (po_k o) (po_auto o) (po_w o))
                                                 (if sym then with_sym q0 else q0)), e)
        end)
    | SetK p f => on_post p (fun q o =>
        match f with
        | None => (st, Some EIO)
        | Some t =>
            match get_arg h (p_arg q) with
            | Err e => (with_proc st p (with_post (mkPost (po_rm o) (po_fc o) [] [] (po_w o))), Some e)
            | Ok a => let '((ks, auto), e) := set_k_points (readlines t) (a_pbc a) in
                      (with_proc st p (with_post (mkPost (po_rm o) (po_fc o) ks auto (po_w o))), e)
            end
        end)
    | Eval p => on_post p (fun q o =>
        let '((w, g), e) := eval_p h q o in
        (mkState h (put_nth p (with_post (mkPost (po_rm o) (po_fc o) (po_k o) (po_auto o) w)) (st_procs st))
                 (match g with Some f => Some f | None => st_gamma st end), e))
    | EditArg r d => with_heap st (set_arg_h h r d)
    | EditCell r o => (match nth_error h r with
                       | Some (OCell _ c) =>
                           match run_op c o with
                           | Ok c' => (mkState (put_cell h r c') (st_procs st) (st_gamma st), None)
                           | Err e => (st, Some e)
                           end
                       | _ => (st, Some EAttr)
                       end)
    | Copy p => on p (fun q => let (h1, q1) := copy_proc h q in
                               (mkState h1 (st_procs st ++ [q1]) (st_gamma st), None))
    end.

  (** Not code of the repository: a session whose exceptions are caught (pre_process.py, post_process.py). *)
  Definition run (st : state) (cs : list cmd) : state := fold_left (fun s c => fst (step s c)) cs st.
End Session.
