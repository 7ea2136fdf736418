(** Common infrastructure of the model: Python-style results, ASCII string
    helpers with the semantics of the built-ins the code calls, and number
    parsing.  Nothing here is specific to InterPhon except where cited. *)
From Coq Require Import String Ascii ZArith QArith Qcanon Bool Lia Arith List.
Import ListNotations.
Local Open Scope list_scope.
Local Open Scope nat_scope.

(** Exception kinds that the code (or numpy / the interpreter below it) raises.
    The InterPhon classes are InterPhon/error/error.py 1-171. *)
Inductive err : Type :=
| EValue          (* ValueError *)
| EType           (* TypeError *)
| EIndex          (* IndexError *)
| EKey            (* KeyError *)
| EAttr           (* AttributeError *)
| EUnbound        (* UnboundLocalError *)
| EAssert         (* AssertionError *)
| ELinAlg         (* numpy.linalg.LinAlgError: singular matrix *)
| EInsufficientPBC        (* error.py 1-18 *)
| EInsufficientENLARGE    (* error.py 21-38 *)
| EMismatchENLARGEPBC     (* error.py 41-62 *)
| EMismatchENLARGEpost    (* error.py 65-76 *)
| EMismatchKpathPBC       (* error.py 79-100 *)
| EInvalidLineKpath       (* error.py 103-114 *)
| ENotSpecifiedKpath      (* error.py 117-134 *)
| ECannotSearchPointGroup (* error.py 137-155 *)
| EName           (* NameError *)
| EIO             (* IOError: a file cannot be opened *)
| EExc            (* Exception(...) raised by interphon.py *)
| EUninit         (* NOT an exception of the code: a cell of numpy.empty is
                     read without having been written (arbitrary memory) *).

(** error.py 1-171 and the built-in exceptions: a Python statement either yields a value or raises. *)
Inductive result (A : Type) : Type :=
| Ok (a : A)
| Err (e : err).
Arguments Ok {A} a.
Arguments Err {A} e.

(** Python sequencing: the next statement runs only if the previous one did not raise, e.g. super_cell.py 65-93. *)
Definition bind {A B} (m : result A) (f : A -> result B) : result B :=
  match m with Ok a => f a | Err e => Err e end.
Declare Scope res_scope.
Delimit Scope res_scope with res.
Notation "'let!' x ':=' m 'in' k" := (bind m (fun x => k))
  (at level 200, x pattern, m at level 100, k at level 200, right associativity).
(** Python: a failed look-up or conversion raises, e.g. pre_check.py 10. *)
Definition of_option {A} (e : err) (o : option A) : result A :=
  match o with Some a => Ok a | None => Err e end.
(** Not code of the repository (InterPhon has no such test): used in statements about files *.py only to say that a call did not raise. *)
Definition is_ok {A} (r : result A) : bool := match r with Ok _ => true | Err _ => false end.

Lemma bind_ok {A B} (m : result A) (f : A -> result B) b :
  bind m f = Ok b <-> exists a, m = Ok a /\ f a = Ok b.
Proof.
  destruct m as [a|e]; cbn; split.
  - intros H; exists a; split; [reflexivity|exact H].
  - intros (a' & Ha & Hb); injection Ha as <-; exact Hb.
  - discriminate.
  - intros (a' & Ha & _); discriminate.
Qed.

(** List comprehension [[f(x) for x in l]] where f may raise. *)
(** Python list comprehension whose body may raise, e.g. pre_check.py 10, k_points.py 20. *)
Fixpoint mapM {A B} (f : A -> result B) (l : list A) : result (list B) :=
  match l with
  | [] => Ok []
  | x :: r => let! y := f x in let! ys := mapM f r in Ok (y :: ys)
  end.

Lemma mapM_ok_Forall2 {A B} (f : A -> result B) l l' :
  mapM f l = Ok l' <-> Forall2 (fun x y => f x = Ok y) l l'.
Proof.
  revert l'; induction l as [|x l IH]; intros l'; cbn.
  - split; [intros H; injection H as <-; constructor | intros H; inversion H; reflexivity].
  - split.
    + destruct (f x) as [y|e] eqn:Hf; cbn; [|discriminate].
      destruct (mapM f l) as [ys|e] eqn:Hm; cbn; [|discriminate].
      intros H; injection H as <-. constructor; [exact Hf|].
      apply IH; reflexivity.
    + intros H; inversion H as [|? y ? ys Hy Hys]; subst.
      rewrite Hy; cbn. apply IH in Hys. rewrite Hys. reflexivity.
Qed.

Lemma mapM_length {A B} (f : A -> result B) l l' :
  mapM f l = Ok l' -> length l' = length l.
Proof.
  intros H. apply mapM_ok_Forall2 in H. induction H; cbn; congruence.
Qed.

Lemma mapM_total {A B} (f : A -> result B) (g : A -> B) l :
  (forall x, In x l -> f x = Ok (g x)) -> mapM f l = Ok (map g l).
Proof.
  induction l as [|x l IH]; intros H; cbn; [reflexivity|].
  rewrite (H x) by (left; reflexivity). cbn.
  rewrite IH by (intros y Hy; apply H; right; exact Hy). reflexivity.
Qed.

(** Python indexing of a list by a non-negative index ([IndexError] outside). *)
(** Python list index, e.g. vasp.py 24, k_points.py 20. *)
Definition py_nth {A} (l : list A) (n : nat) : result A := of_option EIndex (nth_error l n).

(** * Strings *)

(** str.split()/str.strip() whitespace, ASCII range (9-13, 28-31, 32). *)
(** characters removed by str.strip()/str.split(), e.g. vasp.py 24, interphon.py 313. *)
Definition is_ws (c : ascii) : bool :=
  let n := nat_of_ascii c in
  ((9 <=? n) && (n <=? 13) || (28 <=? n) && (n <=? 32))%nat%bool.

(** part of str.strip(), e.g. pre_check.py 10, interphon.py 313. *)
Fixpoint lstrip (s : string) : string :=
  match s with
  | EmptyString => EmptyString
  | String c r => if is_ws c then lstrip r else s
  end.

(** part of str.strip(), e.g. pre_check.py 10, interphon.py 313. *)
Fixpoint rev_string_acc (s acc : string) : string :=
  match s with EmptyString => acc | String c r => rev_string_acc r (String c acc) end.
(** part of str.strip(), e.g. pre_check.py 10, interphon.py 313. *)
Definition rev_string (s : string) : string := rev_string_acc s EmptyString.
(** str.strip(), e.g. pre_check.py 10, interphon.py 313. *)
Definition strip (s : string) : string := rev_string (lstrip (rev_string (lstrip s))).

(** str.split() with no argument: maximal runs of non-whitespace. *)
(** str.split() without argument, e.g. vasp.py 25, pre_check.py 10, k_points.py 20. *)
Fixpoint split_ws (s : string) : list string :=
  match s with
  | EmptyString => []
  | String c r =>
      if is_ws c then split_ws r
      else match r with
           | EmptyString => [String c EmptyString]
           | String c' _ =>
               if is_ws c' then String c EmptyString :: split_ws r
               else match split_ws r with
                    | w :: ws => String c w :: ws
                    | [] => [String c EmptyString]   (* unreachable *)
                    end
           end
  end.

(** part of the Python test `s in text`, e.g. espresso.py 28. *)
Fixpoint is_prefix (p s : string) : bool :=
  match p, s with
  | EmptyString, _ => true
  | String a p', String b s' => (Ascii.eqb a b && is_prefix p' s')%bool
  | String _ _, EmptyString => false
  end.

(** [p in s] for strings. *)
(** the Python test `s in text`, e.g. espresso.py 28-32, aims.py 41, pre_check.py 108. *)
Fixpoint contains (p s : string) : bool :=
  (is_prefix p s ||
   match s with EmptyString => false | String _ s' => contains p s' end)%bool.

(** [x in l] for a list of strings. *)
(** the Python test `x in list`, e.g. interphon.py 320. *)
Definition mem_string (x : string) (l : list string) : bool := existsb (String.eqb x) l.

(** part of int()/float(), e.g. pre_check.py 10, 48. *)
Definition is_digit (c : ascii) : bool :=
  let n := nat_of_ascii c in ((48 <=? n) && (n <=? 57))%nat%bool.
(** part of int()/float(), e.g. pre_check.py 10, 48. *)
Definition digit_val (c : ascii) : Z := (Z.of_nat (nat_of_ascii c) - 48)%Z.

(** part of int()/float(), e.g. pre_check.py 10, 48. *)
Fixpoint all_digits (s : string) : bool :=
  match s with
  | EmptyString => true
  | String c r => (is_digit c && all_digits r)%bool
  end.
(** part of int()/float(), e.g. pre_check.py 10, 48. *)
Fixpoint digits_val (acc : Z) (s : string) : Z :=
  match s with
  | EmptyString => acc
  | String c r => digits_val (10 * acc + digit_val c) r
  end.
(** part of int()/float(), e.g. pre_check.py 10, 48. *)
Definition nonempty (s : string) : bool :=
  match s with EmptyString => false | _ => true end.

(** int(s): surrounding blanks, optional sign, decimal digits.  Simplified:
    Python also allows single underscores between digits and non-ASCII digits. *)
(** int(text), e.g. pre_check.py 10, k_points.py 20.  Underscores between digits are not modelled. *)
Definition parse_int (s : string) : option Z :=
  let s := strip s in
  let '(neg, d) := match s with
                   | String "-" r => (true, r)
                   | String "+" r => (false, r)
                   | _ => (false, s)
                   end in
  if (nonempty d && all_digits d)%bool
  then Some (if neg then - digits_val 0 d else digits_val 0 d)%Z
  else None.

(** * Decimal numbers *)

(** part of float(), e.g. pre_check.py 48. *)
Fixpoint split_at (c : ascii) (s : string) : string * option string :=
  match s with
  | EmptyString => (EmptyString, None)
  | String a r => if Ascii.eqb a c then (EmptyString, Some r)
                  else let '(u, v) := split_at c r in (String a u, v)
  end.

(** part of float(), e.g. pre_check.py 48. *)
Definition pow10 (n : Z) : Z := (10 ^ n)%Z.

(** Value of integer [m] times 10^e as an exact rational. *)
(** part of float(), e.g. pre_check.py 48. *)
Definition scale10 (m e : Z) : Qc :=
  if (0 <=? e)%Z then Q2Qc (inject_Z (m * pow10 e))
  else Q2Qc (Qmake m (Z.to_pos (pow10 (- e)))).

(** part of float(), e.g. pre_check.py 48. *)
Definition parse_sign (s : string) : bool * string :=
  match s with
  | String "-" r => (true, r)
  | String "+" r => (false, r)
  | _ => (false, s)
  end.

(** float(s) on finite decimal literals: [sign] digits [. digits] [e [sign] digits],
    with at least one mantissa digit.  Simplified: the exact rational value is
    returned instead of the nearest binary64, and 'inf', 'nan' and underscores
    are rejected (Python accepts them). *)
(** part of float(), e.g. pre_check.py 48.  nan, inf and underscores are not modelled. *)
Definition parse_unsigned (s : string) : option Qc :=
  let '(m, ex) := match split_at "e"%char s with
                  | (m, Some e) => (m, Some e)
                  | (m, None) => match split_at "E"%char s with
                                 | (m', Some e) => (m', Some e)
                                 | (m', None) => (m', None)
                                 end
                  end in
  let '(ip, fpo) := split_at "."%char m in
  let fp := match fpo with Some f => f | None => EmptyString end in
  let e := match ex with
           | None => Some 0%Z
           | Some es => let '(n, d) := parse_sign es in
                        if (nonempty d && all_digits d)%bool
                        then Some (if n then - digits_val 0 d else digits_val 0 d)%Z else None
           end in
  match e with
  | None => None
  | Some e =>
      if ((nonempty ip || nonempty fp) && all_digits ip && all_digits fp)%bool
      then Some (scale10 (digits_val (digits_val 0 ip) fp) (e - Z.of_nat (String.length fp)))
      else None
  end.

(** float(text), e.g. pre_check.py 48, vasp.py 25.  The exact decimal value instead of the nearest double. *)
Definition parse_float (s : string) : option Qc :=
  let '(n, u) := parse_sign (strip s) in
  match parse_unsigned u with
  | Some q => Some (if n then Qcopp q else q)
  | None => None
  end.

(** Decimal order on Qc as booleans. *)
(** the comparison < of numbers, e.g. pre_check.py 50. *)
Definition Qcltb (a b : Qc) : bool := negb (Qle_bool b a).
(** the comparison <= of numbers, e.g. pre_check.py 52. *)
Definition Qcleb (a b : Qc) : bool := Qle_bool a b.
Lemma Qcleb_le a b : Qcleb a b = true <-> (a <= b)%Qc.
Proof. unfold Qcleb, Qcle. apply Qle_bool_iff. Qed.
Lemma Qcltb_lt a b : Qcltb a b = true <-> (a < b)%Qc.
Proof.
  unfold Qcltb, Qclt. rewrite negb_true_iff.
  split; intros H.
  - apply Qnot_le_lt. intros C. apply Qle_bool_iff in C. congruence.
  - destruct (Qle_bool b a) eqn:E; [|reflexivity].
    apply Qle_bool_iff in E. exfalso. exact (Qlt_not_le _ _ H E).
Qed.

(** * Small list library *)

(** assignment to one list element, e.g. pre_process.py 191, symmetry.py 225. *)
Fixpoint set_nth {A} (n : nat) (x : A) (l : list A) : list A :=
  match l, n with
  | [], _ => []
  | _ :: r, O => x :: r
  | y :: r, S m => y :: set_nth m x r
  end.

Lemma set_nth_length {A} n (x : A) l : length (set_nth n x l) = length l.
Proof. revert n; induction l as [|y l IH]; intros [|n]; cbn; auto. Qed.

Lemma set_nth_same {A} n (x : A) l : n < length l -> nth_error (set_nth n x l) n = Some x.
Proof.
  revert n; induction l as [|y l IH]; intros [|n] H; cbn in *; try lia; auto.
  apply IH; lia.
Qed.

Lemma set_nth_other {A} n m (x : A) l : n <> m -> nth_error (set_nth n x l) m = nth_error l m.
Proof.
  revert n m; induction l as [|y l IH]; intros [|n] [|m] H; cbn; auto; try congruence.
Qed.

Lemma set_nth_twice {A} n (x y : A) l : set_nth n x (set_nth n y l) = set_nth n x l.
Proof. revert n; induction l as [|z l IH]; intros [|n]; cbn; auto. f_equal; auto. Qed.

Lemma set_nth_id {A} n (x : A) l : nth_error l n = Some x -> set_nth n x l = l.
Proof.
  revert n; induction l as [|z l IH]; intros [|n] H; cbn in *; auto; try congruence.
  f_equal; auto.
Qed.

(** enumerate(), e.g. vasp.py 50, post_process.py 416. *)
Fixpoint enumerate_from {A} (i : nat) (l : list A) : list (nat * A) :=
  match l with [] => [] | x :: r => (i, x) :: enumerate_from (S i) r end.
(** enumerate(), e.g. vasp.py 50, post_process.py 416. *)
Definition enumerate {A} (l : list A) := enumerate_from 0 l.

Lemma enumerate_from_nth {A} (l : list A) i k :
  nth_error (enumerate_from i l) k = option_map (fun x => (i + k, x)) (nth_error l k).
Proof.
  revert i k; induction l as [|x l IH]; intros i [|k]; cbn; auto.
  - now rewrite Nat.add_0_r.
  - rewrite IH. replace (S i + k) with (i + S k) by lia. reflexivity.
Qed.

Lemma enumerate_from_length {A} (l : list A) i : length (enumerate_from i l) = length l.
Proof. revert i; induction l as [|x l IH]; intros i; cbn; auto. Qed.

Lemma nth_error_ext {A} (l l' : list A) :
  (forall k, nth_error l k = nth_error l' k) -> l = l'.
Proof.
  revert l'; induction l as [|x l IH]; intros [|y l'] H.
  - reflexivity.
  - specialize (H 0); discriminate.
  - specialize (H 0); discriminate.
  - pose proof (H 0) as H0; cbn in H0; injection H0 as ->.
    f_equal. apply IH. intros k. exact (H (S k)).
Qed.

(** [flat_map] indexing when every chunk has the same length. *)
Lemma flat_map_const_length {A B} (f : A -> list B) l n :
  (forall x, In x l -> length (f x) = n) -> length (flat_map f l) = length l * n.
Proof.
  induction l as [|x l IH]; intros H; cbn; [reflexivity|].
  rewrite app_length, (H x (or_introl eq_refl)), IH; [reflexivity|].
  intros y Hy; apply H; right; exact Hy.
Qed.

Lemma flat_map_const_nth {A B} (f : A -> list B) l n i k x :
  (forall y, In y l -> length (f y) = n) -> nth_error l i = Some x -> k < n ->
  nth_error (flat_map f l) (n * i + k) = nth_error (f x) k.
Proof.
  revert i; induction l as [|y l IH]; intros i H Hi Hk; [destruct i; discriminate|].
  cbn. destruct i as [|i].
  - cbn in Hi; injection Hi as ->.
    rewrite nth_error_app1; [f_equal; lia|]. rewrite (H x (or_introl eq_refl)). lia.
  - cbn in Hi. rewrite nth_error_app2; rewrite (H y (or_introl eq_refl)); [|nia].
    replace (n * S i + k - n) with (n * i + k) by nia.
    apply IH; auto. intros z Hz; apply H; right; exact Hz.
Qed.
