(** Exact scalars and 3-vectors.  The float arithmetic of the algebraic parts
    of the code is idealised to a field of characteristic 0 with decidable
    equality; instances: Qc (executable) and R. *)
From Coq Require Import ZArith QArith Qcanon Qfield Field Ring List Reals Lia.
Import ListNotations.
Local Open Scope nat_scope.

(** Arithmetic of numpy on exact numbers instead of doubles, used in every numerical line, e.g. unit_cell.py 165-172. *)
Class Fld (A : Type) : Type := {
  f0 : A; f1 : A;
  fadd : A -> A -> A; fmul : A -> A -> A; fsub : A -> A -> A; fopp : A -> A;
  fdiv : A -> A -> A; finv : A -> A;
  fofZ : Z -> A;
  f_theory : field_theory f0 f1 fadd fmul fsub fopp fdiv finv (@eq A);
  f_dec : forall x y : A, {x = y} + {x <> y};
  fofZ_0 : fofZ 0 = f0; fofZ_1 : fofZ 1 = f1;
  fofZ_add : forall a b, fofZ (a + b) = fadd (fofZ a) (fofZ b);
  fofZ_mul : forall a b, fofZ (a * b) = fmul (fofZ a) (fofZ b);
  fofZ_inj0 : forall a, fofZ a = f0 -> a = 0%Z }.

Declare Scope fld_scope.
Delimit Scope fld_scope with fld.
Notation "x + y" := (fadd x y) : fld_scope.
Notation "x * y" := (fmul x y) : fld_scope.
Notation "x - y" := (fsub x y) : fld_scope.
Notation "- x" := (fopp x) : fld_scope.
Notation "x / y" := (fdiv x y) : fld_scope.

(** Arithmetic of numpy on exact numbers instead of doubles (rationals), e.g. k_points.py 33-103. *)
#[export] Instance Fld_Qc : Fld Qc.
Proof.
  refine {| f0 := 0%Qc; f1 := 1%Qc; fadd := Qcplus; fmul := Qcmult; fsub := Qcminus;
            fopp := Qcopp; fdiv := Qcdiv; finv := Qcinv;
            fofZ := fun z => Q2Qc (inject_Z z) |}.
  - exact Qcft.
  - exact Qc_eq_dec.
  - apply Qc_is_canon; reflexivity.
  - apply Qc_is_canon; reflexivity.
  - intros a b. apply Qc_is_canon. unfold Qcplus, Q2Qc; cbn [this]. rewrite !Qred_correct. rewrite inject_Z_plus. reflexivity.
  - intros a b. apply Qc_is_canon. unfold Qcmult, Q2Qc; cbn [this]. rewrite !Qred_correct. rewrite inject_Z_mult. reflexivity.
  - intros a H. assert (E : Qeq (inject_Z a) 0).
    { assert (H2 : this (Q2Qc (inject_Z a)) = this 0%Qc) by (now rewrite H).
      unfold Q2Qc in H2; cbn [this] in H2. rewrite <- (Qred_correct (inject_Z a)). rewrite H2. reflexivity. }
    unfold Qeq in E. cbn in E. lia.
Defined.

(** Arithmetic of numpy on exact numbers instead of doubles (reals), e.g. post_process.py 412-460. *)
#[export] Instance Fld_R : Fld R.
Proof.
  refine {| f0 := 0%R; f1 := 1%R; fadd := Rplus; fmul := Rmult; fsub := Rminus;
            fopp := Ropp; fdiv := Rdiv; finv := Rinv; fofZ := IZR |}.
  - exact Rfield.
  - exact Req_EM_T.
  - reflexivity.
  - reflexivity.
  - exact plus_IZR.
  - exact mult_IZR.
  - exact eq_IZR_R0.
Defined.

Section Vec.
  Context {A : Type} {F : Fld A}.
  Local Open Scope fld_scope.
  Add Field fld_A : f_theory.

  (** numpy arrays of shape (3,), e.g. post_process.py 418. *)
  Record v3 : Type := V3 { vx : A; vy : A; vz : A }.
  (** numpy arrays of shape (3, 3), e.g. unit_cell.py 103. *)
  Record m3 : Type := M3 { r1 : v3; r2 : v3; r3 : v3 }.

  (** np.zeros([3]), e.g. symmetry.py 176. *)
  Definition v3z : v3 := V3 f0 f0 f0.
  (** numpy +, e.g. post_process.py 425. *)
  Definition vadd (u v : v3) : v3 := V3 (vx u + vx v) (vy u + vy v) (vz u + vz v).
  (** numpy -, e.g. post_process.py 418. *)
  Definition vsub (u v : v3) : v3 := V3 (vx u - vx v) (vy u - vy v) (vz u - vz v).
  (** number * array, e.g. post_process.py 425. *)
  Definition vscale (k : A) (v : v3) : v3 := V3 (k * vx v) (k * vy v) (k * vz v).
  (** np.dot of two vectors, e.g. post_process.py 426. *)
  Definition vdot (u v : v3) : A := vx u * vx v + vy u * vy v + vz u * vz v.
  (** np.cross, post_process.py 83-87. *)
  Definition vcross (u v : v3) : v3 :=
    V3 (vy u * vz v - vz u * vy v) (vz u * vx v - vx u * vz v) (vx u * vy v - vy u * vx v).

  (** numpy.dot(row vector, matrix). *)
  (** np.dot(vector, matrix), e.g. post_process.py 413. *)
  Definition vmul (v : v3) (M : m3) : v3 :=
    vadd (vadd (vscale (vx v) (r1 M)) (vscale (vy v) (r2 M))) (vscale (vz v) (r3 M)).
  (** numpy.dot(matrix, column vector). *)
  (** np.dot(matrix, vector), e.g. symmetry.py 340. *)
  Definition mvmul (M : m3) (v : v3) : v3 := V3 (vdot (r1 M) v) (vdot (r2 M) v) (vdot (r3 M) v).
  (** np.dot / @ of two matrices, e.g. symmetry.py 395. *)
  Definition mmul (M N : m3) : m3 := M3 (vmul (r1 M) N) (vmul (r2 M) N) (vmul (r3 M) N).
  (** numpy + of matrices, e.g. symmetry.py 395; used in proofs only. *)
  Definition madd (M N : m3) : m3 := M3 (vadd (r1 M) (r1 N)) (vadd (r2 M) (r2 N)) (vadd (r3 M) (r3 N)).
  (** number * matrix, e.g. post_process.py 161. *)
  Definition mscale (k : A) (M : m3) : m3 := M3 (vscale k (r1 M)) (vscale k (r2 M)) (vscale k (r3 M)).
  (** np.identity(3), symmetry.py 161. *)
  Definition m3id : m3 := M3 (V3 f1 f0 f0) (V3 f0 f1 f0) (V3 f0 f0 f1).
  (** np.transpose, e.g. symmetry.py 378. *)
  Definition transpose (M : m3) : m3 :=
    M3 (V3 (vx (r1 M)) (vx (r2 M)) (vx (r3 M)))
       (V3 (vy (r1 M)) (vy (r2 M)) (vy (r3 M)))
       (V3 (vz (r1 M)) (vz (r2 M)) (vz (r3 M))).
  (** np.linalg.det; the singularity test of np.linalg.inv, e.g. post_process.py 128. *)
  Definition det (M : m3) : A := vdot (r1 M) (vcross (r2 M) (r3 M)).
  (** part of np.linalg.inv, e.g. post_process.py 128. *)
  Definition adj (M : m3) : m3 :=
    transpose (M3 (vcross (r2 M) (r3 M)) (vcross (r3 M) (r1 M)) (vcross (r1 M) (r2 M))).
  (** np.linalg.inv of a non-singular matrix, e.g. post_process.py 128. *)
  Definition minv_raw (M : m3) : m3 := mscale (finv (det M)) (adj M).

  Lemma v3_ext u v : vx u = vx v -> vy u = vy v -> vz u = vz v -> u = v.
  Proof. destruct u, v; cbn; intros -> -> ->; reflexivity. Qed.
  Lemma m3_ext M N : r1 M = r1 N -> r2 M = r2 N -> r3 M = r3 N -> M = N.
  Proof. destruct M, N; cbn; intros -> -> ->; reflexivity. Qed.

  Ltac vring := repeat match goal with
    | M : m3 |- _ => destruct M as [?r1 ?r2 ?r3]
    | v : v3 |- _ => destruct v as [?x ?y ?z] end;
    repeat first [apply m3_ext | apply v3_ext];
    cbv beta iota zeta delta [vx vy vz r1 r2 r3 vadd vsub vscale vdot vmul mvmul mmul madd mscale transpose det adj vcross m3id v3z]; ring.

  Lemma vadd_comm u v : vadd u v = vadd v u. Proof. vring. Qed.
  Lemma vadd_assoc u v w : vadd u (vadd v w) = vadd (vadd u v) w. Proof. vring. Qed.
  Lemma vadd_0_r u : vadd u v3z = u. Proof. vring. Qed.
  Lemma vadd_0_l u : vadd v3z u = u. Proof. vring. Qed.
  Lemma vmul_assoc u M N : vmul (vmul u M) N = vmul u (mmul M N). Proof. vring. Qed.
  Lemma mmul_assoc L M N : mmul (mmul L M) N = mmul L (mmul M N). Proof. vring. Qed.
  Lemma vmul_id u : vmul u m3id = u. Proof. vring. Qed.
  Lemma mvmul_id u : mvmul m3id u = u. Proof. vring. Qed.
  Lemma mmul_id_r M : mmul M m3id = M. Proof. vring. Qed.
  Lemma mmul_id_l M : mmul m3id M = M. Proof. vring. Qed.
  Lemma mmul_adj_r M : mmul M (adj M) = mscale (det M) m3id. Proof. vring. Qed.
  Lemma mmul_adj_l M : mmul (adj M) M = mscale (det M) m3id. Proof. vring. Qed.
  Lemma mmul_mscale_r k M N : mmul M (mscale k N) = mscale k (mmul M N). Proof. vring. Qed.
  Lemma mmul_mscale_l k M N : mmul (mscale k M) N = mscale k (mmul M N). Proof. vring. Qed.
  Lemma mscale_mscale k l M : mscale k (mscale l M) = mscale (k * l) M. Proof. vring. Qed.
  Lemma mscale_1 M : mscale f1 M = M. Proof. vring. Qed.
  Lemma mvmul_mmul M N v : mvmul (mmul M N) v = mvmul M (mvmul N v). Proof. vring. Qed.
  Lemma det_mmul M N : det (mmul M N) = det M * det N. Proof. vring. Qed.
  Lemma det_id : det m3id = f1. Proof. vring. Qed.
  Lemma vmul_vadd u v M : vmul (vadd u v) M = vadd (vmul u M) (vmul v M). Proof. vring. Qed.
  Lemma mvmul_vadd u v M : mvmul M (vadd u v) = vadd (mvmul M u) (mvmul M v). Proof. vring. Qed.
  Lemma mvmul_vscale k v M : mvmul M (vscale k v) = vscale k (mvmul M v). Proof. vring. Qed.
  Lemma transpose_mmul M N : transpose (mmul M N) = mmul (transpose N) (transpose M). Proof. vring. Qed.
  Lemma transpose_invol M : transpose (transpose M) = M. Proof. destruct M as [[] [] []]; reflexivity. Qed.
  Lemma det_transpose M : det (transpose M) = det M. Proof. vring. Qed.

  Lemma minv_r M : det M <> f0 -> mmul M (minv_raw M) = m3id.
  Proof.
    intros H. unfold minv_raw. rewrite mmul_mscale_r, mmul_adj_r, mscale_mscale.
    replace (finv (det M) * det M) with (f1 : A) by (field; exact H). apply mscale_1.
  Qed.
  Lemma minv_l M : det M <> f0 -> mmul (minv_raw M) M = m3id.
  Proof.
    intros H. unfold minv_raw. rewrite mmul_mscale_l, mmul_adj_l, mscale_mscale.
    replace (finv (det M) * det M) with (f1 : A) by (field; exact H). apply mscale_1.
  Qed.
  Lemma minv_unique M N : mmul N M = m3id -> det M <> f0 -> minv_raw M = N.
  Proof.
    intros H HM. rewrite <- (mmul_id_l (minv_raw M)), <- H, mmul_assoc, minv_r, mmul_id_r by exact HM.
    reflexivity.
  Qed.

  Lemma f_integral x y : x * y = f0 -> x = f0 \/ y = f0.
  Proof.
    intros H. destruct (f_dec x f0) as [E|N]; [left; exact E|right].
    replace y with (finv x * (x * y)) by (field; exact N). rewrite H. ring.
  Qed.
  Lemma fsub_self_zero x y : y = y - x * f1 -> x = f0.
  Proof. intros H. replace x with (y - (y - x * f1)) by ring. rewrite <- H. ring. Qed.
  Lemma f_1_neq_0 : (f1 : A) <> f0.
  Proof. exact (F_1_neq_0 f_theory). Qed.
  Lemma fofZ_opp a : fofZ (- a) = - fofZ a.
  Proof.
    assert (H : fofZ (- a) + fofZ a = f0).
    { rewrite <- fofZ_add. replace (- a + a)%Z with 0%Z by lia. apply fofZ_0. }
    replace (fofZ (- a)) with (fofZ (- a) + fofZ a - fofZ a) by ring. rewrite H. ring.
  Qed.
  Lemma fofZ_sub a b : fofZ (a - b) = fofZ a - fofZ b.
  Proof. unfold Z.sub. rewrite fofZ_add, fofZ_opp. ring. Qed.
  Lemma fofZ_inj a b : fofZ a = fofZ b -> a = b.
  Proof.
    intros H. assert (E : fofZ (a - b) = f0) by (rewrite fofZ_sub, H; ring).
    apply fofZ_inj0 in E. lia.
  Qed.
End Vec.
Arguments v3 A : clear implicits.
Arguments m3 A : clear implicits.

Ltac vring_gen := repeat match goal with
  | M : m3 _ |- _ => destruct M as [?r1 ?r2 ?r3]
  | v : v3 _ |- _ => destruct v as [?x ?y ?z] end;
  repeat first [apply m3_ext | apply v3_ext];
  cbv beta iota zeta delta [vx vy vz r1 r2 r3 vadd vsub vscale vdot vmul mvmul mmul madd mscale transpose det adj vcross m3id v3z]; ring.
