(** The symmetry search gives the same answer on rational data computed with rationals
    (executable) and with reals; used to evaluate the search on concrete real crystals. *)
From Coq Require Import String ZArith QArith Qcanon Qround Qreals Bool Lia Lra Arith Reals setoid_ring.Field List.
From Verif Require Import Base Field Force ForceFacts Sym Order.
Import ListNotations.
Local Open Scope list_scope.
Local Open Scope nat_scope.

Record Hom {A B : Type} {FA : Fld A} {FB : Fld B} {NA : Num A FA} {NB : Num B FB} (h : A -> B) : Prop := {
  h_add : forall x y, h (fadd x y) = fadd (h x) (h y);
  h_mul : forall x y, h (fmul x y) = fmul (h x) (h y);
  h_sub : forall x y, h (fsub x y) = fsub (h x) (h y);
  h_opp : forall x, h (fopp x) = fopp (h x);
  h_div : forall x y, y <> f0 -> h (fdiv x y) = fdiv (h x) (h y);
  h_ofZ : forall z, h (fofZ z) = fofZ z;
  h_inj : forall x y, h x = h y -> x = y;
  h_le : forall x y, fleb (h x) (h y) = fleb x y;
  h_floor : forall x, ffloor (h x) = ffloor x }.

Section Transfer.
  Context {A B : Type} {FA : Fld A} {FB : Fld B} {NA : Num A FA} {NB : Num B FB} (h : A -> B) (H : Hom h).
  Definition hv (v : v3 A) : v3 B := V3 (h (vx v)) (h (vy v)) (h (vz v)).
  Definition hm (M : m3 A) : m3 B := M3 (hv (r1 M)) (hv (r2 M)) (hv (r3 M)).
  Definition ha (a : atom A) : atom B := (fst a, hv (snd a)).
  Definition hw (m : v3 A * list nat) : v3 B * list nat := (hv (fst m), snd m).
  Definition ho (o : op A) : op B := mkOp (op_W o) (map hw (op_maps o)).

  Lemma h_0 : h f0 = f0. Proof. rewrite <- (@fofZ_0 A), <- (@fofZ_0 B). apply (h_ofZ h H). Qed.
  Lemma h_1 : h f1 = f1. Proof. rewrite <- (@fofZ_1 A), <- (@fofZ_1 B). apply (h_ofZ h H). Qed.
  Lemma h_dec6 n : h (dec6 n) = dec6 n.
  Proof. unfold dec6. rewrite (h_div h H), !(h_ofZ h H); [reflexivity|]. apply fofZ_ne. discriminate. Qed.
  Lemma h_lt x y : fltb (h x) (h y) = fltb x y. Proof. unfold fltb. now rewrite (h_le h H). Qed.
  Lemma h_abs x : h (fabs x) = fabs (h x).
  Proof. unfold fabs. rewrite <- h_0, (h_le h H). destruct (fleb f0 x); [reflexivity|apply (h_opp h H)]. Qed.
  Lemma h_rint x : frint (h x) = frint x.
  Proof.
    unfold frint. rewrite (h_floor h H). assert (E : fdiv f1 (fofZ 2) = h (fdiv f1 (fofZ 2))).
    { rewrite (h_div h H), h_1, (h_ofZ h H); [reflexivity|]. apply fofZ_ne. discriminate. }
    rewrite E, <- (h_ofZ h H), <- (h_sub h H), !h_lt. reflexivity.
  Qed.
  Lemma h_round6 x : h (round6 x) = round6 (h x).
  Proof. unfold round6. rewrite h_dec6, <- (h_ofZ h H), <- (h_mul h H), h_rint. reflexivity. Qed.
  Lemma h_frac x : h (ffrac x) = ffrac (h x).
  Proof. unfold ffrac. rewrite (h_sub h H), (h_ofZ h H), <- h_0, (h_le h H), <- (h_opp h H), !(h_floor h H). reflexivity. Qed.
  Lemma hv_add u v : hv (vadd u v) = vadd (hv u) (hv v). Proof. unfold hv, vadd. cbn [vx vy vz]. now rewrite !(h_add h H). Qed.
  Lemma hv_sub u v : hv (vsub u v) = vsub (hv u) (hv v). Proof. unfold hv, vsub. cbn [vx vy vz]. now rewrite !(h_sub h H). Qed.
  Lemma h_dot u v : h (vdot u v) = vdot (hv u) (hv v). Proof. unfold hv, vdot. cbn [vx vy vz]. now rewrite !(h_add h H), !(h_mul h H). Qed.
  Lemma hv_mvmul M v : hv (mvmul M v) = mvmul (hm M) (hv v). Proof. unfold mvmul. unfold hv at 1. cbn [vx vy vz hm r1 r2 r3]. now rewrite !h_dot. Qed.
  Lemma hm_transpose M : hm (transpose M) = transpose (hm M). Proof. reflexivity. Qed.
  Lemma hv_z : hv v3z = v3z. Proof. unfold hv, v3z. cbn [vx vy vz]. now rewrite !h_0. Qed.
  Lemma hv_map f g v : (forall x, h (f x) = g (h x)) -> hv (vmap f v) = vmap g (hv v).
  Proof. intros E. unfold hv, vmap. cbn [vx vy vz]. now rewrite !E. Qed.
  Lemma h_small e v : small (h e) (hv v) = small e v.
  Proof. unfold small, hv. cbn [vx vy vz]. rewrite <- !h_abs, !(h_le h H). reflexivity. Qed.
  Lemma h_isclose e a b : isclose (h e) (h a) (h b) = isclose e a b.
  Proof.
    unfold isclose. rewrite <- (h_sub h H), <- !h_abs. assert (E : fdiv (fofZ 1) (fofZ (10 ^ 5)) = h (fdiv (fofZ 1) (fofZ (10 ^ 5)))).
    { rewrite (h_div h H), !(h_ofZ h H); [reflexivity|]. apply fofZ_ne. discriminate. }
    rewrite E, <- (h_mul h H), <- (h_add h H), (h_le h H). reflexivity.
  Qed.
  Lemma h_vget v i : h (vget v i) = vget (hv v) i. Proof. destruct i as [|[|i]]; reflexivity. Qed.
  Lemma h_mget M i j : h (mget M i j) = mget (hm M) i j. Proof. unfold mget. rewrite h_vget. destruct i as [|[|i]]; reflexivity. Qed.
  Lemma h_metric L p q W : metric_ok (metric (hm L) p q) W = metric_ok (metric L p q) W.
  Proof.
    unfold metric_ok, metric. cbv zeta. cbn [rotate_metric]. rewrite <- !h_mget, <- !(h_ofZ h H).
    rewrite <- !(h_mul h H), <- !(h_add h H), <- !(h_mul h H), <- !(h_add h H), <- ?(h_mul h H), <- ?(h_add h H), <- ?(h_mul h H), <- ?(h_add h H).
    rewrite <- h_dec6, !h_isclose. reflexivity.
  Qed.
  Lemma h_lattice_ops L p q : lattice_ops (hm L) p q = lattice_ops L p q.
  Proof. unfold lattice_ops. apply filter_ext. intros W. apply h_metric. Qed.
  Lemma h_embed p q W : hm (embed p q W) = embed p q W.
  Proof.
    unfold embed, hm, hv. cbn [r1 r2 r3 vx vy vz].
    assert (E : forall (a b c d e : bool) x y z w, h (if a then fofZ x else if b then fofZ y else if c then fofZ z else if d then fofZ w else if e then f1 else f0) =
                 if a then fofZ x else if b then fofZ y else if c then fofZ z else if d then fofZ w else if e then f1 else f0).
    { intros [|] [|] [|] [|] [|] x y z w; rewrite ?(h_ofZ h H), ?h_0, ?h_1; reflexivity. }
    rewrite !E. reflexivity.
  Qed.
  Lemma h_same L y x : same_place (hm L) (hv y) (hv x) = same_place L y x.
  Proof.
    unfold same_place. cbv zeta. rewrite <- hm_transpose, <- hv_sub, <- (hv_map (fun t => fofZ (frint t))), <- hv_sub, <- hv_mvmul, <- h_dec6, h_small; [reflexivity|].
    intros t. now rewrite h_rint, (h_ofZ h H).
  Qed.
  Lemma enum_map {X Y} (f : X -> Y) l : forall k, enumerate_from k (map f l) = map (fun '(i, x) => (i, f x)) (enumerate_from k l).
  Proof. induction l; intros k; cbn; [reflexivity|now rewrite IHl]. Qed.
  Lemma h_matches L sel ty y : matches (hm L) (map ha sel) ty (hv y) = matches L sel ty y.
  Proof.
    unfold matches, enumerate. rewrite enum_map. rewrite !flat_map_concat_map, map_map. f_equal. apply map_ext. intros (j & t & x). cbn [ha fst snd]. now rewrite h_same.
  Qed.
  Lemma h_loop L sel ys : forall acc n, match_loop (hm L) (map ha sel) (map ha ys) acc n = match_loop L sel ys acc n.
  Proof. induction ys as [|(t & y) ys IH]; intros acc n; cbn [map match_loop ha fst snd]; [reflexivity|]. rewrite h_matches, IH, map_length. reflexivity. Qed.
  Lemma h_accepted L sel ys : accepted (hm L) (map ha sel) (map ha ys) = accepted L sel ys.
  Proof. unfold accepted. now rewrite h_loop. Qed.
  Lemma h_candidates r atoms tr M : w_candidates r (map ha atoms) tr (hm M) = map hv (w_candidates r atoms tr M).
  Proof.
    unfold w_candidates. cbv zeta. rewrite map_length. cbn [map]. rewrite hv_z. f_equal.
    assert (E1 : forall i, match nth_error (map ha atoms) i with Some a => fst a | None => EmptyString end = match nth_error atoms i with Some a => fst a | None => EmptyString end).
    { intros i. rewrite nth_error_map. destruct (nth_error atoms i); reflexivity. }
    assert (E2 : forall i, match nth_error (map ha atoms) i with Some a => snd a | None => v3z end = hv (match nth_error atoms i with Some a => snd a | None => v3z end)).
    { intros i. rewrite nth_error_map. destruct (nth_error atoms i); [reflexivity|symmetry; apply hv_z]. }
    rewrite !flat_map_concat_map, concat_map, map_map. f_equal. apply map_ext. intros (oi & o). rewrite !E1, !E2.
    destruct (String.eqb _ _); [|reflexivity]. rewrite <- hv_mvmul, <- hv_sub, <- (hv_map round6) by apply h_round6. rewrite <- h_vget.
    set (w := vmap round6 _). destruct (f_dec (vget w r) f0) as [E|E], (f_dec (h (vget w r)) f0) as [E'|E'].
    - rewrite <- (hv_map ffrac) by apply h_frac. rewrite <- h_dec6, h_small. destruct (small _ _); reflexivity.
    - exfalso. apply E'. rewrite E. apply h_0.
    - exfalso. apply E. apply (h_inj h H). rewrite E'. symmetry. apply h_0.
    - reflexivity.
  Qed.
  Lemma h_space_op L p q r atoms tr sel W : space_op (hm L) p q r (map ha atoms) tr (map ha sel) W = ho (space_op L p q r atoms tr sel W).
  Proof.
    unfold space_op, ho. cbv zeta. cbn [op_W op_maps]. f_equal. rewrite <- h_embed, h_candidates. rewrite !flat_map_concat_map, concat_map, !map_map. f_equal.
    apply map_ext. intros w. rewrite map_map. cbn [hw fst snd].
    replace (map (fun x => let '(ty, x0) := ha x in (ty, vadd (mvmul (hm (embed p q W)) x0) (hv w))) sel)
      with (map ha (map (fun '(ty, x) => (ty, vadd (mvmul (embed p q W) x) w)) sel)).
    - rewrite h_accepted, map_map. reflexivity.
    - rewrite map_map. apply map_ext. intros (t & x). unfold ha. cbn [fst snd]. now rewrite hv_add, hv_mvmul.
  Qed.
  Lemma h_mapM (l : list (atom A)) tr : mapM (py_nth (map ha l)) tr = match mapM (py_nth l) tr with Ok r => Ok (map ha r) | Err e => Err e end.
  Proof.
    induction tr as [|i tr IH]; cbn [mapM]; [reflexivity|]. unfold py_nth at 1 3. rewrite nth_error_map. destruct (nth_error l i); cbn [option_map of_option bind]; [|reflexivity].
    rewrite IH. destruct (mapM (py_nth l) tr); reflexivity.
  Qed.
  Lemma h_count l : forall t, count_ops (map ho l) t = count_ops l t.
  Proof. induction l as [|o l IH]; intros t; cbn [map count_ops]; [reflexivity|]. cbn [ho op_W]. destruct (of_option EAssert (op_class (op_W o))); cbn [bind]; [apply IH|reflexivity]. Qed.
  Lemma filter_map_comm (l : list (op A)) : filter nonempty_op (map ho l) = map ho (filter nonempty_op l).
  Proof. induction l as [|o l IH]; [reflexivity|]. cbn [map filter]. assert (E : nonempty_op (ho o) = nonempty_op o) by (unfold nonempty_op, ho; cbn [op_maps]; destruct (op_maps o); reflexivity). rewrite E. destruct (nonempty_op o); cbn [map]; now rewrite IH. Qed.
  Local Opaque lattice_ops space_op count_ops.
  Definition finish {C} {FC : Fld C} (ops : list (op C)) : result (list (op C) * string) :=
    let! t := count_ops ops [0; 0; 0; 0; 0; 0] in let! g := of_option ECannotSearchPointGroup (point_group_name t) in Ok (ops, g).
  Lemma h_finish ops ops' g : finish ops = Ok (ops', g) -> finish (map ho ops) = Ok (map ho ops', g).
  Proof.
    unfold finish. rewrite h_count. destruct (count_ops ops _) as [t|e]; cbn [bind]; [|discriminate]. destruct (of_option _ _) as [g0|e]; cbn [bind]; [|discriminate].
    intros E. injection E as <- <-. reflexivity.
  Qed.
  Lemma search_finish {C} {FC : Fld C} {NC : Num C FC} (L : m3 C) p q r atoms tr : atoms <> [] ->
    search_point_group L (p, q, r) atoms tr = let! sel := mapM (py_nth atoms) tr in finish (filter nonempty_op (map (space_op L p q r atoms tr sel) (lattice_ops L p q))).
  Proof.
    intros E. destruct atoms as [|a0 l]; [contradiction|]. unfold search_point_group, finish. reflexivity.
  Qed.
  Lemma h_ops L p q r atoms tr sel : filter nonempty_op (map (space_op (hm L) p q r (map ha atoms) tr (map ha sel)) (lattice_ops (hm L) p q)) =
    map ho (filter nonempty_op (map (space_op L p q r atoms tr sel) (lattice_ops L p q))).
  Proof. rewrite h_lattice_ops. rewrite (map_ext _ _ (h_space_op L p q r atoms tr sel)), <- (map_map (space_op L p q r atoms tr sel) ho). apply filter_map_comm. Qed.
  Lemma search_transfer L pqr atoms tr ops g : search_point_group L pqr atoms tr = Ok (ops, g) ->
    search_point_group (hm L) pqr (map ha atoms) tr = Ok (map ho ops, g).
  Proof.
    destruct pqr as ((p & q) & r). intros E. assert (NE : atoms <> []) by (intros ->; discriminate E).
    rewrite search_finish in E by exact NE. rewrite search_finish by (destruct atoms; [contradiction|discriminate]). rewrite h_mapM.
    apply bind_ok in E as (sel & -> & E). apply h_finish in E. rewrite <- E. cbn [bind]. f_equal. apply h_ops.
  Qed.
End Transfer.

Definition qr (x : Qc) : R := Q2R (this x).
Lemma Q2R_red (q : Q) : Q2R (Qred q) = Q2R q. Proof. apply Qeq_eqR, Qred_correct. Qed.
Lemma Q2R_inject z : Q2R (inject_Z z) = IZR z. Proof. unfold Q2R, inject_Z. cbn [Qnum Qden]. field. Qed.
Lemma hom_qr : Hom qr.
Proof.
  constructor; unfold qr; intros.
  - change (Q2R (Qred (x + y)) = Q2R x + Q2R y)%R. rewrite Q2R_red. apply Q2R_plus.
  - change (Q2R (Qred (x * y)) = Q2R x * Q2R y)%R. rewrite Q2R_red. apply Q2R_mult.
  - change (Q2R (Qred (x + Qred (- y))) = Q2R x - Q2R y)%R. rewrite Q2R_red, Q2R_plus, Q2R_red, Q2R_opp. reflexivity.
  - change (Q2R (Qred (- x)) = - Q2R x)%R. rewrite Q2R_red. apply Q2R_opp.
  - change (Q2R (Qred (x * Qred (/ y))) = Q2R x / Q2R y)%R. rewrite Q2R_red, Q2R_mult, Q2R_red, Q2R_inv; [reflexivity|]. intros E. apply H. apply Qc_is_canon. exact E.
  - change (Q2R (Qred (inject_Z z)) = IZR z). rewrite Q2R_red. apply Q2R_inject.
  - apply Qc_is_canon. now apply eqR_Qeq.
  - change ((if Rle_dec (Q2R x) (Q2R y) then true else false) = Qle_bool x y). destruct (Rle_dec _ _) as [E|E]; symmetry.
    + apply Qle_bool_iff. now apply Rle_Qle.
    + apply not_true_iff_false. intros E'. apply E, Qle_Rle. now apply Qle_bool_iff.
  - change (up (Q2R x) - 1 = Qfloor x)%Z. pose proof (archimed (Q2R x)) as (U1 & U2). pose proof (Qfloor_le x) as V1. pose proof (Qlt_floor x) as V2. apply Qle_Rle in V1. apply Qlt_Rlt in V2.
    rewrite Q2R_inject in V1, V2. set (n := Qfloor x) in *. assert (K1 : (IZR n < IZR (up (Q2R x)))%R) by lra.
    assert (K2 : (IZR (up (Q2R x)) < IZR (n + 2))%R) by (rewrite !plus_IZR in *; lra). apply lt_IZR in K1, K2. lia.
Qed.
