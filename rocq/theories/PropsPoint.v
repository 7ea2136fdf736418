(** Property theorems: names of point groups, site operations and reported translations
    (C41, C42, C71).  Model: Sym.v. *)
From Coq Require Import String ZArith QArith Qcanon Bool Lia Lqa Psatz Arith Permutation Sorted setoid_ring.Field List.
From Verif Require Import Base Field Force ForceFacts Sym Order SymFacts PropsSym.
Import ListNotations.
Local Open Scope list_scope.
Local Open Scope nat_scope.

(** * Specification *)
(** number of operations with a property *)
Definition number (f : mat2 -> bool) (Ws : list mat2) : nat := length (filter f Ws).
Definition rotation (W : mat2) : bool := (det2 W =? 1)%Z.
Definition mirror (W : mat2) : bool := (det2 W =? -1)%Z.
(** translation-like: determinant 1 and trace 2; the identity is the only isometry of this kind *)
Definition unipotent (W : mat2) : bool := ((tr2 W =? 2) && (det2 W =? 1))%Z.
(** Hermann-Mauguin symbol of the plane point group with n rotations, with or without mirror lines *)
Definition hm_symbol (n : nat) (mirrors : bool) : option string :=
  match n, mirrors with
  | 1, false => Some "1" | 1, true => Some "m" | 2, false => Some "2" | 2, true => Some "2mm"
  | 3, false => Some "3" | 3, true => Some "3m" | 4, false => Some "4" | 4, true => Some "4mm"
  | 6, false => Some "6" | 6, true => Some "6mm" | _, _ => None
  end%string.

(** * The periodic plane *)
Definition flag (pbc : list Z) (i : nat) : Prop := exists z, nth_error pbc i = Some z /\ z <> 0%Z.
Theorem plane_of_periodic_directions : forall pbc p q r, length pbc = 3 ->
  plane pbc = Some (p, q, r) <->
  p < q /\ q < 3 /\ r < 3 /\ r <> p /\ r <> q /\ flag pbc p /\ flag pbc q /\ ~ flag pbc r.
Proof.
  intros [|a [|b [|c [|]]]] p q r Hl; try discriminate. unfold plane, flag. cbn [map].
  destruct (Z.eqb_spec a 0) as [Ea|Ea]; destruct (Z.eqb_spec b 0) as [Eb|Eb]; destruct (Z.eqb_spec c 0) as [Ec|Ec]; cbn [negb];
    (split; [intros H; try discriminate; injection H as <- <- <-; cbn; repeat split; try lia; firstorder congruence|]);
    intros (H1 & H2 & H3 & H4 & H5 & (zp & Ep & Np) & (zq & Eq & Nq) & Hr);
    destruct p as [|[|[|]]]; try lia; destruct q as [|[|[|]]]; try lia; destruct r as [|[|[|]]]; try lia; cbn in Ep, Eq, Hr;
    try reflexivity; exfalso; try congruence; try (apply Hr; eauto).
Qed.
Print Assumptions plane_of_periodic_directions.
Example planes : plane [1; 0; 1]%Z = Some (0, 2, 1) /\ plane [1; 1; 1]%Z = None.
Proof. split; reflexivity. Qed.

(** * Names *)
Section Names.
  Context {A : Type} {F : Fld A}.
  Definition Ws (ops : list (op A)) : list mat2 := map op_W ops.
  (** entries of the table: mirrors, identities, twofold, threefold, fourfold, sixfold *)
  Definition in_class (k : nat) (W : mat2) : bool := match op_class W with Some j => Nat.eqb j k | None => false end.
  Lemma number_cons f W l : number f (W :: l) = (if f W then 1 else 0) + number f l.
  Proof. unfold number. cbn [filter]. destruct (f W); reflexivity. Qed.
  Lemma in_class_val W k j : op_class W = Some k -> in_class j W = Nat.eqb k j.
  Proof. intros E. unfold in_class. rewrite E. reflexivity. Qed.
  Lemma count_ops_spec : forall (ops : list (op A)) a b c d e f t, count_ops ops [a; b; c; d; e; f] = Ok t ->
    (forall o, In o ops -> op_class (op_W o) <> None) /\
    t = [a + number (in_class 0) (Ws ops); b + number (in_class 1) (Ws ops); c + number (in_class 2) (Ws ops);
         d + number (in_class 3) (Ws ops); e + number (in_class 4) (Ws ops); f + number (in_class 5) (Ws ops)].
  Proof.
    induction ops as [|o rest IH]; intros a b c d e f t H.
    - cbn in H. injection H as <-. split; [intros o []|]. unfold number. cbn. rewrite !Nat.add_0_r. reflexivity.
    - cbn [count_ops] in H. destruct (op_class (op_W o)) as [k|] eqn:Ek; [|discriminate]. cbn [of_option bind] in H.
      assert (Hk : k < 6).
      { clear -Ek. unfold op_class in Ek. repeat match type of Ek with context[if ?b then _ else _] => destruct b; [injection Ek as <-; lia|] end. discriminate. }
      assert (HW : Ws (o :: rest) = op_W o :: Ws rest) by reflexivity. rewrite HW, !number_cons, !(in_class_val _ _ _ Ek).
      destruct k as [|[|[|[|[|[|]]]]]]; try lia; unfold bump in H; cbn [set_nth nth] in H; apply IH in H as (H1 & ->);
        (split; [intros o' [<-|Ho]; [congruence|auto]|]); cbn [Nat.eqb]; repeat (f_equal; try lia).
  Qed.
  Lemma class_cases W k : op_class W = Some k ->
    (k = 0 /\ tr2 W = 0%Z /\ det2 W = (-1)%Z) \/ (k = 1 /\ tr2 W = 2%Z /\ det2 W = 1%Z) \/ (k = 2 /\ tr2 W = (-2)%Z /\ det2 W = 1%Z) \/
    (k = 3 /\ tr2 W = (-1)%Z /\ det2 W = 1%Z) \/ (k = 4 /\ tr2 W = 0%Z /\ det2 W = 1%Z) \/ (k = 5 /\ tr2 W = 1%Z /\ det2 W = 1%Z).
  Proof.
    unfold op_class. intros H.
    repeat match type of H with context[(?a =? ?b)%Z] => destruct (Z.eqb_spec a b); cbn [andb] in H end;
      try discriminate; injection H as <-; tauto.
  Qed.
  Lemma class_numbers (l : list mat2) : (forall W, In W l -> op_class W <> None) ->
    number mirror l = number (in_class 0) l /\ number unipotent l = number (in_class 1) l /\
    number rotation l = number (in_class 1) l + number (in_class 2) l + number (in_class 3) l + number (in_class 4) l + number (in_class 5) l.
  Proof.
    induction l as [|W l IH]; intros H; [repeat split|].
    destruct IH as (I1 & I2 & I3); [intros V HV; apply H; right; exact HV|].
    rewrite !number_cons, I1, I2, I3. destruct (op_class W) as [k|] eqn:E; [|elim (H W (or_introl eq_refl) E)].
    unfold mirror at 1, unipotent at 1, rotation at 1. rewrite !(in_class_val _ _ _ E).
    destruct (class_cases W k E) as [(-> & T & D)|[(-> & T & D)|[(-> & T & D)|[(-> & T & D)|[(-> & T & D)|(-> & T & D)]]]]];
      rewrite T, D; cbn [Z.eqb Nat.eqb andb Pos.eqb]; repeat split; lia.
  Qed.

  Lemma name_of_counts n0 n1 n2 n3 n4 n5 g : point_group_name [n0; n1; n2; n3; n4; n5] = Some g ->
    let rot := n1 + n2 + n3 + n4 + n5 in
    n1 = 1 /\ (n0 = 0 \/ n0 = rot) /\ hm_symbol rot (0 <? n0) = Some g \/
    n1 = 2 /\ rot = n0 /\ (rot = 2 /\ g = "m (cm)" \/ rot = 4 /\ g = "2mm (c2mm)")%string.
  Proof.
    unfold point_group_name. intros G.
    repeat match type of G with context[match ?x with _ => _ end] => is_var x; destruct x end;
      try discriminate G; injection G as <-; cbn; tauto.
  Qed.
  Lemma found_counts (N : Num A F) (L : m3 A) pqr (atoms : list (atom A)) tr ops g :
    search_point_group L pqr atoms tr = Ok (ops, g) -> exists t, count_ops ops [0; 0; 0; 0; 0; 0] = Ok t /\ point_group_name t = Some g.
  Proof.
    intros H. destruct pqr as [[p q] r]. unfold search_point_group in H. destruct atoms as [|a atoms]; [discriminate H|].
    apply bind_ok in H as (sel & _ & H). apply bind_ok in H as (t & Ht & H). apply bind_ok in H as (g' & Hg & H).
    exists t. injection H as E1 E2. rewrite <- E1, <- E2. split; [exact Ht|]. destruct (point_group_name t); [injection Hg as ->; reflexivity|discriminate Hg].
  Qed.
  (** The reported name is the Hermann-Mauguin symbol of the operations found: with
      one identity-like operation the number of rotations and the presence of mirrors
      decide, and mirrors, when present, are as many as the rotations.  The two other
      names are given only when a second operation with trace 2 and determinant 1
      (not an isometry) was accepted. *)
  Theorem point_group_symbol : forall (N : Num A F) (L : m3 A) pqr (atoms : list (atom A)) tr ops g,
    search_point_group L pqr atoms tr = Ok (ops, g) ->
    let rot := number rotation (Ws ops) in let mir := number mirror (Ws ops) in
    number unipotent (Ws ops) = 1 /\ (mir = 0 \/ mir = rot) /\ hm_symbol rot (0 <? mir) = Some g \/
    number unipotent (Ws ops) = 2 /\ rot = mir /\ (rot = 2 /\ g = "m (cm)" \/ rot = 4 /\ g = "2mm (c2mm)")%string.
  Proof.
    intros N L pqr atoms tr ops g H. destruct (found_counts N L pqr atoms tr ops g H) as (t & E & G). clear H.
    apply count_ops_spec in E as (E1 & ->). cbn [Nat.add] in G. apply name_of_counts in G.
    destruct (class_numbers (Ws ops)) as (-> & -> & ->); [|exact G].
    intros W HW. apply in_map_iff in HW as (o & <- & Ho). apply E1, Ho.
  Qed.

  Lemma count_ops_total : forall (ops : list (op A)) a b c d e f, (forall o, In o ops -> op_class (op_W o) <> None) ->
    exists t, count_ops ops [a; b; c; d; e; f] = Ok t.
  Proof.
    induction ops as [|o rest IH]; intros a b c d e f H; [eexists; reflexivity|]. cbn [count_ops].
    destruct (op_class (op_W o)) as [k|] eqn:E; [|elim (H o (or_introl eq_refl) E)]. cbn [of_option bind].
    destruct (class_cases _ _ E) as [(-> & _)|[(-> & _)|[(-> & _)|[(-> & _)|[(-> & _)|(-> & _)]]]]]; unfold bump; cbn [set_nth nth];
      apply IH; intros o' Ho; apply H; right; exact Ho.
  Qed.
  Lemma number_perm f l l' : Permutation l l' -> number f l = number f l'.
  Proof. induction 1; rewrite ?number_cons; try lia; reflexivity. Qed.
  Lemma number_app f l l' : number f (l ++ l') = number f l + number f l'.
  Proof. induction l as [|x l IH]; [reflexivity|]. cbn [app]. rewrite !number_cons, IH. lia. Qed.
  Definition named (W : mat2) : bool :=
    match powers 6 W with
    | Some ps =>
        forallb (fun V => match op_class V with Some k => 0 <? k | None => false end) ps &&
        forallb (fun m => match point_group_name [m; number (in_class 1) ps; number (in_class 2) ps; number (in_class 3) ps; number (in_class 4) ps; number (in_class 5) ps],
                                hm_symbol (length ps) (0 <? m) with Some a, Some b => String.eqb a b | _, _ => false end) [0; length ps]
    | None => true
    end.
  Lemma all_named : forallb (fun W => implb (rotation W) (named W)) W_candidate = true.
  Proof. vm_compute. reflexivity. Qed.
  Lemma mirror_numbers ms k : Forall (fun M => tr2 M = 0%Z /\ det2 M = (-1)%Z) ms -> number (in_class k) ms = (if k =? 0 then length ms else 0).
  Proof.
    induction 1 as [|M l (T & D) _ IH]; [destruct k; reflexivity|]. rewrite number_cons, IH.
    assert (E : op_class M = Some 0) by (unfold op_class; rewrite T, D; reflexivity). rewrite (in_class_val _ _ _ E).
    destruct k; reflexivity.
  Qed.
  (** Every plane point group has a name: when the rotations found are the powers of one
      candidate and the mirrors are none or as many, classification succeeds and gives
      the symbol. *)
  Theorem point_groups_all_named : forall (ops : list (op A)) W ps ms,
    In W W_candidate -> det2 W = 1%Z -> powers 6 W = Some ps ->
    Permutation (Ws ops) (ps ++ ms) -> Forall (fun M => tr2 M = 0%Z /\ det2 M = (-1)%Z) ms -> length ms = 0 \/ length ms = length ps ->
    exists t g, count_ops ops [0; 0; 0; 0; 0; 0] = Ok t /\ point_group_name t = Some g /\ hm_symbol (length ps) (0 <? length ms) = Some g.
  Proof.
    intros ops W ps ms HW D HP HPm HM HL. pose proof all_named as AN. rewrite forallb_forall in AN. specialize (AN W HW).
    assert (HR : rotation W = true) by (unfold rotation; rewrite D; reflexivity). rewrite HR in AN. cbn [implb] in AN. unfold named in AN. rewrite HP in AN.
    apply andb_prop in AN as (A1 & A2). rewrite forallb_forall in A1, A2.
    assert (C : forall V, In V (Ws ops) -> op_class V <> None).
    { intros V HV. apply (Permutation_in _ HPm) in HV. apply in_app_or in HV as [HV|HV].
      - specialize (A1 V HV). destruct (op_class V); [discriminate|discriminate A1].
      - rewrite Forall_forall in HM. destruct (HM V HV) as (T & D'). unfold op_class. rewrite T, D'. discriminate. }
    destruct (count_ops_total ops 0 0 0 0 0 0) as (t & Ht); [intros o Ho; apply C; unfold Ws; apply in_map; exact Ho|].
    pose proof (proj2 (count_ops_spec _ _ _ _ _ _ _ _ Ht)) as Et. cbn [Nat.add] in Et.
    assert (Z0 : number (in_class 0) ps = 0).
    { clear -A1. induction ps as [|V ps IH]; [reflexivity|]. rewrite number_cons, IH by (intros x Hx; apply A1; right; exact Hx).
      specialize (A1 V (or_introl eq_refl)). unfold in_class. destruct (op_class V) as [[|k]|]; [discriminate A1|reflexivity|reflexivity]. }
    assert (HIn : In (length ms) [0; length ps]) by (cbn; destruct HL as [->| ->]; tauto).
    rewrite !(number_perm _ _ _ HPm), !number_app, !(mirror_numbers ms _ HM), Z0 in Et. cbn [Nat.eqb Nat.add] in Et. rewrite !Nat.add_0_r in Et.
    specialize (A2 _ HIn). cbn beta in A2. rewrite <- Et in A2. exists t.
    destruct (point_group_name t) as [a|]; [|discriminate A2]. destruct (hm_symbol _ _) as [b|]; [|discriminate A2].
    apply String.eqb_eq in A2 as ->. exists b. repeat split. exact Ht.
  Qed.
End Names.
Print Assumptions point_group_symbol.
Print Assumptions point_groups_all_named.

(** * Operations that fix an atom *)
Section Site.
  Context {A : Type} {F : Fld A}.
  (** index k belongs to an operation whose first index map sends selected atom r to itself *)
  Definition fixes (ops : list (op A)) (k r : nat) : Prop :=
    exists o w m rest, nth_error ops k = Some o /\ op_maps o = (w, m) :: rest /\ nth_error m r = Some r.
  Lemma py_nth_Ok {B} (l : list B) k x : py_nth l k = Ok x -> nth_error l k = Some x.
  Proof. unfold py_nth. destruct (nth_error l k); cbn; congruence. Qed.
  (** The operations used for a required atom are exactly those whose (first) index map
      fixes the atom, in the order of the operations. *)
  Theorem site_operations_fix_the_atom : forall (ops : list (op A)) r ks, self_ops ops r = Ok ks ->
    (forall k, In k ks <-> fixes ops k r) /\ StronglySorted lt ks.
  Proof.
    intros ops r ks H. unfold self_ops in H. apply bind_ok in H as (l & Hl & H). injection H as <-.
    apply mapM_ok_Forall2 in Hl.
    assert (HS : forall i (os : list (op A)) l0,
      Forall2 (fun a b => (let '(k, o) := a in let! m := first_map o in let! j := py_nth m r in Ok (if Nat.eqb j r then [k] else [])) = Ok b) (enumerate_from i os) l0 ->
      (forall k, In k (concat l0) <-> i <= k /\ fixes os (k - i) r) /\ StronglySorted lt (concat l0) /\ Forall (fun k => i <= k) (concat l0)).
    { intros i os. revert i. induction os as [|o os IH]; intros i l0 H0.
      - inversion H0; subst. split; [|split; constructor]. intros k. split; [intros []|intros (_ & (o & w & m & rest & E & _))]. destruct (k - i); discriminate E.
      - cbn [enumerate_from] in H0. inversion H0 as [|a b la lb H1 H2]; subst. specialize (IH (S i) lb H2) as (I1 & I2 & I3).
        apply bind_ok in H1 as (m & Hm & H1). apply bind_ok in H1 as (j & Hj & H1). injection H1 as <-.
        unfold first_map in Hm. apply bind_ok in Hm as ((w & m') & Hm & Em). cbn [snd] in Em. injection Em as ->.
        apply py_nth_Ok in Hm, Hj. destruct (op_maps o) as [|wm rest] eqn:Eo; [discriminate Hm|]. injection Hm as ->.
        assert (I3' : forall k, In k (concat lb) -> S i <= k) by (apply Forall_forall; exact I3).
        cbn [concat]. split; [|split].
        + intros k. rewrite in_app_iff, I1. split.
          * intros [K|(K1 & (o' & w' & m1 & rest' & E & K2 & K3))].
            { clear H0. destruct (Nat.eqb_spec j r) as [Ejr|]; [|destruct K]. destruct K as [Ek|[]]. subst j k. split; [lia|]. rewrite Nat.sub_diag. exists o, w, m, rest. repeat split; assumption. }
            { split; [lia|]. replace (k - i) with (S (k - S i)) by lia. exists o', w', m1, rest'. repeat split; assumption. }
          * intros (K & (o' & w' & m1 & rest' & E & K2 & K3)). destruct (Nat.eq_dec k i) as [->|N].
            { left. rewrite Nat.sub_diag in E. cbn in E. injection E as <-. rewrite Eo in K2. injection K2 as <- <- <-. rewrite Hj in K3. injection K3 as K3. rewrite K3, Nat.eqb_refl. left. reflexivity. }
            { right. split; [lia|]. replace (k - i) with (S (k - S i)) in E by lia. exists o', w', m1, rest'. repeat split; assumption. }
        + destruct (Nat.eqb j r); [|exact I2]. cbn [app]. constructor; [exact I2|]. apply Forall_forall. intros k Hk. apply I3' in Hk. lia.
        + destruct (Nat.eqb j r); cbn [app]; [constructor; [lia|]|]; apply Forall_forall; intros k Hk; apply I3' in Hk; lia. }
    destruct (HS 0 ops l Hl) as (H1 & H2 & _). split; [|exact H2]. intros k. rewrite H1, Nat.sub_0_r. split; [tauto|]. intros; split; [lia|assumption].
  Qed.
End Site.
Print Assumptions site_operations_fix_the_atom.
(** Of the operations (x, y) -> (y, x), (-y, x), (-x, -y) only the first fixes atom 0. *)
Example site_ops_case :
  self_ops (A := Qc) [mkOp (M2 0 1 1 0)%Z [(v3z, [0; 1])]; mkOp (M2 0 (-1) 1 0)%Z [(v3z, [1; 0]); (v3z, [0; 1])]; mkOp (M2 (-1) 0 0 (-1))%Z [(v3z, [1; 0])]] 0 = Ok [0].
Proof. reflexivity. Qed.

(** * Translations *)
Section Trans.
  Context {A : Type} {F : Fld A} {N : Num A F} {NL : NumLaws A F N}.
  Add Field fld_point : f_theory.
  (** n millionths *)
  Definition millionths (n : Z) : A := fdiv (fofZ n) (fofZ 1000000).
  Lemma floor_unique (x : A) a : le (fofZ a) x -> ~ le (fofZ (a + 1)) x -> ffloor x = a.
  Proof.
    intros H1 H2. pose proof (floor_le x) as F1. pose proof (floor_gt x) as F2. fold (le (fofZ (ffloor x)) x) in F1.
    assert (K2 : ~ le (fofZ (ffloor x + 1)) x) by (unfold le; congruence).
    destruct (Z_lt_le_dec (ffloor x) a) as [C|C].
    - exfalso. apply K2. eapply le_trans; [|exact H1]. apply fofZ_le. lia.
    - destruct (Z_lt_le_dec a (ffloor x)) as [D|D]; [|lia]. exfalso. apply H2. eapply le_trans; [|exact F1]. apply fofZ_le. lia.
  Qed.
  Lemma million_ne : (fofZ 1000000 : A) <> f0.
  Proof. intros E. apply fofZ_inj0 in E. lia. Qed.
  Lemma millionths_le a b : le (millionths a) (millionths b) <-> (a <= b)%Z.
  Proof.
    pose proof million_ne as Q. unfold millionths. split.
    - intros H. apply fofZ_le_inv. apply le_sub in H. apply le_sub.
      replace (fsub (fofZ b) (fofZ a)) with (fmul (fsub (fdiv (fofZ b) (fofZ 1000000)) (fdiv (fofZ a) (fofZ 1000000))) (fofZ 1000000)) by (field; exact Q).
      apply le_mul; [exact H|]. rewrite <- fofZ_0. apply fofZ_le. lia.
    - intros H. apply le_sub. replace (fsub (fdiv (fofZ b) (fofZ 1000000)) (fdiv (fofZ a) (fofZ 1000000))) with (fdiv (fsub (fofZ b) (fofZ a)) (fofZ 1000000)) by (field; exact Q).
      apply div_pos; [|lia]. apply (proj1 (le_sub _ _)), fofZ_le, H.
  Qed.
  Lemma millionths_Z a : fofZ a = millionths (a * 1000000).
  Proof. unfold millionths. rewrite fofZ_mul. field. exact million_ne. Qed.
  Lemma floor_millionths n : ffloor (millionths n) = (n / 1000000)%Z.
  Proof. apply floor_unique; rewrite millionths_Z, millionths_le; [|intros H]; pose proof (Z.div_mod n 1000000); pose proof (Z.mod_pos_bound n 1000000); lia. Qed.
  Lemma ffrac_millionths n : ffrac (millionths n) = millionths (Z.rem n 1000000).
  Proof.
    unfold ffrac. assert (Z0 : f0 = millionths 0) by (unfold millionths; rewrite fofZ_0; field; exact million_ne).
    assert (O : fopp (millionths n) = millionths (- n)) by (unfold millionths; rewrite fofZ_opp; field; exact million_ne).
    assert (S' : forall a b, fsub (millionths a) (fofZ b) = millionths (a - b * 1000000)) by (intros a b; unfold millionths; rewrite fofZ_sub, fofZ_mul; field; exact million_ne).
    destruct (fleb f0 (millionths n)) eqn:E.
    - fold (le f0 (millionths n)) in E. rewrite Z0 in E. apply millionths_le in E. rewrite floor_millionths, S'. f_equal.
      rewrite Z.rem_mod_nonneg by lia. rewrite Z.mod_eq by lia. lia.
    - assert (E' : ~ le f0 (millionths n)) by (unfold le; congruence). rewrite Z0, millionths_le in E'. rewrite O, floor_millionths, S'. f_equal.
      replace (Z.rem n 1000000) with (- Z.rem (- n) 1000000)%Z by (rewrite Z.rem_opp_l; lia). rewrite Z.rem_mod_nonneg by lia. rewrite Z.mod_eq by lia. lia.
  Qed.
  (** closest integer: at most one half away *)
  Lemma frint_near (x : A) : le (fabs (fsub x (fofZ (frint x)))) (fdiv f1 (fofZ 2)).
  Proof.
    assert (T : (fofZ 2 : A) <> f0) by (intros E; apply fofZ_inj0 in E; lia).
    pose proof (floor_le x) as F1. fold (le (fofZ (ffloor x)) x) in F1.
    pose proof (floor_gt x) as F2. assert (K2 : le x (fofZ (ffloor x + 1))) by (apply nle_le; unfold le; congruence). clear F2.
    rewrite fofZ_add, fofZ_1 in K2. apply le_sub in F1, K2.
    assert (Hh : le f0 (fdiv f1 (fofZ 2))) by (apply div_pos; [exact le_01|lia]).
    assert (two : fofZ 2 = fadd f1 f1) by (replace 2%Z with (1 + 1)%Z by lia; rewrite fofZ_add, fofZ_1; reflexivity).
    set (h := fdiv f1 (fofZ 2)) in *. assert (Eh : fadd h h = f1) by (unfold h; replace (fadd (fdiv f1 (fofZ 2)) (fdiv f1 (fofZ 2))) with (fdiv (fadd f1 f1) (fofZ 2)) by (field; exact T); rewrite <- two; field; exact T).
    assert (Lo : le (fsub x (fofZ (ffloor x))) h -> le (fabs (fsub x (fofZ (ffloor x)))) h).
    { intros K. apply fabs_le. split; [exact K|]. eapply le_trans; [|exact Hh]. apply le_sub. replace (fsub f0 (fopp (fsub x (fofZ (ffloor x))))) with (fsub x (fofZ (ffloor x))) by ring. exact F1. }
    assert (Hi : le h (fsub x (fofZ (ffloor x))) -> le (fabs (fsub x (fofZ (ffloor x + 1)))) h).
    { intros K. rewrite fofZ_add, fofZ_1. apply fabs_le. split.
      - eapply le_trans; [|exact Hh]. apply le_sub. replace (fsub f0 (fsub x (fadd (fofZ (ffloor x)) f1))) with (fsub (fadd (fofZ (ffloor x)) f1) x) by ring. exact K2.
      - apply le_sub in K. apply le_sub. replace (fsub h (fopp (fsub x (fadd (fofZ (ffloor x)) f1)))) with (fsub (fsub x (fofZ (ffloor x))) h); [exact K|].
        rewrite <- Eh. ring. }
    unfold frint, fltb. fold h. destruct (fleb h (fsub x (fofZ (ffloor x)))) eqn:E1; cbn [negb].
    - destruct (fleb (fsub x (fofZ (ffloor x))) h) eqn:E2; cbn [negb]; [|apply Hi; exact E1]. destruct (Z.even _); [apply Lo; exact E2|apply Hi; exact E1].
    - apply Lo. apply nle_le. unfold le. congruence.
  Qed.
  Definition on_grid (x : A) (n : Z) : Prop := x = millionths n /\ (-1000000 < n < 1000000)%Z.
  Lemma ffrac_round6 (x : A) : exists n m, on_grid (ffrac (round6 x)) n /\ le (fabs (fsub x (fadd (ffrac (round6 x)) (fofZ m)))) (fdiv f1 (fofZ 2000000)).
  Proof.
    assert (E : round6 x = millionths (frint (fmul x (fofZ 1000000)))) by reflexivity. rewrite E, ffrac_millionths.
    set (n := frint _). exists (Z.rem n 1000000), (Z.quot n 1000000). split.
    - split; [reflexivity|]. pose proof (Z.rem_bound_abs n 1000000). lia.
    - assert (T : (fofZ 2 : A) <> f0) by (intros E'; apply fofZ_inj0 in E'; lia).
      assert (T' : (fofZ 2000000 : A) <> f0) by (intros E'; apply fofZ_inj0 in E'; lia). pose proof million_ne as Q.
      pose proof (frint_near (fmul x (fofZ 1000000))) as H. fold n in H.
      replace (fsub x (fadd (millionths (Z.rem n 1000000)) (fofZ (Z.quot n 1000000)))) with (fmul (fsub (fmul x (fofZ 1000000)) (fofZ n)) (fdiv f1 (fofZ 1000000))).
      2:{ pose proof (Z.quot_rem' n 1000000) as QR. rewrite QR at 1. rewrite fofZ_add, fofZ_mul. unfold millionths. field. exact Q. }
      assert (P : le f0 (fdiv f1 (fofZ 1000000))) by (apply div_pos; [exact le_01|lia]).
      assert (E2 : fdiv f1 (fofZ 2000000) = fmul (fdiv f1 (fofZ 2)) (fdiv f1 (fofZ 1000000))).
      { replace (fofZ 2000000) with (fmul (fofZ 2) (fofZ 1000000) : A) by (rewrite <- fofZ_mul; reflexivity). field. split; assumption. }
      rewrite E2. generalize dependent (fsub (fmul x (fofZ 1000000)) (fofZ n)). intros d Hd. apply fabs_le in Hd as (H1 & H2).
      apply le_sub in H1, H2. apply fabs_le. split; apply le_sub.
      + replace (fsub (fmul (fdiv f1 (fofZ 2)) (fdiv f1 (fofZ 1000000))) (fmul d (fdiv f1 (fofZ 1000000)))) with (fmul (fsub (fdiv f1 (fofZ 2)) d) (fdiv f1 (fofZ 1000000))) by ring. now apply le_mul.
      + replace (fsub (fmul (fdiv f1 (fofZ 2)) (fdiv f1 (fofZ 1000000))) (fopp (fmul d (fdiv f1 (fofZ 1000000))))) with (fmul (fsub (fdiv f1 (fofZ 2)) (fopp d)) (fdiv f1 (fofZ 1000000))) by ring. now apply le_mul.
  Qed.
  Lemma ffrac_0 : ffrac (f0 : A) = f0.
  Proof. assert (Z0 : (f0 : A) = millionths 0) by (unfold millionths; rewrite fofZ_0; field; exact million_ne). rewrite Z0. rewrite ffrac_millionths. reflexivity. Qed.
  Lemma vget_vmap (g : A -> A) v i : i < 3 -> vget (vmap g v) i = g (vget v i).
  Proof. intros H. destruct i as [|[|[|]]]; try lia; reflexivity. Qed.
  (** The translation of every reported operation is a vector of whole millionths of the
      cell edges, between -1 and 1, zero across the plane; it is zero or, up to whole
      cells and half a millionth, the vector from the image of one atom to another
      atom of the cell. *)
  Theorem reported_translations : forall (L : m3 A) p q r atoms tr ops g o w m, r < 3 ->
    search_point_group L (p, q, r) atoms tr = Ok (ops, g) -> In o ops -> In (w, m) (op_maps o) ->
    vget w r = f0 /\ (forall i, i < 3 -> exists n, on_grid (vget w i) n) /\
    (w = v3z \/ exists a b, In a atoms /\ In b atoms /\
      forall i, i < 3 -> exists n, le (fabs (fsub (vget (vsub (snd b) (mvmul (embed p q (op_W o)) (snd a))) i) (fadd (vget w i) (fofZ n)))) (fdiv f1 (fofZ 2000000))).
  Proof.
    intros L p q r atoms tr ops g o w m Hr H Ho Hw.
    destruct (search_ops_In L p q r atoms tr ops g o H Ho) as (sel & W & _ & _ & -> & _ & _). clear H Ho.
    rewrite space_op_maps in Hw. apply in_flat_map in Hw as (w' & Hw' & Hw). apply in_map_iff in Hw as (same & E & _). injection E as -> _.
    assert (EW : op_W (space_op L p q r atoms tr sel W) = W) by exact eq_refl. rewrite EW. clear EW. revert Hw'. generalize (embed (A := A) p q W). intros M Hw'.
    assert (Z0 : (f0 : A) = millionths 0) by (unfold millionths; rewrite fofZ_0; field; exact million_ne).
    unfold w_candidates in Hw'. destruct Hw' as [<-|Hw'].
    { split; [destruct r as [|[|[|]]]; try lia; reflexivity|]. split; [|left; reflexivity]. intros i Hi. exists 0%Z. split; [|lia]. rewrite <- Z0. destruct i as [|[|[|]]]; try lia; reflexivity. }
    apply in_flat_map in Hw' as ((oi & oo) & Hin & Hw'). destruct (String.eqb _ _); [|destruct Hw'].
    set (t := ref_atom _ _) in *. set (w0 := vsub _ _) in *.
    destruct (f_dec (vget (vmap round6 w0) r) f0) as [Er|]; [|destruct Hw'].
    destruct (small _ _); [destruct Hw'|]. destruct Hw' as [<-|[]].
    split; [|split].
    - rewrite vget_vmap by exact Hr. rewrite Er. exact ffrac_0.
    - intros i Hi. rewrite !vget_vmap by exact Hi. destruct (ffrac_round6 (vget w0 i)) as (n & k & G & _). exists n. exact G.
    - right.
      assert (HL : forall j, j < length atoms -> exists a, In a atoms /\ snd a = match nth_error atoms j with Some a => snd a | None => v3z end).
      { intros j Hj. destruct (nth_error atoms j) as [a|] eqn:E; [exists a; split; [eapply nth_error_In; exact E|reflexivity]|]. apply nth_error_None in E. lia. }
      apply enumerate_In in Hin.
      assert (Hn : 0 < length atoms). { apply nth_error_In in Hin. apply filter_In in Hin as (Hin & _). apply in_seq in Hin. lia. }
      assert (Ht : t < length atoms).
      { unfold t, ref_atom. destruct (length tr <? length atoms); [|exact Hn].
        destruct (filter (fun i => negb (existsb (Nat.eqb i) tr)) (seq 0 (length atoms))) as [|x l] eqn:Ef; [exact Hn|]. cbn [nth]. assert (Hx : In x (filter (fun i => negb (existsb (Nat.eqb i) tr)) (seq 0 (length atoms)))) by (rewrite Ef; left; reflexivity).
        apply filter_In in Hx as (Hx & _). apply in_seq in Hx. lia. }
      assert (Hoi : oi < length atoms).
      { assert (K : oi < length (filter (fun i => negb (Nat.eqb i t)) (seq 0 (length atoms)))) by (apply nth_error_Some; rewrite Hin; discriminate).
        eapply Nat.lt_le_trans; [exact K|]. clear. rewrite <- (seq_length (length atoms) 0) at 2. induction (seq 0 (length atoms)) as [|x l IH]; [reflexivity|]. cbn [filter length]. destruct (negb _); cbn [length]; lia. }
      destruct (HL t Ht) as (a & Ia & Ea). destruct (HL oi Hoi) as (b & Ib & Eb). exists a, b. split; [exact Ia|]. split; [exact Ib|].
      intros i Hi. rewrite Ea, Eb. fold w0. rewrite !vget_vmap by exact Hi. destruct (ffrac_round6 (vget w0 i)) as (n & k & _ & G). exists k. exact G.
  Qed.
End Trans.
Print Assumptions reported_translations.
(** Four equal atoms in a row: the translation by a quarter of the cell edge is found. *)
Definition chain4 : list (atom Qc) := map (fun k => at_ "Cu" (qq 1 10) (qq k 4) (qq 1 2)) [0; 1; 2; 3]%Z.
Example chain4_translations :
  match search_point_group square (0, 1, 2) chain4 [0; 1; 2; 3] with
  | Ok (ops, g) => g = "2mm"%string /\ existsb (fun o => existsb (fun '(w, _) => (if f_dec (vy w) (millionths 250000) then true else false) && (if f_dec (vz w) f0 then true else false)) (op_maps o)) ops = true
  | Err _ => False
  end.
Proof. vm_compute. split; reflexivity. Qed.
