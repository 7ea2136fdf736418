(** Facts about whole post-processes (Report.v). *)
From Coq Require Import Reals Qreals FunctionalExtensionality.
From Coquelicot Require Import Complex.
From Coq Require Import String Ascii ZArith QArith Qcanon Bool Lia Arith List Permutation.
From Verif Require Import Base Dec Field Args Cell Super Displace Text Check KPoints Weight Force Cli Session Run Phonon Band Thermal Dos Mode Output Plot Report Sym PropsSym SymRun.
Import ListNotations.
Local Open Scope list_scope.
Local Open Scope nat_scope.

(** ---- writing a matrix twice ---- *)
Section Twice.
  Context {A : Type} {F : Fld A}.
  Definition overlay (f : nat -> nat -> option (option A)) (m : fmat A) : fmat A := fun i j => match f i j with Some v => v | None => m i j end.
  Lemma overlay_twice f m : overlay f (overlay f m) = overlay f m.
  Proof. apply functional_extensionality; intro i. apply functional_extensionality; intro j. unfold overlay. destruct (f i j); reflexivity. Qed.
  Lemma fd_loop_overlay {file} (read : file -> result (list (v3 A))) nr nc d files : forall idx fw m m',
    fd_loop read nr nc d idx fw m files = (m', None) -> exists f, forall m0, fd_loop read nr nc d idx fw m0 files = (overlay f m0, None).
  Proof.
    induction files as [|x r IH]; intros idx fw m m' H; cbn [fd_loop] in *.
    - exists (fun _ _ => None). intro m0. reflexivity.
    - destruct (read x) as [v|e]; [|discriminate]. destruct (Nat.even idx).
      + destruct (IH _ _ _ _ H) as [f Hf]. exists f. exact Hf.
      + destruct (of_option EUnbound fw) as [fw'|]; cbn [bind] in *; [|discriminate].
        destruct (np_sub fw' v) as [df|]; cbn [bind] in *; [|discriminate].
        unfold set_column in *. destruct (negb _); [discriminate|]. destruct (nc <=? idx / 2); [discriminate|].
        destruct (IH _ _ _ _ H) as [f Hf].
        exists (fun i j => match f i j with Some v => Some v | None => if Nat.eqb j (idx / 2) then Some (nth_error (map (fd d) (flatten df)) i) else None end).
        intro m0. rewrite Hf. f_equal. apply functional_extensionality; intro i. apply functional_extensionality; intro j.
        unfold overlay. destruct (f i j); [reflexivity|]. destruct (Nat.eqb j (idx / 2)); reflexivity.
  Qed.
  (** Reading the same force files again changes nothing (set_force_constant without symmetry). *)
  Lemma nosym_twice {file} (read : file -> result (list (v3 A))) n k d m m' files :
    set_force_constant_nosym read n k d m files = (m', None) -> set_force_constant_nosym read n k d m' files = (m', None).
  Proof.
    unfold set_force_constant_nosym. intro H. destruct (fd_loop_overlay _ _ _ _ _ _ _ _ _ H) as [f Hf].
    rewrite Hf in H. injection H as <-. rewrite Hf, overlay_twice. reflexivity.
  Qed.
End Twice.

Section SymTwice.
  Context {A : Type} {F : Fld A} {N : Num A F}.
  (** equal in the columns of the atoms [req] *)
  Definition same_in (req : list nat) (m m' : fmat A) : Prop := forall i j, In (j / 3) req -> m i j = m' i j.
  Definition inside (req : list nat) (f : nat -> nat -> option (option A)) : Prop := forall i j v, f i j = Some v -> In (j / 3) req.
  Definition outside (req : list nat) (f : nat -> nat -> option (option A)) : Prop := forall i j v, f i j = Some v -> ~ In (j / 3) req.

  Lemma require_overlay {file} (read : file -> result (list (v3 A))) n nsel st sd d req : forall i m files m',
    require_loop read n nsel st sd d i req m files = (m', None) ->
    exists f, inside req f /\ forall m0, require_loop read n nsel st sd d i req m0 files = (overlay f m0, None).
  Proof.
    induction req as [|r rest IH]; intros i m files m' H; cbn [require_loop] in *.
    - exists (fun _ _ => None). split; [intros ? ? ? X; discriminate X|reflexivity].
    - destruct (py_nth (sd_additional sd) i) as [adds|]; cbn [bind] in *; [|discriminate].
      destruct (py_nth (sd_single sd) i) as [single|]; cbn [bind] in *; [|discriminate].
      destruct (displace_inverse (single ++ adds)) as [inv|]; cbn [bind] in *; [|discriminate].
      destruct (py_nth (sd_W_index sd) i) as [wi|]; cbn [bind] in *; [|discriminate].
      destruct (py_nth (sd_W_cart sd) i) as [wc|]; cbn [bind] in *; [|discriminate].
      destruct (atom_loop _ _ _ _ _ _ _ _ _ _ _ _) as [[cols files']|]; cbn [bind] in *; [|discriminate].
      destruct (nsel <=? r); [discriminate|].
      destruct (IH _ _ _ _ H) as (f & If & Hf).
      exists (fun a b => match f a b with Some v => Some v | None => if Nat.eqb (b / 3) r then Some (option_map (fun M => mget M (a mod 3) (b mod 3)) (option_map (fc_block d inv) (diff_block cols (a / 3)))) else None end).
      split.
      + intros a b v X. destruct (f a b) eqn:E; [right; exact (If _ _ _ E)|]. destruct (Nat.eqb_spec (b / 3) r) as [->|]; [left; reflexivity|discriminate].
      + intro m0. rewrite Hf. f_equal. apply functional_extensionality; intro a. apply functional_extensionality; intro b.
        unfold overlay. destruct (f a b); [reflexivity|]. unfold put_block_column. destruct (Nat.eqb (b / 3) r); reflexivity.
  Qed.

  Lemma block_same req m m' gs g : same_in req m m' -> In g req -> block_of m gs g = block_of m' gs g.
  Proof.
    intros H I. unfold block_of.
    assert (X : forall a b, b < 3 -> m (3 * gs + a) (3 * g + b) = m' (3 * gs + a) (3 * g + b)).
    { intros a b L. apply H. replace (3 * g + b) with (b + g * 3) by lia. rewrite Nat.div_add, Nat.div_small by lia. exact I. }
    rewrite !X by lia. reflexivity.
  Qed.
  Lemma derive_rows_overlay req st Wc nr g : In g req -> ~ In nr req -> forall img k m m', derive_rows st Wc nr g k img m = Ok m' ->
    exists f, outside req f /\ forall m0, same_in req m m0 -> derive_rows st Wc nr g k img m0 = Ok (overlay f m0).
  Proof.
    intros Ig Nn. induction img as [|v r IH]; intros k m m' H; cbn [derive_rows] in *.
    - exists (fun _ _ => None). split; [intros ? ? ? X; discriminate X|reflexivity].
    - destruct (py_nth st k) as [s0|]; cbn [bind] in *; [|discriminate]. destruct (py_nth st v) as [gs|]; cbn [bind] in *; [|discriminate].
      destruct (IH _ _ _ H) as (f & Of & Hf).
      set (B := option_map (fun B => mmul (mmul (minv_raw Wc) B) Wc) (block_of m gs g)) in *.
      exists (fun a b => match f a b with Some v => Some v | None => if (Nat.eqb (a / 3) s0 && Nat.eqb (b / 3) nr)%bool then Some (option_map (fun M => mget M (a mod 3) (b mod 3)) B) else None end).
      split.
      + intros a b w X. destruct (f a b) eqn:E; [exact (Of _ _ _ E)|]. destruct (Nat.eqb_spec (b / 3) nr) as [->|]; [exact Nn|]. rewrite andb_false_r in X. discriminate.
      + intros m0 S0. rewrite <- (block_same req m m0 gs g S0 Ig). fold B.
        assert (P : forall x, same_in req x (put_block x s0 nr B)).
        { intros x a b I. unfold put_block. destruct (Nat.eqb_spec (b / 3) nr) as [E|]; [rewrite E in I; contradiction|]. rewrite andb_false_r. reflexivity. }
        rewrite Hf.
        * f_equal. apply functional_extensionality; intro a. apply functional_extensionality; intro b. unfold overlay, put_block. destruct (f a b); [reflexivity|].
          destruct (_ && _)%bool; reflexivity.
        * intros a b I. rewrite <- (P m a b I), <- (P m0 a b I). exact (S0 a b I).
  Qed.
  Lemma same_overlay req f m : outside req f -> same_in req m (overlay f m).
  Proof. intros O i j I. unfold overlay. destruct (f i j) eqn:E; [|reflexivity]. destruct (O _ _ _ E I). Qed.
  Lemma derive_overlay req st sd L norms l :
    (forall k i, In (k, i) l -> ~ In i req /\ forall same s0 g, py_nth (sd_same_index sd) k = Ok same -> py_nth same 0 = Ok s0 -> py_nth s0 i = Ok g -> In g req) ->
    forall m m', derive_loop st sd L norms l m = (m', None) ->
    exists f, outside req f /\ forall m0, same_in req m m0 -> derive_loop st sd L norms l m0 = (overlay f m0, None).
  Proof.
    induction l as [|[pg nr] rest IH]; intros HL m m' H; cbn [derive_loop] in *.
    - exists (fun _ _ => None). split; [intros ? ? ? X; discriminate X|reflexivity].
    - destruct (HL pg nr (or_introl eq_refl)) as [Nn SG].
      destruct (py_nth (sd_W sd) pg) as [W|]; cbn [bind] in *; [|discriminate]. cbv zeta in *.
      destruct (py_nth (sd_same_super sd) pg) as [per|]; cbn [bind] in *; [|discriminate].
      destruct (py_nth per nr) as [img|]; cbn [bind] in *; [|discriminate].
      destruct (f_dec _ _); [discriminate|].
      destruct (py_nth (sd_same_index sd) pg) as [same|]; cbn [bind] in *; [|discriminate].
      destruct (py_nth same 0) as [s0|] eqn:E0; cbn [bind] in *; [|discriminate].
      destruct (py_nth s0 nr) as [g|] eqn:Eg; cbn [bind] in *; [|discriminate].
      specialize (SG _ _ _ eq_refl E0 Eg).
      destruct (derive_rows st (cart_op L norms W) nr g 0 img m) as [m1|] eqn:ED; [|discriminate].
      destruct (derive_rows_overlay req _ _ _ _ SG Nn _ _ _ _ ED) as (f1 & O1 & H1).
      destruct (IH (fun k i I => HL k i (or_intror I)) _ _ H) as (f2 & O2 & H2).
      pose proof (H1 m (fun _ _ _ => eq_refl)) as X. rewrite ED in X. assert (m1 = overlay f1 m) by congruence. subst m1.
      exists (fun a b => match f2 a b with Some v => Some v | None => f1 a b end). split.
      + intros a b v Y. destruct (f2 a b) eqn:E; [exact (O2 _ _ _ E)|exact (O1 _ _ _ Y)].
      + intros m0 S0. rewrite (H1 m0 S0). rewrite H2.
        * f_equal. apply functional_extensionality; intro a. apply functional_extensionality; intro b. unfold overlay. destruct (f2 a b); [reflexivity|]. destruct (f1 a b); reflexivity.
        * intros a b I. rewrite <- (same_overlay req f1 m O1 a b I), <- (same_overlay req f1 m0 O1 a b I). exact (S0 a b I).
  Qed.
  (** The symmetric evaluation on its own result. *)
  Lemma sym_twice {file} (read : file -> result (list (v3 A))) n nsel st sd L norms d m files m' :
    (forall k i, In (k, i) (combine (sd_pgi sd) (sd_not_require sd)) -> ~ In i (sd_require sd) /\
       forall same s0 g, py_nth (sd_same_index sd) k = Ok same -> py_nth same 0 = Ok s0 -> py_nth s0 i = Ok g -> In g (sd_require sd)) ->
    set_force_constant_sym read n nsel st sd L norms d m files = (m', None) -> set_force_constant_sym read n nsel st sd L norms d m' files = (m', None).
  Proof.
    intros HL H. unfold set_force_constant_sym in *.
    destruct (require_loop read n nsel st sd d 0 (sd_require sd) m files) as [m1 [e|]] eqn:ER; [discriminate|].
    destruct (f_dec _ _); [discriminate|].
    destruct (require_overlay read n nsel st sd d (sd_require sd) _ _ _ _ ER) as (f & If & Hf).
    destruct (derive_overlay (sd_require sd) _ _ _ _ _ HL _ _ H) as (h & Oh & Hh).
    rewrite Hf in ER. assert (m1 = overlay f m) by congruence. subst m1. clear ER.
    pose proof (Hh _ (fun _ _ _ => eq_refl)) as X. rewrite H in X. assert (E : m' = overlay h (overlay f m)) by congruence. clear X H. rewrite Hf.
    assert (Y : overlay f m' = m').
    { subst m'. apply functional_extensionality; intro a. apply functional_extensionality; intro b. unfold overlay. destruct (f a b) eqn:E1; [|reflexivity].
      destruct (h a b) eqn:E2; [destruct (Oh _ _ _ E2 (If _ _ _ E1))|reflexivity]. }
    rewrite Y, E, Hh; [rewrite overlay_twice; reflexivity|]. apply same_overlay. exact Oh.
  Qed.
  (** For what the search finds nothing has to be assumed. *)
  Lemma postprocess_sym_twice {file} (read : file -> result (list (v3 A))) fuel norms hs pqr u s d m files m' :
    postprocess_sym read fuel norms hs pqr u s d m files = (m', None) -> postprocess_sym read fuel norms hs pqr u s d m' files = (m', None).
  Proof.
    unfold postprocess_sym. destruct (cell_symmetry fuel norms hs pqr u s) as [sd|] eqn:EC; cbn [bind]; [|discriminate].
    destruct (of_option EType (c_lat u)) as [L|]; cbn [bind]; [|discriminate]. destruct (of_option EType (c_true u)) as [tr|]; cbn [bind]; [|discriminate].
    destruct (of_option EType (c_true s)) as [ts|]; cbn [bind]; [|discriminate]. destruct (of_option EType (c_type s)) as [ty|]; cbn [bind]; [|discriminate].
    apply sym_twice. unfold cell_symmetry in EC.
    repeat match type of EC with (let! x := ?t in _) = _ => destruct t; cbn [bind] in EC; [|discriminate] end.
    unfold symmetry_search in EC. destruct pqr as [[p q] r]. destruct (search_point_group _ _ _ _) as [[ops g]|]; cbn [bind] in EC; [|discriminate].
    destruct (search_image_atom ops _) as [[[pgi req] nreq]|] eqn:EI; cbn [bind] in EC; [|discriminate].
    destruct (image_atoms_partition _ _ _ _ _ EI) as (Q1 & _ & Q3 & _).
    repeat match type of EC with (let! x := ?t in _) = _ => destruct t; cbn [bind] in EC; [|discriminate] end.
    injection EC as <-. cbn [sd_pgi sd_not_require sd_require sd_same_index]. intros k i Hki.
    destruct (Q3 k i Hki) as (o & mp & j & T1 & T2 & T3 & T4 & _). split.
    - intros K. assert (NDr : NoDup (req ++ nreq)) by (apply (Permutation_NoDup (Permutation_sym Q1)), seq_NoDup). assert (Hin : In i nreq) by (apply in_combine_r in Hki; exact Hki). clear - NDr K Hin. induction req as [|a req IH]; [destruct K|].
      cbn in NDr. inversion NDr; subst. destruct K as [->|K]; [apply H1, in_or_app; right; exact Hin|]. exact (IH K H2).
    - intros same s0 g0 H1 H2 H3. unfold first_map in T2. destruct (py_nth (op_maps o) 0) as [[w mp']|] eqn:EM; cbn [bind snd] in T2; [|discriminate]. injection T2 as ->.
      unfold py_nth in *. rewrite (map_nth_error _ _ _ T1) in H1. cbn [of_option] in H1. injection H1 as <-.
      rewrite nth_error_map in H2. destruct (nth_error (op_maps o) 0) as [wm|]; [|discriminate]. cbn in EM, H2. injection EM as ->. injection H2 as <-. cbn [snd] in H3.
      rewrite T3 in H3. cbn in H3. injection H3 as <-. exact T4.
  Qed.
End SymTwice.

Lemma set_user_arg_twice a0 d a : set_user_arg a0 d = Ok a -> set_user_arg a d = Ok a.
Proof.
  intro H. rewrite <- H. unfold set_user_arg, set_user_argument.
  replace (initialization a) with (initialization a0); [reflexivity|]. unfold initialization. reflexivity.
Qed.
Lemma super_ind_twice {A} (s u : cell A) ar s' : set_super_ind_true s u ar = Ok s' ->
  set_super_ind_true s' u ar = Ok s' /\ c_lat s' = c_lat s /\ c_type s' = c_type s /\ c_cart s' = c_cart s.
Proof.
  unfold set_super_ind_true. intro H. destruct (of_option EType (a_enl ar)) as [enl|]; cbn [bind] in *; [|discriminate].
  destruct (of_option EType (a_pbc ar)) as [pbc|]; cbn [bind] in *; [|discriminate].
  destruct (enlarge enl pbc) as [E|]; cbn [bind] in *; [|discriminate].
  destruct (of_option EType (c_true u)) as [tr|]; cbn [bind] in *; [|discriminate]. injection H as <-. cbn. auto.
Qed.

(** ---- sequences of steps ---- *)
Lemma andthen_ok {A B} (m : act A) (f : A -> act B) l b : andthen m f = (l, Ok b) ->
  exists l1 a l2, m = (l1, Ok a) /\ f a = (l2, Ok b) /\ l = l1 ++ l2.
Proof.
  destruct m as [l1 [a|e]]; cbn; [|discriminate]. destruct (f a) as [l2 r] eqn:E. intro H. injection H as <- ->. exists l1, a, l2. auto.
Qed.
Lemma andthen_assoc {A B C} (m : act A) (f : A -> act B) (g : B -> act C) : andthen (andthen m f) g = andthen m (fun a => andthen (f a) g).
Proof.
  destruct m as [l [a|e]]; cbn; [|reflexivity]. destruct (f a) as [l1 [b|e1]]; cbn; [|reflexivity]. destruct (g b) as [l2 r]. rewrite app_assoc. reflexivity.
Qed.
Lemma quiet_andthen {A B} (a : A) (f : A -> act B) : andthen (quiet (Ok a)) f = f a.
Proof. cbn. destruct (f a). reflexivity. Qed.
Lemma ret_andthen {A B} l (a : A) (f : A -> act B) l2 r : f a = (l2, r) -> andthen (l, Ok a) f = (l ++ l2, r).
Proof. cbn. intros ->. reflexivity. Qed.

Section Facts.
  Variable search : cell Qc -> cell Qc -> args -> result (option (string * list (nat * (v3 Qc * list (v3 Qc))))).
  Variable sym_forces : fmat Qc -> cell Qc -> cell Qc -> args -> (string -> result (list (v3 Qc))) -> list string -> fmat Qc * option err.
  Variable eig : nat -> cmat -> list C * cmat.
  Variable argsort : list R -> list nat.
  Variable junk : nat -> nat -> R.
  Variable bad : string.
  Variable set_text : list Z -> string.
  Variable row : v3 R -> string.
  Variable kname : v3 Qc -> string.
  Variable ase : path -> string -> result (list (v3 R)).

  (** The preparation of Run.v is a new process that is settled. *)
  Lemma post_run_settle (g : setting) :
    post_run search (sym_forces empty_mat) (g_cwd g) (g_args g) (g_sym g) (VStr (g_unit g)) (VStr (g_super g)) (g_forces g) (g_world g)
    = (let! x := new_process g in settle search sym_forces g x).
  Proof.
    unfold post_run, new_process, settle. cbn [path_text bind].
    destruct (read_structure _ _ (resolve (g_cwd g) (g_unit g))) as [u0|]; cbn [bind]; [|reflexivity].
    destruct (set_mass_true u0) as [u|]; cbn [bind]; [|reflexivity].
    destruct (read_structure _ _ (resolve (g_cwd g) (g_super g))) as [s0|]; cbn [bind pp_arg pp_unit pp_super pp_force]; reflexivity.
  Qed.

  (** The steps from the user arguments to the force constants, done again on their own result. *)
  Lemma settle_twice (g : setting) x0 x :
    (g_sym g = true -> forall m u s a rd m', sym_forces m u s a rd (g_forces g) = (m', None) -> sym_forces m' u s a rd (g_forces g) = (m', None)) ->
    settle search sym_forces g x0 = Ok x -> settle search sym_forces g x = Ok x.
  Proof.
    intros HS H. unfold settle in H.
    destruct (set_user_arg (pp_arg x0) (g_args g)) as [a|] eqn:EA; cbn [bind] in H; [|discriminate].
    destruct (check_match_argument (pp_unit x0) (pp_super x0) a) as [[]|] eqn:EM; cbn [bind] in H; [|discriminate].
    destruct (set_super_ind_true (pp_super x0) (pp_unit x0) a) as [s|] eqn:ES; cbn [bind] in H; [|discriminate].
    destruct (super_ind_twice _ _ _ _ ES) as (ES' & EL & ET & _).
    assert (EM' : check_match_argument (pp_unit x0) s a = Ok tt) by (rewrite <- EM; unfold check_match_argument; rewrite EL; reflexivity).
    destruct (of_option EType (c_type s)) as [ty|] eqn:ETY; cbn [bind] in H; [|discriminate].
    destruct (of_option EType (c_true (pp_unit x0))) as [tr|] eqn:ETR; cbn [bind] in H; [|discriminate].
    destruct (of_option EAttr (a_pbc a)) as [pbc|] eqn:EP; cbn [bind] in H; [|discriminate].
    assert (X : pp_unit x = pp_unit x0 /\ pp_super x = s /\ pp_arg x = a).
    { destruct (g_sym g).
      - destruct (search (pp_unit x0) s a) as [[[pg req]|]|]; cbn [bind] in H; try discriminate.
        destruct (check_file_order_sym _ _ _ _ _ _) as [[]|]; cbn [bind] in H; [|discriminate].
        destruct (if Nat.eqb (length (nonzero_indices pbc)) 2 then _ else _) as [fc [e|]]; [discriminate|]. injection H as <-. auto.
      - destruct (check_file_order_nosym _ _ _ _ _) as [[]|]; cbn [bind] in H; [|discriminate].
        destruct (of_option EType (a_disp a)) as [d|]; cbn [bind] in H; [|discriminate].
        destruct (set_force_constant_nosym _ _ _ _ _ _) as [fc [e|]]; [discriminate|]. injection H as <-. auto. }
    destruct X as (XU & XS & XA).
    unfold settle. rewrite XU, XS, XA. rewrite (set_user_arg_twice _ _ _ EA). cbn [bind]. rewrite EM'. cbn [bind]. rewrite ES'. cbn [bind].
    rewrite ETY. cbn [bind]. rewrite ETR. cbn [bind]. rewrite EP. cbn [bind].
    destruct (g_sym g).
    - destruct (search (pp_unit x0) s a) as [[[pg req]|]|]; cbn [bind] in *; try discriminate.
      destruct (check_file_order_sym _ _ _ _ _ _) as [[]|]; cbn [bind] in *; [|discriminate].
      destruct (Nat.eqb (length (nonzero_indices pbc)) 2).
      + destruct (sym_forces (pp_force x0) (pp_unit x0) s a _ (g_forces g)) as [fc [e|]] eqn:EF; [discriminate|]. injection H as <-. cbn [pp_force].
        rewrite (HS eq_refl _ _ _ _ _ _ EF). reflexivity.
      + destruct (a_disp a) as [d|]; [|discriminate].
        destruct (set_force_constant_nosym _ _ _ _ (pp_force x0) _) as [fc [e|]] eqn:EF; [discriminate|]. injection H as <-. cbn [pp_force].
        rewrite (nosym_twice _ _ _ _ _ _ _ EF). reflexivity.
    - destruct (check_file_order_nosym _ _ _ _ _) as [[]|]; cbn [bind] in *; [|discriminate].
      destruct (of_option EType (a_disp a)) as [d|]; cbn [bind] in *; [|discriminate].
      destruct (set_force_constant_nosym _ _ _ _ (pp_force x0) _) as [fc [e|]] eqn:EF; [discriminate|]. injection H as <-. cbn [pp_force].
      rewrite (nosym_twice _ _ _ _ _ _ _ EF). reflexivity.
  Qed.
End Facts.
