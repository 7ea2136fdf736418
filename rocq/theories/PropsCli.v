(** Property theorems: the command line program (C55, C63-C67).  Model: Cli.v. *)
From Coq Require Import String Ascii ZArith QArith Qcanon Bool Lia Arith List Permutation Sorted.
From Verif Require Import Base Dec Args ArgsFacts PropsArgs Field Cell Displace DisplaceFacts Text TextFacts TextRound Weight Cli.
Import ListNotations.
Local Open Scope list_scope.
Local Open Scope nat_scope.

(** * The option file (C63) *)

(** Specification of the assignments in a file: key (small letters) and text, in order. *)
Inductive entries : list string -> list (string * string) -> Prop :=
| entries_nil : entries [] []
| entries_skip : forall l ls kvs, option_line l = Ok None -> entries ls kvs -> entries (l :: ls) kvs
| entries_set : forall l ls kv kvs, option_line l = Ok (Some kv) -> entries ls kvs -> entries (l :: ls) (kv :: kvs).

(** What one line means: blanks around key and value are dropped, the key is read in small
    letters, everything from a '#' or a second '=' on is dropped. *)
Definition trimmed (s : string) : Prop := strip s = s.
Definition free_of (cs : list ascii) (s : string) : Prop := forall c, In c cs -> free c s = true.

Lemma split_on_free c s : free c s = true -> split_on c s = [s].
Proof.
  induction s as [|a s IH]; cbn; [reflexivity|]. intro H. apply andb_true_iff in H as [A B].
  destruct (Ascii.eqb a c); [discriminate|]. rewrite (IH B). reflexivity.
Qed.
Lemma split_on_app c s r : free c s = true -> split_on c (s ++ String c r) = s :: split_on c r.
Proof.
  induction s as [|a s IH]; cbn.
  - intros _. rewrite Ascii.eqb_refl. reflexivity.
  - intro H. apply andb_true_iff in H as [A B]. destruct (Ascii.eqb a c); [discriminate|]. rewrite (IH B). reflexivity.
Qed.
Lemma split_on_head c s : exists r, split_on c s = fst (split_at c s) :: r.
Proof.
  induction s as [|a s IH]; cbn; [exists []; reflexivity|].
  destruct (Ascii.eqb a c); [exists (split_on c s); reflexivity|].
  destruct IH as (r & ->). destruct (split_at c s) as [u v]. exists r. reflexivity.
Qed.

Lemma lstrip_ws w s : all_ws w = true -> lstrip (w ++ s) = lstrip s.
Proof. induction w as [|c w IH]; cbn; [reflexivity|]. intro H. apply andb_true_iff in H as [-> B]. auto. Qed.
Definition headed (s : string) : Prop := exists c r, s = String c r /\ is_ws c = false.
Lemma lstrip_headed s : headed s -> lstrip s = s.
Proof. intros (c & r & -> & H). cbn. now rewrite H. Qed.
Lemma headed_app s t : headed s -> headed (s ++ t).
Proof. intros (c & r & -> & H). exists c, (r ++ t)%string. auto. Qed.
Lemma lstrip_cases s : lstrip s = ""%string \/ headed (lstrip s).
Proof.
  induction s as [|c s IH]; cbn; [left; reflexivity|]. destruct (is_ws c) eqn:E; [exact IH|]. right. exists c, s. auto.
Qed.
Lemma strip_ws_l w s : all_ws w = true -> strip (w ++ s) = strip s.
Proof. intro H. unfold strip. now rewrite lstrip_ws. Qed.
Lemma strip_all_ws w : all_ws w = true -> strip w = ""%string.
Proof. intro H. unfold strip. rewrite <- (string_app_nil_r w), lstrip_ws by exact H. reflexivity. Qed.
Lemma rstrip_ws s w : all_ws w = true -> rev_string (lstrip (rev_string (s ++ w))) = rev_string (lstrip (rev_string s)).
Proof. intro H. rewrite rev_string_app, lstrip_ws; [reflexivity|]. now rewrite all_ws_rev. Qed.
Lemma lstrip_app s t : lstrip s <> ""%string -> lstrip (s ++ t) = (lstrip s ++ t)%string.
Proof.
  induction s as [|c s IH]; cbn; [congruence|]. destruct (is_ws c); [exact IH|reflexivity].
Qed.
Lemma lstrip_empty s : lstrip s = ""%string -> all_ws s = true.
Proof. induction s as [|c s IH]; cbn; [reflexivity|]. destruct (is_ws c); [exact IH|discriminate]. Qed.
Lemma strip_ws_r s w : all_ws w = true -> strip (s ++ w) = strip s.
Proof.
  intro H. destruct (string_dec (lstrip s) "") as [E|E].
  - pose proof (lstrip_empty _ E) as A. rewrite (strip_all_ws s A). apply strip_all_ws. now rewrite all_ws_app, A.
  - unfold strip. rewrite (lstrip_app s w E). now apply rstrip_ws.
Qed.
(** a trimmed non-empty text starts and ends with a non-blank *)
Lemma trimmed_headed s : trimmed s -> s <> ""%string -> headed s.
Proof.
  intros T N. unfold trimmed, strip in T. destruct (lstrip_cases s) as [E|E].
  - rewrite E in T. cbn in T. congruence.
  - destruct E as (c & r & E & W). rewrite E in T.
    destruct (lstrip_decomp' (rev_string (String c r))) as (w & D & A).
    assert (F : String c r = (s ++ rev_string w)%string).
    { rewrite <- (rev_string_involutive (String c r)) at 1. rewrite D, rev_string_app, T. reflexivity. }
    destruct s as [|x s]; [congruence|]. cbn in F. injection F as -> _. exists x, s. auto.
Qed.
Lemma trimmed_tail s : trimmed s -> lstrip (rev_string s) = rev_string s.
Proof.
  intro T. destruct (string_dec s "") as [->|N]; [reflexivity|].
  pose proof (trimmed_headed s T N) as H. unfold trimmed, strip in T. rewrite (lstrip_headed s H) in T.
  rewrite <- (rev_string_involutive (lstrip (rev_string s))). now rewrite T.
Qed.
Lemma strip_headed_tail s t : headed s -> trimmed t -> t <> ""%string -> strip (s ++ t) = (s ++ t)%string.
Proof.
  intros H T N. unfold strip. rewrite (lstrip_headed _ (headed_app s t H)), rev_string_app.
  pose proof (trimmed_tail t T) as E.
  assert (HR : headed (rev_string t)).
  { destruct (lstrip_cases (rev_string t)) as [A|A]; [|rewrite E in A; exact A].
    rewrite E in A. exfalso. apply N. rewrite <- (rev_string_involutive t), A. reflexivity. }
  rewrite (lstrip_headed _ (headed_app _ _ HR)), rev_string_app, !rev_string_involutive. reflexivity.
Qed.

(** C63: one line.  [rest] is empty or starts with '#'; [more] empty or starts with '='. *)
Theorem option_line_meaning : forall (w1 key w2 w3 value w4 more rest : string),
  all_ws w1 = true -> all_ws w2 = true -> all_ws w3 = true -> all_ws w4 = true ->
  trimmed key -> key <> ""%string -> free_of ["="; "#"]%char key ->
  trimmed value -> free_of ["="; "#"]%char value ->
  (more = ""%string \/ exists r, more = String "=" r /\ free "#"%char r = true) ->
  (rest = ""%string \/ exists r, rest = String "#" r) ->
  option_line (w1 ++ key ++ w2 ++ "=" ++ w3 ++ value ++ w4 ++ more ++ rest) = Ok (Some (lower key, value)).
Proof.
  intros w1 key w2 w3 value w4 more rest W1 W2 W3 W4 TK NK FK TV FV HM HR.
  assert (ws_free : forall c w, is_ws c = false -> all_ws w = true -> free c w = true).
  { clear. intros c w C. induction w as [|x w IH]; cbn; [reflexivity|]. intro H. apply andb_true_iff in H as [A B].
    unfold free in IH. rewrite (IH B). destruct (Ascii.eqb_spec x c) as [->|]; [congruence|reflexivity]. }
  assert (HK : headed key) by (apply trimmed_headed; assumption).
  set (core := (key ++ w2 ++ "=" ++ w3 ++ value ++ w4 ++ more)%string).
  assert (FC : free "#" core = true).
  { unfold core. rewrite !free_app. rewrite (FK "#"%char), (FV "#"%char) by (right; left; reflexivity).
    rewrite (ws_free "#"%char w2), (ws_free "#"%char w3), (ws_free "#"%char w4) by (reflexivity || assumption).
    destruct HM as [->|(r & -> & Fr)]; cbn; [reflexivity|]. exact Fr. }
  assert (EqL : (w1 ++ key ++ w2 ++ "=" ++ w3 ++ value ++ w4 ++ more ++ rest)%string = (w1 ++ core ++ rest)%string).
  { unfold core. rewrite <- !string_app_assoc. reflexivity. }
  rewrite EqL. clear EqL.
  (* the text before '#' is core up to trailing blanks *)
  assert (P : exists t, option_line (w1 ++ core ++ rest) = option_line (w1 ++ core ++ rest) /\ strip t = strip core /\ headed t
              /\ hd_error (split_on "#" (strip (w1 ++ core ++ rest))) = Some t).
  { rewrite strip_ws_l by exact W1. destruct HR as [->|(r & ->)].
    - exists (strip core). rewrite string_app_nil_r.
      assert (HC : headed core) by (unfold core; apply headed_app; exact HK).
      assert (D : exists w, core = (strip core ++ w)%string /\ all_ws w = true).
      { unfold strip. rewrite (lstrip_headed core HC). destruct (lstrip_decomp' (rev_string core)) as (w & D & A).
        exists (rev_string w). split; [|now rewrite all_ws_rev].
        rewrite <- rev_string_app, <- D, rev_string_involutive. reflexivity. }
      destruct D as (w & D & A).
      assert (NE : strip core <> ""%string).
      { intro Z. rewrite Z in D. cbn in D. destruct HC as (c & r & EC & WC). rewrite EC in D. subst w. cbn in A. rewrite WC in A. discriminate. }
      split; [reflexivity|]. split; [|split].
      + transitivity (strip (strip core ++ w)); [symmetry; apply strip_ws_r, A|now rewrite <- D].
      + destruct (strip core) as [|c r] eqn:ES; [congruence|]. rewrite D in HC. destruct HC as (c' & r' & EC & WC). cbn in EC. injection EC as -> _. exists c', r. auto.
      + rewrite split_on_free; [reflexivity|]. rewrite D, free_app in FC. now apply andb_true_iff in FC as [FC _].
    - exists core. split; [reflexivity|]. split; [reflexivity|].
      assert (HC : headed core) by (unfold core; apply headed_app; exact HK).
      split; [exact HC|].
      (* stripping on the right cannot remove the '#' *)
      assert (G : exists r', strip (core ++ String "#" r) = (core ++ String "#" r')%string).
      { unfold strip. rewrite (lstrip_headed _ (headed_app core _ HC)).
        change (String "#" r) with ("#" ++ r)%string. rewrite string_app_assoc, rev_string_app.
        destruct (lstrip_decomp' (rev_string r)) as (w & D & A). rewrite D, <- string_app_assoc, lstrip_ws by exact A.
        destruct (lstrip_cases (rev_string r)) as [E|E].
        - rewrite E. cbn [append]. rewrite rev_string_app. change (rev_string "#") with "#"%string.
          exists ""%string. rewrite lstrip_headed by (exists "#"%char, (rev_string core); split; reflexivity).
          rewrite rev_string_app, rev_string_involutive. reflexivity.
        - rewrite (lstrip_headed _ (headed_app _ _ E)), !rev_string_app, !rev_string_involutive.
          exists (rev_string (lstrip (rev_string r))). rewrite <- string_app_assoc. reflexivity. }
      destruct G as (r' & ->). rewrite split_on_app by exact FC. reflexivity. }
  destruct P as (t & _ & St & Ht & Et).
  unfold option_line. destruct (split_on "#" (strip (w1 ++ core ++ rest))) as [|t' l]; [discriminate|]. injection Et as ->.
  cbn [py_nth nth_error of_option bind]. destruct Ht as (c & r & -> & _). cbv beta iota. rewrite St.
  (* strip core *)
  assert (SP : exists t2, strip core = (key ++ w2 ++ String "=" t2)%string /\ strip (fst (split_at "=" t2)) = value /\ True).
  { assert (HS : headed (key ++ w2 ++ "=")%string) by (apply headed_app, HK).
    destruct HM as [->|(r2 & -> & _)].
    - destruct (string_dec value "") as [->|NV].
      + exists ""%string. split; [|split; [reflexivity|trivial]].
        unfold core. rewrite string_app_nil_r. cbn [append].
        transitivity (strip (((key ++ w2) ++ "=") ++ (w3 ++ w4))%string).
        { f_equal. rewrite <- !string_app_assoc. reflexivity. }
        rewrite strip_ws_r by (rewrite all_ws_app, W3, W4; reflexivity).
        rewrite strip_headed_tail; [now rewrite <- string_app_assoc|apply headed_app, HK|reflexivity|discriminate].
      + exists (w3 ++ value)%string. split; [|split; [|trivial]].
        * unfold core. rewrite string_app_nil_r.
          transitivity (strip (((key ++ w2 ++ "=" ++ w3) ++ value) ++ w4)%string).
          { f_equal. rewrite <- !string_app_assoc. reflexivity. }
          rewrite strip_ws_r by exact W4. rewrite strip_headed_tail; [|apply headed_app, HK|exact TV|exact NV].
          rewrite <- !string_app_assoc. reflexivity.
        * assert (F : free "=" (w3 ++ value) = true) by (rewrite free_app, (ws_free "="%char w3), (FV "="%char) by (reflexivity || assumption || (left; reflexivity)); reflexivity).
          destruct (split_on_head "=" (w3 ++ value)) as (q & Q). rewrite split_on_free in Q by exact F. injection Q as <- _.
          rewrite strip_ws_l by exact W3. exact TV.
    - (* something follows the second '=' *)
      set (r3 := rev_string (lstrip (rev_string r2))).
      exists (w3 ++ value ++ w4 ++ String "=" r3)%string. split; [|split; [|trivial]].
      + unfold core, strip. rewrite (lstrip_headed _ (headed_app _ _ HK)).
        transitivity (rev_string (lstrip (rev_string ((key ++ w2 ++ "=" ++ w3 ++ value ++ w4 ++ "=") ++ r2)))%string).
        { do 3 f_equal. rewrite <- !string_app_assoc. reflexivity. }
        rewrite rev_string_app. destruct (lstrip_decomp' (rev_string r2)) as (w & D & A).
        unfold r3. rewrite D at 1. rewrite <- string_app_assoc, lstrip_ws by exact A.
        set (pre := (key ++ w2 ++ "=" ++ w3 ++ value ++ w4 ++ "=")%string).
        assert (HP : headed (lstrip (rev_string r2) ++ rev_string pre)%string).
        { destruct (lstrip_cases (rev_string r2)) as [E|E]; [|apply headed_app, E].
          rewrite E. unfold pre. rewrite !rev_string_app. cbn. rewrite <- !string_app_assoc. eexists _, _. split; [cbn [append]; reflexivity|reflexivity]. }
        rewrite (lstrip_headed _ HP), rev_string_app, rev_string_involutive. unfold pre. rewrite <- !string_app_assoc. reflexivity.
      + assert (F : free "=" (w3 ++ value ++ w4) = true) by (rewrite !free_app, (ws_free "="%char w3), (ws_free "="%char w4), (FV "="%char) by (reflexivity || assumption || (left; reflexivity)); reflexivity).
        destruct (split_on_head "=" (w3 ++ value ++ w4 ++ String "=" r3)) as (q & Q).
        replace (w3 ++ value ++ w4 ++ String "=" r3)%string with ((w3 ++ value ++ w4) ++ String "=" r3)%string in Q |- * by (rewrite <- !string_app_assoc; reflexivity).
        rewrite split_on_app in Q by exact F. injection Q as <- _.
        rewrite strip_ws_l by exact W3. rewrite strip_ws_r by exact W4. exact TV. }
  destruct SP as (t2 & -> & V & _).
  assert (FK2 : free "=" (key ++ w2) = true) by (rewrite free_app, (FK "="%char), (ws_free "="%char w2) by (reflexivity || assumption || (left; reflexivity)); reflexivity).
  rewrite string_app_assoc, split_on_app by exact FK2. cbn [py_nth nth_error of_option bind].
  destruct (split_on_head "=" t2) as (q & ->). cbn [py_nth nth_error of_option bind].
  rewrite V. rewrite strip_ws_r by exact W2. rewrite TK. reflexivity.
Qed.
Print Assumptions option_line_meaning.

Example option_line_witness :
  option_line "  Enlarge =  4 4 1   # in plane" = Ok (Some ("enlarge", "4 4 1")%string)
  /\ option_line "# comment" = Ok None /\ option_line "   " = Ok None /\ option_line "enlarge 4 4 1" = Err EIndex.
Proof. repeat split; vm_compute; reflexivity. Qed.

(** C63: blank lines and comment lines are skipped; a line with text but no '=' before the
    '#' stops the program. *)
Theorem option_line_blank_or_comment : forall (w r : string),
  all_ws w = true -> option_line w = Ok None /\ option_line (w ++ String "#" r) = Ok None.
Proof.
  intros w r H. split; unfold option_line.
  - rewrite (strip_all_ws w H). reflexivity.
  - rewrite (strip_ws_l w _ H).
    assert (G : exists r', strip (String "#" r) = String "#" r').
    { unfold strip. change (lstrip (String "#" r)) with (String "#" r). rewrite rev_string_cons.
      destruct (lstrip_decomp' (rev_string r)) as (u & D & A). rewrite D, <- string_app_assoc, lstrip_ws by exact A.
      destruct (lstrip_cases (rev_string r)) as [E|E].
      - rewrite E. exists ""%string. reflexivity.
      - rewrite (lstrip_headed _ (headed_app _ _ E)), rev_string_app. eexists. reflexivity. }
    destruct G as (r' & ->). reflexivity.
Qed.
Print Assumptions option_line_blank_or_comment.

Lemma option_line_error l e : option_line l = Err e -> e = EIndex.
Proof.
  unfold option_line. destruct (split_on_head "#" (strip l)) as (r & ->). cbn [py_nth nth_error of_option bind].
  destruct (fst (split_at "#" (strip l))) as [|c s]; [discriminate|].
  destruct (split_on_head "=" (strip (String c s))) as (r' & ->). cbn [py_nth nth_error of_option bind].
  destruct r' as [|v r']; cbn; [intro H; congruence|discriminate].
Qed.
Lemma read_options_error lines : forall d e, read_options d lines = Err e -> e = EIndex.
Proof.
  induction lines as [|l ls IH]; intros d e; cbn; [discriminate|].
  destruct (option_line l) as [o|e'] eqn:E; cbn; [apply IH|]. intro H. injection H as <-. exact (option_line_error l e' E).
Qed.
Theorem option_line_without_assignment : forall (e : env) (ls1 ls2 : list string) (w text rest : string),
  all_ws w = true -> trimmed text -> text <> ""%string -> free_of ["="; "#"]%char text ->
  (rest = ""%string \/ exists r, rest = String "#" r) ->
  with_option_file e (Some (ls1 ++ (w ++ text ++ rest)%string :: ls2)) = Err EIndex.
Proof.
  intros e ls1 ls2 w text rest W T N F R.
  assert (L : option_line (w ++ text ++ rest) = Err EIndex).
  { unfold option_line. rewrite strip_ws_l by exact W.
    assert (HT : headed text) by (apply trimmed_headed; assumption).
    assert (G : hd_error (split_on "#" (strip (text ++ rest))) = Some text).
    { destruct R as [->|(r & ->)].
      - rewrite string_app_nil_r, T, split_on_free by (apply F; right; left; reflexivity). reflexivity.
      - assert (G : exists r', strip (text ++ String "#" r) = (text ++ String "#" r')%string).
        { unfold strip. rewrite (lstrip_headed _ (headed_app text _ HT)).
          change (String "#" r) with ("#" ++ r)%string. rewrite string_app_assoc, rev_string_app.
          destruct (lstrip_decomp' (rev_string r)) as (u & D & A). rewrite D, <- string_app_assoc, lstrip_ws by exact A.
          destruct (lstrip_cases (rev_string r)) as [E|E].
          - rewrite E. cbn [append]. rewrite rev_string_app. change (rev_string "#") with "#"%string.
            exists ""%string. rewrite lstrip_headed by (exists "#"%char, (rev_string text); split; reflexivity).
            rewrite rev_string_app, rev_string_involutive. reflexivity.
          - rewrite (lstrip_headed _ (headed_app _ _ E)), !rev_string_app, !rev_string_involutive.
            exists (rev_string (lstrip (rev_string r))). rewrite <- string_app_assoc. reflexivity. }
        destruct G as (r' & ->). rewrite split_on_app by (apply F; right; left; reflexivity). reflexivity. }
    destruct (split_on "#" (strip (text ++ rest))) as [|t l]; [discriminate|]. injection G as ->.
    cbn [py_nth nth_error of_option bind]. destruct HT as (c & r & -> & _). unfold trimmed in T. cbv beta iota. rewrite T, (split_on_free "=" (String c r)) by (apply F; left; reflexivity). reflexivity. }
  unfold with_option_file.
  assert (G : forall d, read_options d (ls1 ++ (w ++ text ++ rest)%string :: ls2) = Err EIndex).
  { induction ls1 as [|l ls IH]; intro d; cbn [app read_options].
    - rewrite L. reflexivity.
    - destruct (option_line l) as [o|e'] eqn:E; cbn [bind]; [apply IH|]. now rewrite (option_line_error l e' E). }
  rewrite G. reflexivity.
Qed.
Print Assumptions option_line_without_assignment.

(** ** the dictionary *)
Lemma entries_read ls : forall d kvs, entries ls kvs ->
  read_options d ls = Ok (fold_left (fun d kv => dict_set d (fst kv) (snd kv)) kvs d).
Proof.
  induction ls as [|l ls IH]; intros d kvs H; inversion H as [|? ? ? E H'|? ? [k v] ? E H']; subst; cbn [read_options fold_left]; [reflexivity| |].
  - rewrite E. cbn [bind]. exact (IH d kvs H').
  - rewrite E. cbn [bind]. exact (IH _ _ H').
Qed.
Lemma read_entries ls : forall d d', read_options d ls = Ok d' -> exists kvs, entries ls kvs.
Proof.
  induction ls as [|l ls IH]; intros d d'; cbn.
  - intros _. exists []. constructor.
  - destruct (option_line l) as [[[k v]|]|e] eqn:E; cbn; [| |discriminate]; intro H; destruct (IH _ _ H) as (kvs & K); eexists; econstructor; eassumption.
Qed.

(** last text given for a key *)
Fixpoint last_text (k : string) (kvs : list (string * string)) : option string :=
  match kvs with
  | [] => None
  | (k', v) :: r => match last_text k r with Some v' => Some v' | None => if String.eqb k' k then Some v else None end
  end.
Lemma last_text_app k a b : last_text k (a ++ b) = match last_text k b with Some v => Some v | None => last_text k a end.
Proof.
  induction a as [|[k' v] a IH]; cbn; [now destruct (last_text k b)|]. rewrite IH. destruct (last_text k b); [reflexivity|]. reflexivity.
Qed.
Lemma last_text_in k kvs : In k (map fst kvs) <-> last_text k kvs <> None.
Proof.
  induction kvs as [|[k' v] r IH]; cbn; [tauto|].
  destruct (last_text k r) eqn:E.
  - split; [discriminate|]. intros _. right. apply IH. discriminate.
  - destruct (String.eqb_spec k' k) as [->|N]; [split; [discriminate|auto]|]. rewrite IH. split; [intros [?|?]; [congruence|assumption]|auto].
Qed.

(** keys in the order of their first appearance *)
Fixpoint add_key (ks : list string) (k : string) : list string :=
  match ks with [] => [k] | k' :: r => if String.eqb k' k then k :: r else k' :: add_key r k end.
Lemma dict_set_keys d k v : map fst (dict_set d k v) = add_key (map fst d) k.
Proof. induction d as [|[k' v'] d IH]; cbn; [reflexivity|]. destruct (String.eqb k' k); cbn; [reflexivity|now rewrite IH]. Qed.
Lemma add_key_in ks k : In k ks -> add_key ks k = ks.
Proof.
  induction ks as [|k' r IH]; cbn; [tauto|]. destruct (String.eqb_spec k' k) as [->|N]; [reflexivity|].
  intros [?|H]; [congruence|]. now rewrite IH.
Qed.
Lemma add_key_new ks k : ~ In k ks -> add_key ks k = ks ++ [k].
Proof.
  induction ks as [|k' r IH]; cbn; [reflexivity|]. intro H. destruct (String.eqb_spec k' k) as [->|N]; [exfalso; auto|].
  rewrite IH by auto. reflexivity.
Qed.
Definition dict_of (kvs : list (string * string)) : list (string * string) := fold_left (fun d kv => dict_set d (fst kv) (snd kv)) kvs [].
Lemma dict_of_snoc kvs k v : dict_of (kvs ++ [(k, v)]) = dict_set (dict_of kvs) k v.
Proof. unfold dict_of. rewrite fold_left_app. reflexivity. Qed.
Lemma dict_set_in d k v x : NoDup (map fst d) -> (In x (dict_set d k v) <-> x = (k, v) \/ In x d /\ fst x <> k).
Proof.
  induction d as [|[k' v'] d IH]; cbn; intro ND; [intuition|].
  inversion ND as [|? ? N1 N2]; subst. destruct (String.eqb_spec k' k) as [->|N]; cbn.
  - split; intros H.
    + destruct H as [<-|H]; [left; reflexivity|]. right. split; [right; exact H|]. intro E. apply N1. rewrite <- E. apply in_map, H.
    + destruct H as [->|[[<-|H] H2]]; [left; reflexivity|cbn in H2; congruence|right; exact H].
  - rewrite (IH N2). split; intros H.
    + destruct H as [<-|[->|[H H2]]]; [right; split; [left; reflexivity|exact N]|left; reflexivity|right; split; [right; exact H|exact H2]].
    + destruct H as [->|[[<-|H] H2]]; [right; left; reflexivity|left; reflexivity|right; right; auto].
Qed.
Lemma dict_of_nodup kvs : NoDup (map fst (dict_of kvs)).
Proof.
  induction kvs as [|[k v] kvs IH] using rev_ind; [constructor|].
  rewrite dict_of_snoc, dict_set_keys. destruct (in_dec string_dec k (map fst (dict_of kvs))) as [H|H].
  - now rewrite add_key_in.
  - rewrite add_key_new by exact H. apply Permutation_NoDup with (k :: map fst (dict_of kvs)); [apply Permutation_cons_append|]. now constructor.
Qed.
Lemma dict_of_in kvs k v : In (k, v) (dict_of kvs) <-> last_text k kvs = Some v.
Proof.
  revert k v. induction kvs as [|[k0 v0] kvs IH] using rev_ind; intros k v; [cbn; split; [tauto|discriminate]|].
  rewrite dict_of_snoc, (dict_set_in _ _ _ _ (dict_of_nodup kvs)), last_text_app. cbn.
  destruct (String.eqb_spec k0 k) as [->|N].
  - split; [intros [H|[_ H]]; [injection H as ->; reflexivity|cbn in H; congruence]|intro H; injection H as ->; left; reflexivity].
  - rewrite IH. split; [intros [H|[H _]]; [congruence|exact H]|intro H; right; split; [exact H|cbn; congruence]].
Qed.
Lemma dict_of_keys_in kvs k : In k (map fst (dict_of kvs)) <-> In k (map fst kvs).
Proof.
  rewrite (last_text_in k kvs), in_map_iff. split.
  - intros ([k' v] & <- & H). apply dict_of_in in H. cbn. rewrite H. discriminate.
  - intro H. destruct (last_text k kvs) as [v|] eqn:E; [|congruence]. exists (k, v). split; [reflexivity|now apply dict_of_in].
Qed.
(** the keys first seen in a prefix come first *)
Lemma dict_of_prefix a b : exists t, map fst (dict_of (a ++ b)) = map fst (dict_of a) ++ t.
Proof.
  induction b as [|[k v] b IH] using rev_ind; [exists []; now rewrite !app_nil_r|].
  destruct IH as (t & E). rewrite app_assoc, dict_of_snoc, dict_set_keys, E.
  destruct (in_dec string_dec k (map fst (dict_of a) ++ t)) as [H|H].
  - exists t. now rewrite add_key_in.
  - exists (t ++ [k]). rewrite add_key_new by exact H. now rewrite app_assoc.
Qed.

(** ** the variables *)
Lemma find_option_table : forall k x c, find_option k option_table = Some (x, c) <-> exists ks, In (ks, x, c) option_table /\ In k ks.
Proof.
  assert (ND : NoDup (concat (map (fun r => fst (fst r)) option_table))).
  { assert (K : forall l, (fix chk (l : list string) := match l with [] => true | k :: r => negb (mem_string k r) && chk r end)%bool l = true -> NoDup l).
    { induction l as [|k l IH]; intro H; [constructor|]. apply andb_true_iff in H as [H1 H2]. constructor; [|exact (IH H2)].
      intro I1. unfold mem_string in H1. rewrite negb_true_iff in H1. enough (existsb (String.eqb k) l = true) by congruence.
      apply existsb_exists. exists k. split; [exact I1|apply String.eqb_refl]. }
    apply K. vm_compute. reflexivity. }
  intros k x c. revert ND. generalize option_table as t.
  assert (M : forall k ks, mem_string k ks = true <-> In k ks).
  { intros k' ks. unfold mem_string. rewrite existsb_exists. split; [intros (y & I1 & E); apply String.eqb_eq in E; now subst|intro I1; exists k'; split; [exact I1|apply String.eqb_refl]]. }
  induction t as [|[[ks0 x0] c0] t IH]; cbn; intro ND; [split; [discriminate|intros (ks & [] & _)]|].
  assert (ND2 : NoDup (concat (map (fun r => fst (fst r)) t))) by (clear - ND; induction ks0 as [|k ks IH]; cbn in ND; [exact ND|inversion ND; auto]).
  destruct (mem_string k ks0) eqn:E.
  - apply M in E. split.
    + intro H. injection H as -> ->. exists ks0. auto.
    + intros (ks & [H|H] & I1); [now injection H as -> -> ->|]. exfalso.
      assert (I2 : In k (concat (map (fun r => fst (fst r)) t))) by (apply in_concat; exists ks; split; [apply in_map_iff; exists (ks, x, c); auto|exact I1]).
      clear - ND E I2. induction ks0 as [|k0 ks IH]; [destruct E|]. cbn in ND. inversion ND as [|? ? A B]; subst.
      destruct E as [->|E]; [|auto]. apply A. apply in_or_app. right. exact I2.
  - rewrite (IH ND2). split.
    + intros (ks & H & I1). exists ks. auto.
    + intros (ks & [H|H] & I1); [injection H as -> -> ->; apply M in I1; congruence|exists ks; auto].
Qed.

Lemma apply_options_app e a b : apply_options e (a ++ b) = (let! e' := apply_options e a in apply_options e' b).
Proof.
  revert e. induction a as [|kv a IH]; intro e; cbn; [reflexivity|].
  destruct (apply_option e kv) as [e'|]; cbn; [apply IH|reflexivity].
Qed.
Lemma apply_options_other x : forall d e e', apply_options e d = Ok e' ->
  (forall k c, In k (map fst d) -> find_option k option_table <> Some (x, c)) -> e' x = e x.
Proof.
  induction d as [|[k v] d IH]; intros e e' H N; cbn [apply_options] in H; [now injection H as <-|].
  apply bind_ok in H as (e1 & H1 & H2). rewrite (IH e1 e' H2) by (intros k' c I1; apply N; right; exact I1).
  unfold apply_option in H1. cbn [fst snd] in H1. specialize (fun c => N k c (or_introl eq_refl)).
  destruct (find_option k option_table) as [[x' c']|] eqn:F; [|now injection H1 as <-].
  apply bind_ok in H1 as (w & H1 & H3). injection H3 as <-. unfold upd. destruct (String.eqb_spec x x') as [->|]; [|reflexivity].
  exfalso. exact (N c' eq_refl).
Qed.

(** C63: the program goes on iff every line is an assignment, blank or a comment and the last
    text of every known key converts; then each variable none of whose spellings occurs keeps its
    command line value, and otherwise it gets the text of the spelling that was the last to
    appear for the first time: the last text given for that spelling. *)
Theorem option_file_values : forall (e e' : env) (lines : list string) (kvs : list (string * string)),
  entries lines kvs -> with_option_file e (Some lines) = Ok e' ->
  (forall x, (forall ks c k, In (ks, x, c) option_table -> In k ks -> ~ In k (map fst kvs)) -> e' x = e x) /\
  (forall ks x c k before v0 after, In (ks, x, c) option_table -> In k ks ->
     kvs = before ++ (k, v0) :: after -> ~ In k (map fst before) ->
     (forall k', In k' ks -> In k' (map fst kvs) -> k' = k \/ In k' (map fst before)) ->
     exists v, last_text k kvs = Some v /\ convert c v = Ok (e' x)).
Proof.
  intros e e' lines kvs EN W. unfold with_option_file in W. rewrite (entries_read lines [] kvs EN) in W. cbn [bind] in W. fold (dict_of kvs) in W.
  split.
  - intros x N. apply apply_options_other with (1 := W). intros k c I1 F. apply find_option_table in F as (ks & A & B).
    apply (N ks c k A B). now apply dict_of_keys_in.
  - intros ks x c k before v0 after IT IK EQ NB OTH.
    assert (F : find_option k option_table = Some (x, c)) by (apply find_option_table; exists ks; auto).
    (* position of k in the dictionary *)
    assert (P : exists d1 v d2, dict_of kvs = d1 ++ (k, v) :: d2 /\ map fst d1 = map fst (dict_of before)).
    { destruct (dict_of_prefix (before ++ [(k, v0)]) after) as (t & E).
      rewrite <- app_assoc in E. cbn [app] in E. rewrite <- EQ in E. rewrite dict_of_snoc, dict_set_keys, add_key_new in E by (now rewrite dict_of_keys_in).
      rewrite <- app_assoc in E. cbn [app] in E. revert E. generalize (dict_of kvs) as d, (map fst (dict_of before)) as ks1. clear.
      induction d as [|[k1 v1] d IH]; intros [|k2 ks1] E; cbn in E; try discriminate.
      - injection E as -> E. exists [], v1, d. auto.
      - injection E as -> E. destruct (IH ks1 E) as (d1 & v & d2 & -> & H). exists ((k2, v1) :: d1), v, d2. split; [reflexivity|]. cbn. now rewrite H. }
    destruct P as (d1 & v & d2 & ED & E1). exists v. split; [apply dict_of_in; rewrite ED; apply in_or_app; right; left; reflexivity|].
    rewrite ED, apply_options_app in W. apply bind_ok in W as (e1 & W1 & W2). cbn [apply_options] in W2. apply bind_ok in W2 as (e2 & W2 & W3).
    unfold apply_option in W2. cbn [fst snd] in W2. rewrite F in W2. apply bind_ok in W2 as (w & W2 & W4). injection W4 as <-.
    rewrite (apply_options_other x d2 _ e' W3).
    + unfold upd. rewrite String.eqb_refl. exact W2.
    + intros k' c' I1 F'. apply find_option_table in F' as (ks' & A & B).
      assert (ks' = ks).
      { (* the variable determines the row *)
        clear - IT A. revert IT A.
        assert (K : forallb (fun r => forallb (fun r' => implb (String.eqb (snd (fst r)) (snd (fst r'))) (if list_eq_dec string_dec (fst (fst r)) (fst (fst r')) then true else false)) option_table) option_table = true) by (vm_compute; reflexivity).
        intros I1 I2. rewrite forallb_forall in K. specialize (K _ I1). rewrite forallb_forall in K. specialize (K _ I2). cbn [fst snd] in K.
        rewrite String.eqb_refl in K. cbn in K. destruct (list_eq_dec string_dec ks ks'); [congruence|discriminate]. }
      subst ks'.
      pose proof (dict_of_nodup kvs) as ND. rewrite ED, map_app in ND. cbn [map fst] in ND.
      assert (IN : In k' (map fst kvs)) by (apply dict_of_keys_in; rewrite ED, map_app; apply in_or_app; right; right; exact I1).
      destruct (OTH k' B IN) as [->|IB].
      * apply NoDup_remove_2 in ND. apply ND. apply in_or_app. right. exact I1.
      * rewrite <- dict_of_keys_in, <- E1 in IB.
        clear - ND I1 IB. induction (map fst d1) as [|a l IH]; [destruct IB|]. cbn in ND. inversion ND as [|? ? A B]; subst.
        destruct IB as [->|IB]; [|auto]. apply A. apply in_or_app. right. right. exact I1.
Qed.
Print Assumptions option_file_values.

(** C63: when it fails, and how. *)
Theorem option_file_accepted : forall (e : env) (lines : list string) (kvs : list (string * string)),
  entries lines kvs ->
  ((exists e', with_option_file e (Some lines) = Ok e') <->
   forall ks x c k v, In (ks, x, c) option_table -> In k ks -> last_text k kvs = Some v -> exists w, convert c v = Ok w).
Proof.
  intros e lines kvs EN. unfold with_option_file. rewrite (entries_read lines [] kvs EN). cbn [bind]. fold (dict_of kvs).
  assert (G : forall d e, (exists e', apply_options e d = Ok e') <-> forall k v x c, In (k, v) d -> find_option k option_table = Some (x, c) -> exists w, convert c v = Ok w).
  { induction d as [|[k v] d IH]; intro e0; cbn [apply_options].
    - split; [intros _ k v x c []|intros _; exists e0; reflexivity].
    - split.
      + intros (e' & H). apply bind_ok in H as (e1 & H1 & H2). intros k' v' x c [E|I1] F.
        * injection E as <- <-. unfold apply_option in H1. cbn [fst snd] in H1. rewrite F in H1. apply bind_ok in H1 as (w & H1 & _). exists w. exact H1.
        * exact (proj1 (IH e1) (ex_intro _ e' H2) k' v' x c I1 F).
      + intro H. unfold apply_option. cbn [fst snd]. destruct (find_option k option_table) as [[x c]|] eqn:F.
        * destruct (H k v x c (or_introl eq_refl) F) as (w & ->). cbn [bind]. apply IH. intros k' v' x' c' I1. apply H. right. exact I1.
        * cbn [bind]. apply IH. intros k' v' x' c' I1. apply H. right. exact I1. }
  rewrite G. split.
  - intros H ks x c k v IT IK L. apply (H k v x c); [now apply dict_of_in|]. apply find_option_table. exists ks. auto.
  - intros H k v x c I1 F. apply find_option_table in F as (ks & A & B). apply dict_of_in in I1. exact (H ks x c k v A B I1).
Qed.
Print Assumptions option_file_accepted.

(** C63: the on/off switches of the command line cannot be set in the file. *)
Theorem option_file_keeps_switches : forall (e e' : env) (lines : list string) (x : string),
  with_option_file e (Some lines) = Ok e' ->
  In x ["process"; "sym"; "dos"; "thermal"; "band"; "mode"; "disp_mode"]%string -> e' x = e x.
Proof.
  intros e e' lines x W I1. assert (H := W). unfold with_option_file in H. apply bind_ok in H as (d & H & _).
  destruct (read_entries lines [] d H) as (kvs & EN). apply (proj1 (option_file_values e e' lines kvs EN W)).
  intros ks c k IT _ _.
  assert (K : forallb (fun r => negb (mem_string (snd (fst r)) ["process"; "sym"; "dos"; "thermal"; "band"; "mode"; "disp_mode"]%string)) option_table = true) by (vm_compute; reflexivity).
  rewrite forallb_forall in K. specialize (K _ IT). cbn [fst snd] in K. rewrite negb_true_iff in K.
  enough (mem_string x ["process"; "sym"; "dos"; "thermal"; "band"; "mode"; "disp_mode"]%string = true) by congruence.
  apply existsb_exists. exists x. split; [exact I1|apply String.eqb_refl].
Qed.
Print Assumptions option_file_keeps_switches.

(** C63: two spellings of one option: it is not the last line that counts. *)
Theorem option_file_last_line_wins_refuted :
  exists e', with_option_file default_env (Some ["disp = 0.01"; "displacement = 0.02"; "disp = 0.03"]%string) = Ok e' /\
    e' "displacement"%string = VStr "0.02".
Proof.
  exists (upd (upd default_env "displacement" (VStr "0.03")) "displacement" (VStr "0.02")).
  split; vm_compute; reflexivity.
Qed.
Print Assumptions option_file_last_line_wins_refuted.

Example option_file_witness :
  match with_option_file default_env (Some ["# InterPhon"; ""; "Enlargement = 4 4 1 # comment"; "sigma = 0.05"; "ENLARGEMENT = 3 3 1"; "whatever = 3"]%string) with
  | Ok e => e "enlargement"%string = VStr "3 3 1" /\ e "sigma"%string = VFloat (Q2Qc (1 # 20)) /\ e "periodicity"%string = VStr "1 1 0"
  | Err _ => False
  end.
Proof. vm_compute. split; [reflexivity|]. split; [|reflexivity]. f_equal. apply Qc_is_canon. reflexivity. Qed.

(** * The pre-process record (C55, C64, C65) *)

Lemma put_other x b v e z : z <> x -> put x b v e z = e z.
Proof. intro N. unfold put, upd. destruct b; [|reflexivity]. destruct (String.eqb_spec z x); [congruence|reflexivity]. Qed.
Lemma put_same x b v e : put x b v e x = if b then v else e x.
Proof. unfold put, upd. destruct b; [|reflexivity]. now rewrite String.eqb_refl. Qed.

(** C55: the five values are taken from the record exactly where the command line (or option
    file) value equals the default, even when the user typed it; other variables are untouched. *)
Theorem record_precedence : forall (e : env) (r : record) (x : string),
  let e' := merge_record e r in
  let pick (default : pyval) (recorded : pyval) (merged : pyval) (given : pyval) :=
    (given = default -> merged = recorded) /\ (given <> default -> merged = given) in
  pick (VStr "POSCAR") (VStr (r_unit r)) (e' "unitcell"%string) (e "unitcell"%string) /\
  pick VNone (VStr (r_super r)) (e' "supercell"%string) (e "supercell"%string) /\
  pick (VStr "vasp") (r_dft r) (e' "dft"%string) (e "dft"%string) /\
  pick (VStr "0.02") (r_disp r) (e' "displacement"%string) (e "displacement"%string) /\
  pick (VStr "2 2 1") (VStr (r_enl r)) (e' "enlargement"%string) (e "enlargement"%string) /\
  pick (VStr "1 1 0") (VStr (r_pbc r)) (e' "periodicity"%string) (e "periodicity"%string) /\
  (~ In x ["unitcell"; "supercell"; "dft"; "sym"; "displacement"; "enlargement"; "periodicity"]%string -> e' x = e x).
Proof.
  intros e r x.
  assert (S1 : forall v s, is_str v s = true <-> v = VStr s).
  { intros [|t| | |] s; cbn; try (split; discriminate). rewrite String.eqb_eq. split; [now intros ->|now injection 1]. }
  assert (S2 : forall v, is_none v = true <-> v = VNone) by (intros [| | | |]; cbn; split; congruence).
  assert (PS : forall v s a, (v = VStr s -> (if is_str v s then a else v) = a) /\ (v <> VStr s -> (if is_str v s then a else v) = v)).
  { intros v s a. split; intro H; [apply S1 in H; now rewrite H|]. destruct (is_str v s) eqn:E; [apply S1 in E; congruence|reflexivity]. }
  assert (PN : forall v a, (v = VNone -> (if is_none v then a else v) = a) /\ (v <> VNone -> (if is_none v then a else v) = v)).
  { intros v a. split; intro H; [apply S2 in H; now rewrite H|]. destruct (is_none v) eqn:E; [apply S2 in E; congruence|reflexivity]. }
  intros e' pick. unfold e', pick, merge_record. clear e' pick.
  assert (SY : forall e z, z <> "sym"%string -> merge_sym r e z = e z).
  { intros e0 z N. unfold merge_sym. destruct (truthy _), (r_pg r); cbn; unfold upd; try reflexivity; destruct (String.eqb_spec z "sym"); congruence. }
  refine (conj _ (conj _ (conj _ (conj _ (conj _ (conj _ _)))))).
  1-6: repeat (rewrite put_same || (rewrite put_other by discriminate) || (rewrite SY by discriminate)).
  1: exact (PS _ _ _). 1: exact (PN _ _). 1-4: exact (PS _ _ _).
  intro N. cbn in N.
  rewrite !put_other by (intro; subst; tauto). rewrite SY by (intro; subst; tauto). now rewrite !put_other by (intro; subst; tauto).
Qed.
Print Assumptions record_precedence.

Example record_precedence_witness :
  let r := mkRecord "POSCAR_1x1" "SUPERCELL" (VStr "vasp") None (VFloat (Q2Qc (1#100))) "4 4 1" "1 1 0" in
  (* typing the default "-enlarge '2 2 1'" does not override the record; "3 3 1" does *)
  merge_record default_env r "enlargement"%string = VStr "4 4 1" /\
  merge_record (upd default_env "enlargement" (VStr "3 3 1")) r "enlargement"%string = VStr "3 3 1".
Proof. split; vm_compute; reflexivity. Qed.

(** C64: whether the post-process symmetrises is decided by the record alone; the command
    line switch has no effect. *)
Theorem symmetry_follows_the_record : forall (glob : string -> list string) (e : env) (file : option (list string)) forces r a sym u s ff d t b m,
  main_plan glob e file forces (Ok r) = Ok (PostPlan a sym u s ff d t b m) -> (sym = true <-> r_pg r <> None).
Proof.
  intros glob e file forces r a sym u s ff d t b m H. unfold main_plan in H. apply bind_ok in H as (e1 & _ & H).
  destruct (match forces with [] => truthy (e1 "process"%string) | _ => false end); [discriminate|].
  cbn [bind] in H. unfold post_plan in H.
  destruct (is_none (merge_record e1 r "kpoint_dos"%string) && is_none (merge_record e1 r "kpoint_band"%string))%bool; [discriminate|].
  apply bind_ok in H as (? & _ & H). apply bind_ok in H as (? & _ & H). apply bind_ok in H as (? & _ & H).
  apply bind_ok in H as (? & _ & H). apply bind_ok in H as (? & _ & H).
  assert (E : truthy (merge_record e1 r "sym"%string) = sym) by congruence. clear H.
  rewrite <- E. unfold merge_record. rewrite !put_other by discriminate.
  unfold merge_sym. rewrite !put_other by discriminate. destruct (truthy (e1 "sym"%string)) eqn:T, (r_pg r); cbn; unfold upd; cbn;
    rewrite ?put_other by discriminate; rewrite ?T; split; congruence.
Qed.
Print Assumptions symmetry_follows_the_record.

(** ** C65: the record gives back the arguments of the pre-process *)
Lemma z_string_word_all z : word (z_string z).
Proof.
  destruct (Z.ltb_spec z 0) as [N|N]; [|now apply z_string_word].
  unfold z_string. rewrite (proj2 (Z.ltb_lt z 0) N).
  destruct (nat_digits_spec (- z)%Z ltac:(lia)) as (D & _ & NE). split; [discriminate|]. unfold no_ws. cbn [all_char].
  rewrite all_char_digits in D. apply andb_true_iff. split; [reflexivity|].
  eapply all_char_impl; [|exact D]. intros c Hc. cbn. now rewrite digit_not_ws.
Qed.
Lemma z_string_parse_all z : parse_int (z_string z) = Some z.
Proof.
  destruct (Z.ltb_spec z 0) as [N|N]; [|now apply z_string_parse].
  unfold parse_int. rewrite strip_no_ws by (apply z_string_word_all).
  unfold z_string. rewrite (proj2 (Z.ltb_lt z 0) N).
  destruct (nat_digits_spec (- z)%Z ltac:(lia)) as (D & V & NE). cbv beta iota. rewrite D, V.
  destruct (nat_digits (- z)); [congruence|]. cbn. f_equal. lia.
Qed.
Lemma split_ws_concat1 l : Forall word l -> split_ws (String.concat " " l) = l.
Proof.
  induction l as [|a l IH]; intros H; [reflexivity|].
  inversion H as [|? ? Ha Hl]; subst. destruct l as [|b l]; [cbn; now apply split_ws_word|].
  change (String.concat " " (a :: b :: l)) with (a ++ String " " (String.concat " " (b :: l)))%string.
  rewrite split_ws_word_app by (auto; reflexivity). now rewrite IH.
Qed.
Lemma join_ints_split l : split_ws (join_ints l) = map z_string l.
Proof. unfold join_ints. apply split_ws_concat1. apply Forall_map, Forall_forall. intros z _. apply z_string_word_all. Qed.
Lemma join_ints_numpy l : to_int_numpy (VStr (join_ints l)) = Ok l.
Proof.
  cbn. rewrite split_ws_strip, join_ints_split. apply mapM_ok_Forall2. induction l as [|z l IH]; cbn; constructor; [now rewrite z_string_parse_all|exact IH].
Qed.

(** The value of an option in the second run: the one of the first run, or left at its default. *)
Definition repeated (e1 e2 : env) (x : string) (default : string) : Prop := e2 x = e1 x \/ e2 x = VStr default.

Theorem record_restores_arguments : forall (e1 e2 : env) (a a0 : args) (unit : string) (pg : option string) (r : record) (d : Qc),
  set_user_arg a0 (user_args e1) = Ok a -> a_disp a = Some d ->
  make_record unit (e1 "dft"%string) pg a = Ok r ->
  repeated e1 e2 "displacement"%string "0.02" -> repeated e1 e2 "enlargement"%string "2 2 1" -> repeated e1 e2 "periodicity"%string "1 1 0" ->
  set_user_arg a0 (user_args (merge_record e2 r)) = Ok a.
Proof.
  intros e1 e2 a a0 unit pg r d S AD MR RD RE RP.
  destruct (record_precedence e2 r ""%string) as (_ & _ & _ & P1 & P2 & P3 & _).
  pose proof (accepted_arguments_well_formed a0 _ a S) as (n1 & n2 & n3 & p1 & p2 & p3 & EA & PA & P01 & PE).
  unfold make_record in MR. rewrite EA, PA, AD in MR. cbn [of_option bind] in MR. injection MR as <-. cbn [r_disp r_enl r_pbc] in *.
  (* the first call *)
  unfold set_user_arg, set_user_argument, initialization, user_args in S |- *.
  cbn [set_entries] in S |- *. unfold set_entry in S |- *.
  change (contains "displacement" "dft_code") with false in *. change (contains "enlargement" "dft_code") with false in *.
  change (contains "periodicity" "dft_code") with false in *. change (contains "displacement" "displacement") with true in *.
  change (contains "displacement" "enlargement") with false in *. change (contains "enlargement" "enlargement") with true in *.
  change (contains "displacement" "periodicity") with false in *. change (contains "enlargement" "periodicity") with false in *.
  change (contains "periodicity" "periodicity") with true in *. cbv iota in *. cbn [bind] in *.
  apply bind_ok in S as (b & S & C). apply bind_ok in C as ([] & C & C2). injection C2 as ->.
  apply bind_ok in S as (b1 & S1 & S). apply bind_ok in S as (b2 & S2 & S). apply bind_ok in S as (b3 & S3 & S). injection S as ->.
  (* the values of the second call are equivalent *)
  assert (two : forall given first merged rec : pyval, forall default : string,
            (given = VStr default -> merged = rec) /\ (given <> VStr default -> merged = given) ->
            given = first \/ given = VStr default -> merged = rec \/ merged = first).
  { intros given first merged rec default [A B] R. destruct (is_str given default) eqn:I1.
    - left. apply A. destruct given; try discriminate. apply String.eqb_eq in I1. now subst.
    - right. assert (N : given <> VStr default) by (intros ->; cbn in I1; rewrite String.eqb_refl in I1; discriminate).
      rewrite (B N). destruct R; [assumption|contradiction]. }
  assert (D : set_displacement args_init (merge_record e2 (mkRecord unit "SUPERCELL" (e1 "dft"%string) pg (VFloat d) (join_ints [n1; n2; n3]) (join_ints [p1; p2; p3])) "displacement"%string) = Ok (mkArgs (Some d) None None)).
  { assert (S1' : set_displacement args_init (e1 "displacement"%string) = Ok (mkArgs (Some d) None None)).
    { rewrite S1. f_equal. unfold set_displacement in S1. apply bind_ok in S1 as (q & Q & S1).
      unfold set_enlargement in S2. apply bind_ok in S2 as (n & _ & S2). destruct (Nat.eqb (List.length n) 3); [|discriminate]. injection S2 as <-.
      unfold set_periodicity in S3. destruct (e1 "periodicity"%string); try discriminate.
      destruct (Nat.eqb _ 3); [|discriminate]. apply bind_ok in S3 as (? & _ & S3). injection S3 as <-. cbn in AD.
      destruct (Qcltb q (Q2Qc 0)); injection S1 as <-; cbn in AD; [discriminate|]. injection AD as ->. reflexivity. }
    assert (FL : set_displacement args_init (VFloat d) = Ok (mkArgs (Some d) None None)).
    { unfold set_displacement in S1' |- *. apply bind_ok in S1' as (q & Q & S'). cbn [py_float bind].
      destruct (Qcltb q (Q2Qc 0)) eqn:G; injection S' as S'; [discriminate|]. subst q. now rewrite G. }
    destruct (two _ _ _ _ _ P1 RD) as [-> | ->]; assumption. }
  unfold set_enlargement in S2. apply bind_ok in S2 as (n & N2 & S2).
  destruct (Nat.eqb (List.length n) 3) eqn:L3; [|discriminate]. injection S2 as <-.
  unfold set_periodicity in S3. destruct (e1 "periodicity"%string) as [|ps| | |] eqn:EP; try discriminate.
  destruct (Nat.eqb (List.length (map flag_of_token (split_ws (strip ps)))) 3) eqn:LP; [|discriminate].
  apply bind_ok in S3 as ([] & CK & S3). injection S3 as <-. cbn [a_enl a_pbc a_disp] in *. injection EA as ->. injection PA as PA.
  assert (E2 : forall a : args, set_enlargement a (merge_record e2 (mkRecord unit "SUPERCELL" (e1 "dft"%string) pg (VFloat d) (join_ints [n1; n2; n3]) (join_ints [p1; p2; p3])) "enlargement"%string) = Ok (mkArgs (a_disp a) (Some [n1; n2; n3]) (a_pbc a))).
  { intro a. unfold set_enlargement. destruct (two _ _ _ _ _ P2 RE) as [-> | ->].
    - rewrite join_ints_numpy. reflexivity.
    - rewrite N2. reflexivity. }
  assert (E3 : forall a : args, a_enl a = Some [n1; n2; n3] -> set_periodicity a (merge_record e2 (mkRecord unit "SUPERCELL" (e1 "dft"%string) pg (VFloat d) (join_ints [n1; n2; n3]) (join_ints [p1; p2; p3])) "periodicity"%string) = Ok (mkArgs (a_disp a) (a_enl a) (Some [p1; p2; p3]))).
  { intros a A. unfold set_periodicity. destruct (two _ _ _ _ _ P3 RP) as [-> | ->].
    - rewrite split_ws_strip, join_ints_split.
      assert (F : map flag_of_token (map z_string [p1; p2; p3]) = [p1; p2; p3]).
      { rewrite map_map. rewrite <- (map_id [p1; p2; p3]) at 2. apply map_ext_in. intros p I1. destruct (P01 p I1) as [-> | ->]; reflexivity. }
      rewrite F, A. change (Nat.eqb (List.length [p1; p2; p3]) 3) with true. cbv iota. rewrite <- PA, CK. reflexivity.
    - rewrite EP, PA. change (Nat.eqb (List.length [p1; p2; p3]) 3) with true. cbv iota. rewrite A, <- PA, CK. reflexivity. }
  rewrite D. cbn [bind]. rewrite E2. cbn [bind a_disp a_pbc a_enl]. rewrite E3 by reflexivity. cbn [bind a_disp a_pbc a_enl].
  assert (AD' : a_disp b1 = Some d) by exact AD.
  cbn [a_enl a_pbc] in C. rewrite PA in C |- *. rewrite AD'.
  unfold check_user_argument in *. cbn [a_enl a_pbc] in *. rewrite C. reflexivity.
Qed.
Print Assumptions record_restores_arguments.

Example record_restores_witness :
  let e1 := upd (upd default_env "enlargement" (VStr "4 4 1")) "periodicity" (VStr "T t F") in
  let a := mkArgs (Some (Q2Qc (1 # 50))) (Some [4; 4; 1]%Z) (Some [1; 1; 0]%Z) in
  set_user_arg args_init (user_args e1) = Ok a /\
  make_record "POSCAR" (VStr "vasp") (Some "mm2"%string) a = Ok (mkRecord "POSCAR" "SUPERCELL" (VStr "vasp") (Some "mm2"%string) (VFloat (Q2Qc (1 # 50))) "4 4 1" "1 1 0")
  /\ repeated e1 default_env "enlargement"%string "2 2 1".
Proof.
  split; [|split; [vm_compute; reflexivity|right; reflexivity]].
  vm_compute. do 3 f_equal. apply Qc_is_canon. reflexivity.
Qed.

(** C65: a negative displacement is dropped by the pre-process (C04), recorded as nothing, and
    a post-process that leaves the option alone then stops with a TypeError. *)
Theorem record_of_negative_displacement : forall (e1 e2 : env) (a a0 b0 : args) (unit : string) (pg : option string) (r : record),
  set_user_arg a0 (user_args e1) = Ok a -> a_disp a = None ->
  make_record unit (e1 "dft"%string) pg a = Ok r -> e2 "displacement"%string = VStr "0.02" ->
  set_user_arg b0 (user_args (merge_record e2 r)) = Err EType.
Proof.
  intros e1 e2 a a0 b0 unit pg r S AD MR D.
  destruct (record_precedence e2 r ""%string) as (_ & _ & _ & P1 & _).
  unfold make_record in MR. apply bind_ok in MR as (n & _ & MR). apply bind_ok in MR as (p & _ & MR). rewrite AD in MR. injection MR as <-. cbn [r_disp] in P1.
  unfold set_user_arg, set_user_argument, user_args. cbn [set_entries]. unfold set_entry.
  change (contains "displacement" "dft_code") with false. change (contains "enlargement" "dft_code") with false.
  change (contains "periodicity" "dft_code") with false. change (contains "displacement" "displacement") with true. cbv iota. cbn [bind].
  rewrite (proj1 P1 D). reflexivity.
Qed.
Print Assumptions record_of_negative_displacement.

Example record_of_negative_displacement_witness :
  set_user_arg args_init (user_args (upd default_env "displacement" (VStr "-0.01"))) = Ok (mkArgs None (Some [2; 2; 1]%Z) (Some [1; 1; 0]%Z)).
Proof. vm_compute. reflexivity. Qed.

(** * What the program decides to do (C66) *)
Section Plans.
  Variable glob : string -> list string.

  (** Pre-process exactly when no force files are given and the switch says so; the arguments are
      the values after the option file, whatever any record says. *)
  Theorem preprocess_decision : forall (e e' : env) file forces rec,
    with_option_file e file = Ok e' ->
    (forces = [] /\ truthy (e "process"%string) = true <-> exists a u s, main_plan glob e file forces rec = Ok (PrePlan a u s)) /\
    (forces = [] -> truthy (e "process"%string) = true ->
       main_plan glob e file forces rec = Ok (PrePlan (user_args e') (e' "unitcell"%string) (truthy (e' "sym"%string)))).
  Proof.
    intros e e' file forces rec W.
    assert (K : e' "process"%string = e "process"%string).
    { destruct file as [lines|]; [|now injection W as <-]. apply (option_file_keeps_switches e e' lines); [exact W|left; reflexivity]. }
    unfold main_plan. rewrite W. cbn [bind]. rewrite K.
    assert (NP : forall r a u s, post_plan glob e' forces r <> Ok (PrePlan a u s)).
    { intros r a u s H. unfold post_plan in H. destruct (_ && _)%bool; [discriminate|].
      repeat (apply bind_ok in H as (? & _ & H)). discriminate. }
    split.
    - destruct forces as [|f fs].
      + destruct (truthy (e "process"%string)).
        * split; [intros _; eexists _, _, _; reflexivity|auto].
        * split; [intros [_ H]; discriminate|]. intros (a & u & s & H). apply bind_ok in H as (r & _ & H). exfalso. exact (NP r a u s H).
      + split; [intros [H _]; discriminate|]. intros (a & u & s & H). apply bind_ok in H as (r & _ & H). exfalso. exact (NP r a u s H).
    - intros -> ->. reflexivity.
  Qed.

  (** Inversion of an accepted post-process. *)
  Lemma post_plan_inv e forces r a sym u s ff d t b m :
    post_plan glob e forces r = Ok (PostPlan a sym u s ff d t b m) ->
    let e' := merge_record e r in
    a = user_args e' /\ u = e' "unitcell"%string /\ s = e' "supercell"%string /\
    (match forces with
     | _ :: _ :: _ => ff = forces
     | [f] => ff = sort_strings (glob f) /\ ff <> []
     | [] => False
     end) /\
    (match d with
     | Some (da, k) => (truthy (e "dos"%string) = true \/ e "kpoint_dos"%string <> VNone) /\ k = e "kpoint_dos"%string /\ get_dos_args e' = Ok da
     | None => truthy (e "dos"%string) = false /\ e "kpoint_dos"%string = VNone end) /\
    (match t with
     | Some l => truthy (e "thermal"%string) = true /\ d <> None
     | None => truthy (e "thermal"%string) = false end) /\
    (match b with
     | Some (ba, k) => (truthy (e "band"%string) = true \/ e "kpoint_band"%string <> VNone) /\ k = e "kpoint_band"%string
     | None => truthy (e "band"%string) = false /\ e "kpoint_band"%string = VNone end) /\
    (m = None <-> truthy (e "mode"%string) = false).
  Proof.
    intro H. intro e'. unfold post_plan in H. fold e' in H.
    assert (O : forall x, ~ In x ["unitcell"; "supercell"; "dft"; "sym"; "displacement"; "enlargement"; "periodicity"]%string -> e' x = e x).
    { intros x N. destruct (record_precedence e r x) as (_ & _ & _ & _ & _ & _ & P). exact (P N). }
    assert (ON : forall x, mem_string x ["unitcell"; "supercell"; "dft"; "sym"; "displacement"; "enlargement"; "periodicity"]%string = false -> e' x = e x).
    { intros x N. apply O. intro I1. enough (mem_string x ["unitcell"; "supercell"; "dft"; "sym"; "displacement"; "enlargement"; "periodicity"]%string = true) by congruence.
      apply existsb_exists. exists x. split; [exact I1|apply String.eqb_refl]. }
    rewrite <- (ON "dos"%string), <- (ON "kpoint_dos"%string), <- (ON "thermal"%string), <- (ON "band"%string), <- (ON "kpoint_band"%string), <- (ON "mode"%string) by reflexivity.
    clear O ON. revert H. generalize e'. clear e e'. intros e H.
    assert (NN : forall v, is_none v = false <-> v <> VNone) by (intros []; cbn; split; congruence).
    assert (NT : forall v, is_none v = true <-> v = VNone) by (intros []; cbn; split; congruence).
    destruct (_ && _)%bool; [discriminate|].
    apply bind_ok in H as (ff' & F & H). apply bind_ok in H as (da & Dd & H). apply bind_ok in H as (th & T & H).
    apply bind_ok in H as (ba & B & H). apply bind_ok in H as (ma & M & H). injection H as <- <- <- <- <- <- <- <- <-.
    split; [reflexivity|]. split; [reflexivity|]. split; [reflexivity|].
    split; [|split; [|split; [|split]]].
    - destruct forces as [|f [|f2 fs]].
      + discriminate F.
      + cbn in F. destruct (sort_strings (glob f)); [discriminate|]. injection F as <-. split; [reflexivity|discriminate].
      + now injection F as <-.
    - unfold when in Dd. destruct (truthy (e "dos"%string) || negb (is_none (e "kpoint_dos"%string)))%bool eqn:G.
      + apply bind_ok in Dd as (x & X & Dd). injection Dd as <-. cbn. split; [|split; [reflexivity|exact X]].
        apply orb_true_iff in G as [G|G]; [left; exact G|right]. apply NN. now apply negb_true_iff in G.
      + injection Dd as <-. cbn. apply orb_false_iff in G as [G1 G2]. split; [exact G1|]. apply NT. now apply negb_false_iff in G2.
    - unfold when in T. destruct (truthy (e "thermal"%string)).
      + apply bind_ok in T as (l & L & T). injection T as <-. split; [reflexivity|].
        apply bind_ok in L as (? & _ & L). apply bind_ok in L as (? & _ & L). apply bind_ok in L as (? & _ & L). apply bind_ok in L as (? & _ & L).
        unfold when in Dd. destruct (truthy (e "dos"%string) || negb (is_none (e "kpoint_dos"%string)))%bool; [|discriminate].
        apply bind_ok in Dd as (? & _ & Dd). injection Dd as <-. discriminate.
      + now injection T as <-.
    - unfold when in B. destruct (truthy (e "band"%string) || negb (is_none (e "kpoint_band"%string)))%bool eqn:G.
      + apply bind_ok in B as (x & X & B). injection B as <-. cbn. split; [|reflexivity].
        apply orb_true_iff in G as [G|G]; [left; exact G|right]. apply NN. now apply negb_true_iff in G.
      + injection B as <-. cbn. apply orb_false_iff in G as [G1 G2]. split; [exact G1|]. apply NT. now apply negb_false_iff in G2.
    - unfold when in M. destruct (truthy (e "mode"%string)).
      + apply bind_ok in M as (x & X & M). injection M as <-. split; discriminate.
      + injection M as <-. split; reflexivity.
  Qed.

  (** C66: the analyses that run: DOS and band each if switched on or if their k-point file is
      given, thermal properties and mode if switched on. *)
  Theorem analyses_run : forall (e : env) forces r a sym u s ff d t b m,
    post_plan glob e forces r = Ok (PostPlan a sym u s ff d t b m) ->
    (d <> None <-> truthy (e "dos"%string) = true \/ e "kpoint_dos"%string <> VNone) /\
    (b <> None <-> truthy (e "band"%string) = true \/ e "kpoint_band"%string <> VNone) /\
    (t <> None <-> truthy (e "thermal"%string) = true) /\ (m <> None <-> truthy (e "mode"%string) = true).
  Proof.
    intros e forces r a sym u s ff d t b m H. apply post_plan_inv in H as (_ & _ & _ & _ & D & T & B & M).
    split; [|split; [|split]].
    - destruct d as [[da k]|]; [split; [intros _; tauto|discriminate]|]. destruct D as [D1 D2]. split; [congruence|intros [|]; congruence].
    - destruct b as [[ba k]|]; [split; [intros _; tauto|discriminate]|]. destruct B as [D1 D2]. split; [congruence|intros [|]; congruence].
    - destruct t as [l|]; [split; [intros _; tauto|discriminate]|]. split; congruence.
    - rewrite M. destruct (truthy (e "mode"%string)); split; congruence.
  Qed.

  (** C66: thermal properties need the k-point file of the DOS: without it the program stops in
      the argument check or, the switch for the DOS being on, has no file name for that stage. *)
  Theorem thermal_needs_dos_kpoints : forall (e : env) forces r,
    truthy (e "thermal"%string) = true -> e "kpoint_dos"%string = VNone ->
    match post_plan glob e forces r with
    | Ok (PostPlan _ _ _ _ _ (Some (_, k)) _ _ _) => k_file k = Err EType
    | Ok _ => False
    | Err _ => True
    end.
  Proof.
    intros e forces r T K. destruct (post_plan glob e forces r) as [[a u s|a sym u s ff d t b m]|err] eqn:P; [| |trivial].
    - unfold post_plan in P. destruct (_ && _)%bool; [discriminate|]. repeat (apply bind_ok in P as (? & _ & P)). discriminate.
    - apply post_plan_inv in P as (_ & _ & _ & _ & D & TT & _).
      destruct t as [l|]; [|congruence]. destruct TT as [_ ND]. destruct d as [[da k]|]; [|congruence].
      destruct D as (_ & -> & _). rewrite K. reflexivity.
  Qed.

  (** C66: neither k-point file: nothing runs; no force file in a post-process: IndexError; one force
      file argument that matches nothing: Exception. *)
  Theorem postprocess_refused : forall (e : env) forces r,
    (e "kpoint_dos"%string = VNone -> e "kpoint_band"%string = VNone -> post_plan glob e forces r = Err EExc) /\
    (e "kpoint_dos"%string <> VNone \/ e "kpoint_band"%string <> VNone ->
       post_plan glob e [] r = Err EIndex /\ forall f, glob f = [] -> post_plan glob e [f] r = Err EExc).
  Proof.
    intros e forces r.
    assert (ON : forall x, mem_string x ["unitcell"; "supercell"; "dft"; "sym"; "displacement"; "enlargement"; "periodicity"]%string = false -> merge_record e r x = e x).
    { intros x N. destruct (record_precedence e r x) as (_ & _ & _ & _ & _ & _ & P). apply P. intro I1.
      enough (mem_string x ["unitcell"; "supercell"; "dft"; "sym"; "displacement"; "enlargement"; "periodicity"]%string = true) by congruence.
      apply existsb_exists. exists x. split; [exact I1|apply String.eqb_refl]. }
    unfold post_plan. rewrite (ON "kpoint_dos"%string), (ON "kpoint_band"%string) by reflexivity.
    split.
    - intros -> ->. reflexivity.
    - intro H. assert (G : (is_none (e "kpoint_dos"%string) && is_none (e "kpoint_band"%string))%bool = false).
      { apply andb_false_iff. destruct H as [H|H]; [left|right]; [destruct (e "kpoint_dos"%string)|destruct (e "kpoint_band"%string)]; cbn; congruence. }
      rewrite G. split; [reflexivity|]. intros f F. cbn. rewrite F. reflexivity.
  Qed.

  (** C67: two or more force files are used in the order given; a single argument is a pattern,
      whose matches are used in alphabetical order. *)
  Definition alphabetical (a b : string) : Prop := str_lt a b \/ a = b.
  Lemma compare_str_lt : forall a b, String.compare a b = Lt <-> str_lt a b.
  Proof.
    induction a as [|x a IH]; intros [|y b]; cbn.
    - split; [discriminate|]. intro H; inversion H.
    - split; [constructor|reflexivity].
    - split; [discriminate|]. intro H; inversion H.
    - unfold Ascii.compare. destruct (N.compare_spec (N_of_ascii x) (N_of_ascii y)) as [E|L|L].
      + assert (x = y) by (rewrite <- (ascii_N_embedding x), <- (ascii_N_embedding y), E; reflexivity). subst y.
        rewrite IH. split; [apply str_lt_tail|]. intro H; inversion H; subst; [lia|assumption].
      + split; [|reflexivity]. intros _. apply str_lt_head. unfold nat_of_ascii. lia.
      + split; [discriminate|]. intro H; inversion H; subst; [unfold nat_of_ascii in *; lia|lia].
  Qed.
  Lemma leb_alphabetical : forall a b, (a <=? b)%string = true <-> alphabetical a b.
  Proof.
    intros a b. unfold String.leb, alphabetical. rewrite <- compare_str_lt.
    pose proof (String.compare_eq_iff a b) as E.
    assert (R : a = b -> String.compare a b = Eq).
    { intros <-. clear E. induction a as [|c a IH]; [reflexivity|]. cbn. unfold Ascii.compare. rewrite N.compare_refl. exact IH. }
    destruct (String.compare a b) eqn:C; intuition congruence.
  Qed.
  Lemma alphabetical_total : forall a b, alphabetical a b \/ alphabetical b a.
  Proof. intros a b. rewrite <- !leb_alphabetical. destruct (String.leb_total a b); auto. Qed.
  Lemma alphabetical_trans : forall a b c, alphabetical a b -> alphabetical b c -> alphabetical a c.
  Proof.
    unfold alphabetical. intros a b c [H|<-] [K|<-]; auto. left. apply str_lt_trans with b; assumption.
  Qed.
  Lemma insert_perm x l : Permutation (insert_string x l) (x :: l).
  Proof.
    induction l as [|y r IH]; cbn; [reflexivity|]. destruct (x <=? y)%string; [reflexivity|].
    rewrite IH. constructor.
  Qed.
  Lemma insert_sorted x l : StronglySorted alphabetical l -> StronglySorted alphabetical (insert_string x l).
  Proof.
    induction 1 as [|y r S IH F]; cbn; [repeat constructor|].
    destruct (x <=? y)%string eqn:E.
    - apply leb_alphabetical in E. constructor; [now constructor|]. constructor; [exact E|].
      eapply Forall_impl; [|exact F]. intros z. now apply alphabetical_trans.
    - assert (L : alphabetical y x) by (destruct (alphabetical_total x y) as [A|A]; [apply leb_alphabetical in A; congruence|exact A]).
      constructor; [exact IH|]. rewrite Forall_forall in F |- *. intros z Iz.
      apply (Permutation_in _ (insert_perm x r)) in Iz. destruct Iz as [<-|Iz]; [exact L|auto].
  Qed.
  Lemma sort_strings_spec l : Permutation (sort_strings l) l /\ StronglySorted alphabetical (sort_strings l).
  Proof.
    unfold sort_strings. induction l as [|x l [P S]]; cbn; [split; constructor|]. split.
    - rewrite insert_perm. now constructor.
    - apply insert_sorted, S.
  Qed.

  Theorem force_file_order : forall (e : env) forces r a sym u s ff d t b m,
    post_plan glob e forces r = Ok (PostPlan a sym u s ff d t b m) ->
    match forces with
    | [] => False
    | [f] => Permutation ff (glob f) /\ StronglySorted alphabetical ff
    | _ => ff = forces
    end.
  Proof.
    intros e forces r a sym u s ff d t b m H. apply post_plan_inv in H as (_ & _ & _ & F & _).
    destruct forces as [|f [|f2 fs]]; [exact F| |exact F]. destruct F as [-> _]. apply sort_strings_spec.
  Qed.

  (** C67: the displaced structures carry the suffixes -0001, -0002, ...; if the force files of one
      pattern are these names between a common beginning and a common end, they are used in the
      order of the displacements, for up to 9999 displacements. *)
  Theorem pattern_matches_in_displacement_order : forall (head tail : string) (n : nat) (l : list string),
    (Z.of_nat n <= 9999)%Z -> Permutation l (map (fun i => head ++ suffix i ++ tail)%string (seq 1 n)) ->
    sort_strings l = map (fun i => head ++ suffix i ++ tail)%string (seq 1 n).
  Proof.
    intros head tail n l N P. destruct (sort_strings_spec l) as [P1 S1].
    set (f := fun i => (head ++ suffix i ++ tail)%string) in *.
    assert (LT : forall i j, 1 <= i -> i < j -> (Z.of_nat j <= 9999)%Z -> str_lt (f i) (f j)).
    { intros i j I1 I2 I3. apply str_lt_app_l. apply str_lt_app_r.
      - apply suffix_order; lia.
      - unfold suffix. cbn [append String.length]. f_equal.
        pose proof (pad4_length (Z.of_nat i) ltac:(lia)) as L1. pose proof (pad4_length (Z.of_nat j) ltac:(lia)) as L2. rewrite Nat2Z.id in L1, L2. congruence. }
    assert (S2 : StronglySorted alphabetical (map f (seq 1 n))).
    { assert (G : forall n k, 1 <= k -> (Z.of_nat (k + n) <= 10000)%Z -> StronglySorted alphabetical (map f (seq k n))).
      { clear - LT. induction n as [|n IH]; intros k K1 K2; cbn; [constructor|]. constructor; [apply IH; lia|].
        apply Forall_forall. intros z Z. apply in_map_iff in Z as (j & <- & J). apply in_seq in J. left. apply LT; lia. }
      apply G; lia. }
    assert (U : forall l1 l2, StronglySorted alphabetical l1 -> StronglySorted alphabetical l2 -> Permutation l1 l2 -> l1 = l2).
    { clear. intros l1 l2 A. revert l2. induction A as [|x l1 A IH F]; intros l2 B Pm.
      - apply Permutation_nil in Pm. now subst.
      - destruct B as [|y l2 B G]; [apply Permutation_sym, Permutation_nil in Pm; discriminate|].
        assert (x = y).
        { rewrite Forall_forall in F, G.
          assert (Ix : In x (y :: l2)) by (apply (Permutation_in _ Pm); left; reflexivity).
          assert (Iy : In y (x :: l1)) by (apply (Permutation_in _ (Permutation_sym Pm)); left; reflexivity).
          destruct Ix as [->|Ix]; [reflexivity|]. destruct Iy as [->|Iy]; [reflexivity|].
          destruct (F y Iy) as [L1| ->]; [|reflexivity]. destruct (G x Ix) as [L2| ->]; [|reflexivity].
          exfalso. exact (str_lt_irrefl x (str_lt_trans _ _ _ L1 L2)). }
        subst y. f_equal. apply IH; [exact B|]. now apply Permutation_cons_inv with x. }
    apply U; [exact S1|exact S2|]. now rewrite P1.
  Qed.
End Plans.
Print Assumptions preprocess_decision.
Print Assumptions analyses_run.
Print Assumptions thermal_needs_dos_kpoints.
Print Assumptions postprocess_refused.
Print Assumptions force_file_order.
Print Assumptions pattern_matches_in_displacement_order.

Example post_plan_witness :
  let r := mkRecord "POSCAR" "SUPERCELL" (VStr "vasp") (Some "mm2"%string) (VFloat (Q2Qc (1 # 50))) "2 2 1" "1 1 0" in
  let e := upd (upd default_env "kpoint_dos" (VStr "KPOINTS_dos")) "thermal" (VInt 1) in
  let g := fun _ => ["vasprun-0002.xml"; "vasprun-0001.xml"]%string in
  match post_plan g e ["vasprun-*"]%string r with
  | Ok (PostPlan _ true _ _ ff (Some _) (Some l) None None) => ff = ["vasprun-0001.xml"; "vasprun-0002.xml"]%string /\ length l = 100
  | _ => False
  end.
Proof. vm_compute. split; reflexivity. Qed.
Example thermal_without_dos_witness :
  let r := mkRecord "POSCAR" "SUPERCELL" (VStr "vasp") (Some "mm2"%string) (VFloat (Q2Qc (1 # 50))) "2 2 1" "1 1 0" in
  let e := upd (upd default_env "kpoint_band" (VStr "KPOINTS_band")) "thermal" (VInt 1) in
  post_plan (fun _ => []) e ["a"; "b"]%string r = Err EKey /\
  match post_plan (fun _ => []) (upd e "dos" (VInt 1)) ["a"; "b"]%string r with Ok (PostPlan _ _ _ _ _ (Some (_, VNone)) _ _ _) => True | _ => False end.
Proof. split; [vm_compute; reflexivity|vm_compute; trivial]. Qed.

(** C66: an amplitude in the option file reaches the mode stage as text, not as a number. *)
Theorem amplitude_from_file_is_text : forall (glob : string -> list string) (e e' : env) lines kvs forces r a sym u s ff d t b m v,
  entries lines kvs -> with_option_file e (Some lines) = Ok e' ->
  In "disp_amp_mode"%string (map fst kvs) -> ~ In "displacement_amplitude_mode"%string (map fst kvs) ->
  last_text "disp_amp_mode" kvs = Some v ->
  main_plan glob e (Some lines) forces (Ok r) = Ok (PostPlan a sym u s ff d t b (Some m)) -> ma_amplitude m = VStr v.
Proof.
  intros glob e e' lines kvs forces r a sym u s ff d t b m v EN W I1 N2 LT H.
  assert (FO : exists before v0 after, kvs = before ++ ("disp_amp_mode"%string, v0) :: after /\ ~ In "disp_amp_mode"%string (map fst before)).
  { clear - I1. induction kvs as [|[k w] kvs IH]; [destruct I1|]. destruct (string_dec k "disp_amp_mode") as [->|N].
    - exists [], w, kvs. auto.
    - destruct I1 as [E|I1]; [cbn in E; congruence|]. destruct (IH I1) as (bf & v0 & af & -> & NB).
      exists ((k, w) :: bf), v0, af. split; [reflexivity|]. cbn. intros [E|E]; [congruence|auto]. }
  destruct FO as (bf & v0 & af & EQ & NB).
  destruct (proj2 (option_file_values e e' lines kvs EN W) ["displacement_amplitude_mode"; "disp_amp_mode"]%string "disp_amp_mode"%string AsStr "disp_amp_mode"%string bf v0 af) as (v' & L & C).
  - repeat ((left; reflexivity) || right).
  - right; left; reflexivity.
  - exact EQ.
  - exact NB.
  - intros k' [<-|[<-|[]]] K; [contradiction|left; reflexivity].
  - rewrite LT in L. injection L as <-. cbn in C. injection C as C.
    unfold main_plan in H. rewrite W in H. cbn [bind] in H.
    destruct (match forces with [] => truthy (e' "process"%string) | _ => false end); [discriminate|].
    unfold post_plan in H. destruct (_ && _)%bool; [discriminate|].
    apply bind_ok in H as (? & _ & H). apply bind_ok in H as (? & _ & H). apply bind_ok in H as (? & _ & H).
    apply bind_ok in H as (? & _ & H). apply bind_ok in H as (ma & M & H).
    assert (ma = Some m) by congruence. subst ma. clear H.
    unfold when in M. destruct (truthy _); [|discriminate]. apply bind_ok in M as (m' & M & E). injection E as ->.
    unfold get_mode_args in M. apply bind_ok in M as (? & _ & M). apply bind_ok in M as (? & _ & M).
    apply bind_ok in M as (? & _ & M). apply bind_ok in M as (? & _ & M). destruct (Nat.eqb _ 3); [|discriminate]. injection M as <-. cbn [ma_amplitude].
    rewrite (proj2 (proj2 (proj2 (proj2 (proj2 (proj2 (record_precedence e' r "disp_amp_mode"%string))))))); [now symmetry|].
    intros K. repeat (destruct K as [K|K]; [discriminate|]). destruct K.
Qed.
Print Assumptions amplitude_from_file_is_text.
