(** * PropsEdges: a few corners of C52, C55, C59, C60, C70, C71, C74 and C77 *)

From Verif Require Import PyBase PyFacts Jabmod SftxtModel SftxtMainModel ScoreModel HtmlModel UrlText DebtallyModel FetchModel PosixModel ExtfileModel PropsExtfile SpecfileModel ScriptsModel PropsScripts ConvertModel UtilModel PropsUtil.
Local Open Scope Z_scope.

(** An empty text of ballot images is not an election without ballots. *)
Theorem C52_no_text : forall spec, (exists rf, sftxt_read_fieldspec spec = Ok rf) -> read_sftxt_str spec [] = [Err ValueError].
Proof. intros spec (rf&E). unfold read_sftxt_str. rewrite E. reflexivity. Qed.
Print Assumptions C52_no_text.
Example C52_no_text_sample : exists rf, sftxt_read_fieldspec BALLOTIMAGE_FIELDSPEC = Ok rf.
Proof. eexists. vm_compute. reflexivity. Qed.
(** sftxt.py with an empty name for the lookup file stops with ValueError before anything is written. *)
Theorem C71_empty_name : forall fs a, sa_lookupfile a = [] -> sftxt_main fs a = SfOutcome fs [] (Some ValueError).
Proof.
  intros fs a E. unfold sftxt_main. rewrite E. unfold read_sftxt_file. assert (X : exists rf, sftxt_read_fieldspec MASTERLOOKUP_FIELDSPEC = Ok rf) by (eexists; vm_compute; reflexivity). destruct X as (rf&X). rewrite X. reflexivity.
Qed.
Print Assumptions C71_empty_name.
(** What the heading of an HTML page shows for a title that is a text, a number or a truth value, and for such a description. *)
Theorem C74_heading_values : forall m,
  let shows j s := (dget (u "title") (j_metadata m) = Some j -> get_title_for_html m = u "abiflib/html_output.py Results: " ++ s) in
  let describes j s := (dget (u "description") (j_metadata m) = Some j -> forall j', get_abif_desc m = j' -> json_fstr j' = s) in
  (forall s, s <> [] -> shows (JStr s) s) /\ (forall z, z <> 0 -> shows (JInt z) (z2s z)) /\ shows (JBool true) (u "True") /\
  (forall s, describes (JStr s) s) /\ (forall z, describes (JInt z) (z2s z)) /\ describes (JBool true) (u "True") /\ describes (JBool false) (u "False") /\ describes JNull (u "None").
Proof.
  intros m shows describes. assert (G : forall j, json_truthy j = true -> forall s, json_fstr j = s -> shows j s).
  { intros j Hj s Hs Hd. unfold get_title_for_html, get_abif_title. destruct (j_metadata m) as [|kv md] eqn:E; [discriminate Hd|]. unfold or_default. rewrite Hd, Hj, Hs. reflexivity. }
  assert (K : forall j s, json_fstr j = s -> describes j s).
  { intros j s Hs Hd j' <-. unfold get_abif_desc. destruct (j_metadata m) as [|kv md] eqn:E; [discriminate Hd|]. rewrite Hd. exact Hs. }
  split; [intros s Hs; apply G; [destruct s; [congruence|reflexivity]|reflexivity]|]. split; [intros z Hz; apply G; [cbn [json_truthy]; destruct (Z.eqb_spec z 0); [congruence|reflexivity]|reflexivity]|].
  split; [apply G; reflexivity|]. repeat split; intros; apply K; reflexivity.
Qed.
Print Assumptions C74_heading_values.
(** An input that is a directory: the run ends with OSError, and nothing has changed. *)
Theorem C59_directory_input : forall cwd sha1 tar dl ab subs x fmt before f after blobs loc t p, convertible fmt -> exists_at cwd t ab = true -> copies x = Some (before ++ f :: after) -> x_abifloc x = Some loc ->
  x_srcfmt x = Some fmt -> Forall2 (fun c b => read_text cwd t (path_join dl c) = Ok b) before blobs ->
  presolve cwd t true (is_abs (path_join dl f)) (pnames (path_join dl f)) = Ok p -> at_place t p = Some NDir ->
  forall d, process_extfilelist cwd sha1 tar dl ab [x] d subs t = (Err OSError, t).
Proof.
  intros cwd sha1 tar dl ab subs x fmt before f after blobs loc t p Hf He Hc Hl Hs HF Hp Hd d. rewrite process_exists by exact He. cbn [process_entries]. rewrite Hs.
  assert (Eo : or_else (Some fmt) d = Some fmt) by (destruct Hf as [->|[->| ->]]; reflexivity). rewrite Eo. unfold abind at 1.
  assert (E1 : is_fmt (Some fmt) "abif" = false) by (destruct Hf as [->|[->| ->]]; reflexivity). assert (E2 : is_fmt (Some fmt) "debtally" || is_fmt (Some fmt) "preflib" || is_fmt (Some fmt) "sftxt" = true) by (destruct Hf as [->|[->| ->]]; reflexivity).
  assert (Er : read_all cwd (map (path_join dl) (before ++ f :: after)) t = Err OSError).
  { clear Hc. induction HF as [|c b cs bs H _ IH]; cbn [app map read_all].
    - unfold read_text at 1. rewrite Hp. unfold read_place. rewrite Hd. reflexivity.
    - rewrite H, IH. reflexivity. }
  assert (Ep : process_entry cwd sha1 tar dl ab subs x (Some fmt) t = (Err OSError, t)).
  { unfold process_entry, abind at 1. assert (Ec : (match x_localcopies x with Some l => aret l | None => abind (akey (x_localcopy x)) (fun c => aret [c]) end) t = (Ok (before ++ f :: after), t)).
    { unfold copies in Hc. destruct (x_localcopies x) as [l|]; [injection Hc as ->; reflexivity|]. destruct (x_localcopy x); [|discriminate Hc]. injection Hc as <-. reflexivity. }
    rewrite Ec. cbv zeta. rewrite E1, E2, Hl. unfold abind, akey, lift. cbn [of_option]. unfold convert_files_to_abif, abind. rewrite Er. reflexivity. }
  rewrite Ep. reflexivity.
Qed.
Print Assumptions C59_directory_input.
Example C59_directory_sample : process_extfilelist home no_sha no_tar (u "dl") (u "abif") [naming (entry "tests" None "q.abif") (Some (u "preflib"))] None None (tree_of base) = (Err OSError, tree_of base) /\
  presolve home (tree_of base) true (is_abs (path_join (u "dl") (u "tests"))) (pnames (path_join (u "dl") (u "tests"))) = Ok (home ++ [u "dl"; u "tests"]) /\ at_place (tree_of base) (home ++ [u "dl"; u "tests"]) = Some NDir.
Proof. split; [reflexivity|]. split; vm_compute; reflexivity. Qed.
(** Updating a repository from a directory that has been removed: FileNotFoundError, and git is not run. *)
Theorem C70_removed_directory : forall git url subdir w, exists_at (g_cwd w) (g_tree w) subdir = true -> at_place (g_tree w) (g_cwd w) <> Some NDir ->
  update_repository git url subdir w = (Err FileNotFoundError, w).
Proof.
  intros git url subdir w He Hc. unfold update_repository, pexists. cbv beta. unfold pbind. rewrite He. cbn [negb]. unfold pgetcwd. destruct (at_place (g_tree w) (g_cwd w)) as [[| |]|]; [congruence| | |]; reflexivity.
Qed.
Print Assumptions C70_removed_directory.
Example C70_removed_sample : let w := Gworld (tree_of [([u "r"], NDir)]) [u "gone"] [] in exists_at (g_cwd w) (g_tree w) (u "/r") = true /\ at_place (g_tree w) (g_cwd w) <> Some NDir.
Proof. split; [vm_compute; reflexivity|discriminate]. Qed.
(** An input that is not UTF-8: the run ends with UnicodeError, and nothing has changed. *)
Theorem C59_not_utf8 : forall cwd sha1 tar dl ab subs x fmt before f after blobs loc t p raw, convertible fmt -> exists_at cwd t ab = true -> copies x = Some (before ++ f :: after) -> x_abifloc x = Some loc ->
  x_srcfmt x = Some fmt -> Forall2 (fun c b => read_text cwd t (path_join dl c) = Ok b) before blobs ->
  presolve cwd t true (is_abs (path_join dl f)) (pnames (path_join dl f)) = Ok p -> at_place t p = Some (NFile raw) ->
  (forall s, flat_map utf8_char s <> raw) ->
  forall d, process_extfilelist cwd sha1 tar dl ab [x] d subs t = (Err UnicodeError, t).
Proof.
  intros cwd sha1 tar dl ab subs x fmt before f after blobs loc t p raw Hf He Hc Hl Hs HF Hp Hd Hn d. rewrite process_exists by exact He. cbn [process_entries]. rewrite Hs.
  assert (Eo : or_else (Some fmt) d = Some fmt) by (destruct Hf as [->|[->| ->]]; reflexivity). rewrite Eo. unfold abind at 1.
  assert (E1 : is_fmt (Some fmt) "abif" = false) by (destruct Hf as [->|[->| ->]]; reflexivity). assert (E2 : is_fmt (Some fmt) "debtally" || is_fmt (Some fmt) "preflib" || is_fmt (Some fmt) "sftxt" = true) by (destruct Hf as [->|[->| ->]]; reflexivity).
  assert (Er : read_all cwd (map (path_join dl) (before ++ f :: after)) t = Err UnicodeError).
  { clear Hc. induction HF as [|c b cs bs H _ IH]; cbn [app map read_all].
    - unfold read_text at 1. rewrite Hp. unfold read_place. rewrite Hd. unfold decode_strict. destruct (str_eqb (flat_map utf8_char (utf8_decode raw)) raw) eqn:E; [apply str_eqb_eq in E; destruct (Hn _ E)|reflexivity].
    - rewrite H, IH. reflexivity. }
  assert (Ep : process_entry cwd sha1 tar dl ab subs x (Some fmt) t = (Err UnicodeError, t)).
  { unfold process_entry, abind at 1. assert (Ec : (match x_localcopies x with Some l => aret l | None => abind (akey (x_localcopy x)) (fun c => aret [c]) end) t = (Ok (before ++ f :: after), t)).
    { unfold copies in Hc. destruct (x_localcopies x) as [l|]; [injection Hc as ->; reflexivity|]. destruct (x_localcopy x); [|discriminate Hc]. injection Hc as <-. reflexivity. }
    rewrite Ec. cbv zeta. rewrite E1, E2, Hl. unfold abind, akey, lift. cbn [of_option]. unfold convert_files_to_abif, abind. rewrite Er. reflexivity. }
  rewrite Ep. reflexivity.
Qed.
Print Assumptions C59_not_utf8.
Example C59_not_utf8_sample : forall s, flat_map utf8_char s <> [233%N].
Proof.
  intros [|c s] H; [discriminate H|]. cbn [flat_map] in H. unfold utf8_char in H.
  repeat match type of H with context [if ?b then _ else _] => destruct b eqn:?; cbn [app] in H end; try discriminate H.
  injection H as -> _. discriminate.
Qed.
(** An entry of extfiles or web_urls has to be an object, else TypeError; its keys are taken by their names, and a key that is missing or null is none. *)
Theorem C70_entry : forall j, match j with JObj _ => True | _ => extfile_of j = Err TypeError end /\
  forall x, extfile_of j = Ok x -> exists o, j = JObj o /\
    (forall k f, In (k, f) [("localcopy", x_localcopy); ("srcfmt", x_srcfmt); ("desc", x_desc); ("abifloc", x_abifloc)]%string ->
       (forall s, f x = Some s <-> dget (u k) o = Some (JStr s)) /\ (f x = None <-> dget (u k) o = None \/ dget (u k) o = Some JNull)) /\
    (forall l, x_localcopies x = Some l <-> dget (u "localcopies") o = Some (JArr (map JStr l))) /\ (x_localcopies x = None <-> dget (u "localcopies") o = None \/ dget (u "localcopies") o = Some JNull).
Proof.
  intro j. split; [destruct j; cbn; auto|]. intros x H. destruct j as [| | | | |o]; try discriminate H. exists o. split; [reflexivity|]. unfold extfile_of in H.
  assert (G : forall k r, get_str k o = Ok r -> (forall s, r = Some s <-> dget (u k) o = Some (JStr s)) /\ (r = None <-> dget (u k) o = None \/ dget (u k) o = Some JNull)).
  { intros k r E. unfold get_str, member in E. destruct (dget (u k) o) as [[| | | | |]|]; try discriminate E; injection E as <-; split; try (intro; split; congruence); intuition congruence. }
  assert (L : forall l q, all_strs l = Ok q -> l = map JStr q).
  { induction l as [|y l IH]; intros q E; [injection E as <-; reflexivity|]. destruct y; try discriminate E. cbn [all_strs] in E. destruct (all_strs l) as [q'|]; [|discriminate E]. injection E as <-. cbn [map]. f_equal. apply IH. reflexivity. }
  assert (J : forall q q', map JStr q = map JStr q' -> q = q') by (induction q as [|a q IH]; intros [|b q'] E; try discriminate E; [reflexivity|]; injection E as -> E; f_equal; apply IH, E).
  assert (K : forall k r, get_strs k o = Ok r -> (forall l, r = Some l <-> dget (u k) o = Some (JArr (map JStr l))) /\ (r = None <-> dget (u k) o = None \/ dget (u k) o = Some JNull)).
  { intros k r E. unfold get_strs, member in E. destruct (dget (u k) o) as [[| | | | l|]|]; try discriminate E.
    - injection E as <-; split; [intro; split; discriminate|intuition congruence].
    - destruct (all_strs l) as [q|] eqn:El; [|discriminate E]. injection E as <-. apply L in El. subst l. split; [|intuition congruence]. intro l. split; [intro E; injection E as <-; reflexivity|]. intro E. injection E as E. apply J in E. congruence.
    - injection E as <-; split; [intro; split; discriminate|intuition congruence]. }
  cbv beta in H. destruct (get_strs "localcopies" o) as [a|] eqn:Ea; [|discriminate H]. cbn [bind] in H. destruct (get_str "localcopy" o) as [b|] eqn:Eb; [|discriminate H]. cbn [bind] in H. destruct (get_str "srcfmt" o) as [c|] eqn:Ec; [|discriminate H]. cbn [bind] in H.
  destruct (get_str "desc" o) as [d|] eqn:Ed; [|discriminate H]. cbn [bind] in H. destruct (get_str "abifloc" o) as [e|] eqn:Ee; [|discriminate H]. cbn [bind] in H. injection H as <-.
  split; [|exact (K _ _ Ea)]. intros k f [E|[E|[E|[E|[]]]]]; injection E as <- <-; apply G; assumption.
Qed.
Print Assumptions C70_entry.
Example C70_entry_sample : exists x, extfile_of (JObj [(u "abifloc", JStr (u "a.abif")); (u "localcopies", JArr [JStr (u "x")])]) = Ok x.
Proof. eexists. reflexivity. Qed.
(** configtool.py tags an election with mayor exactly when the old tag has that word in it, in whatever case. *)
Theorem C77_mayor : forall oldtag title, In (u "mayor") (fix_tag oldtag title) <->
  exists a w b, oldtag = a ++ w ++ b /\ Forall2 (fun c d => c = d \/ (c + 32)%N = d) w (u "mayor").
Proof.
  intros oldtag title.
  assert (S : forall p s, (forall d, In d p -> (97 <= d <= 122)%N) -> ((exists r, JsonParse.starts_with p (map unshift s) = Some r) <-> exists w b, s = w ++ b /\ Forall2 (fun c d => c = d \/ (c + 32)%N = d) w p)).
  { induction p as [|d p IH]; intros s Hp.
    - split; [intros _; exists [], s; split; [reflexivity|constructor]|intros _; eexists; reflexivity].
    - destruct s as [|c s].
      + split; [intros (r&H); discriminate H|]. intros (w&b&H&F). inversion F; subst. discriminate H.
      + cbn [map JsonParse.starts_with]. assert (X : d = unshift c <-> c = d \/ (c + 32)%N = d).
        { unfold unshift. specialize (Hp d (or_introl eq_refl)). destruct (N.leb_spec 65 c), (N.leb_spec c 90); cbn [andb]; lia. }
        destruct (N.eqb_spec d (unshift c)) as [E|E].
        * rewrite (IH s) by (intros; apply Hp; right; assumption). split.
          -- intros (w&b&->&F). exists (c :: w), b. split; [reflexivity|]. constructor; [apply X, E|exact F].
          -- intros (w&b&H&F). inversion F as [|c' d' w' p' H1 H2]; subst. injection H as <- ->. eauto.
        * split; [intros (r&H); discriminate H|]. intros (w&b&H&F). inversion F as [|c' d' w' p' H1 H2]; subst. injection H as <- ->. destruct (E (proj2 X H1)). }
  assert (C : contains (u "mayor") (map unshift oldtag) = true <-> exists a w b, oldtag = a ++ w ++ b /\ Forall2 (fun c d => c = d \/ (c + 32)%N = d) w (u "mayor")).
  { assert (Hp : forall d, In d (u "mayor") -> (97 <= d <= 122)%N) by (intros d Hd; repeat (destruct Hd as [<-|Hd]; [split; discriminate|]); destruct Hd).
    revert S. generalize dependent (u "mayor"). intros p Hp S. induction oldtag as [|c s IH].
    - specialize (S p [] Hp). cbn [map contains] in *. destruct (JsonParse.starts_with p []) as [r|].
      + split; [|reflexivity]. intros _. destruct (proj1 S (ex_intro _ r eq_refl)) as (w&b&H&F). exists [], w, b. split; assumption.
      + split; [discriminate|]. intros (a&w&b&H&F). destruct a; [|discriminate H]. destruct (proj2 S (ex_intro _ w (ex_intro _ b (conj H F)))) as (r&X). discriminate X.
    - specialize (S p (c :: s) Hp). cbn [map contains] in *. destruct (JsonParse.starts_with p (unshift c :: map unshift s)) as [r|].
      + split; [|reflexivity]. intros _. destruct (proj1 S (ex_intro _ r eq_refl)) as (w&b&H&F). exists [], w, b. split; assumption.
      + rewrite IH. split.
        * intros (a&w&b&->&F). exists (c :: a), w, b. split; [reflexivity|exact F].
        * intros (a&w&b&H&F). destruct a as [|c' a]; [destruct (proj2 S (ex_intro _ w (ex_intro _ b (conj H F)))) as (r&X); discriminate X|]. injection H as <- ->. eauto. }
  rewrite <- C. unfold fix_tag. destruct (contains (u "mayor") (map unshift oldtag)).
  - split; [reflexivity|]. intros _. left. reflexivity.
  - split; [|discriminate]. cbn [app]. intro H. exfalso. revert H.
    repeat match goal with |- In _ (if ?b then _ else _) -> _ => destruct b; [intro H; repeat (destruct H as [H|H]; [discriminate H|]); destruct H|] end.
    intro H. apply in_map_iff in H as (c&H&_). discriminate H.
Qed.
Print Assumptions C77_mayor.
Example C77_mayor_sample : In (u "mayor") (fix_tag (u "Oakland2022-MAYOR") []) /\ ~ In (u "mayor") (fix_tag (u "oakland2022") []).
Proof. split; [vm_compute; auto|]. intro H. vm_compute in H. repeat (destruct H as [H|H]; [discriminate H|]). destruct H. Qed.
(** Updating a repository that is not there: a line is printed, git is not run, and nothing changes. *)
Theorem C70_nothing_to_update : forall git url subdir w, exists_at (g_cwd w) (g_tree w) subdir = false ->
  update_repository git url subdir w = (Ok tt, Gworld (g_tree w) (g_cwd w) (g_events w ++ [EPrint (u "Directory '" ++ subdir ++ u "' isn't there.")])).
Proof. intros git url subdir w H. unfold update_repository, pbind, pexists. cbv beta. rewrite H. reflexivity. Qed.
Print Assumptions C70_nothing_to_update.
Example C70_nothing_to_update_sample : exists_at home (tree_of base) (u "repo") = false.
Proof. vm_compute. reflexivity. Qed.
(** The fields of an Electowidget object that the jabmod does not keep, by name. *)
Theorem C60_dropped_names : forall k, In k PRUNED_WIDJ_FIELDS <->
  k = u "display_parameters" \/ k = u "display_results" \/ k = u "display_ballots" \/ k = u "allow_voting" \/ k = u "ballot_type" \/ k = u "max_rating" \/ k = u "min_rating" \/
  k = u "count_subpage_ballots" \/ k = u "count_inline_ballots" \/ k = u "election_methods" \/ k = u "inline_ballot_type" \/ k = u "candidates" \/ k = u "inline_ballots".
Proof.
  intro k. split.
  - intro H. repeat (destruct H as [<-|H]; [auto 20|]). destruct H.
  - unfold PRUNED_WIDJ_FIELDS. intro H. cbn [In]. repeat (destruct H as [->|H]; [auto 20|]). rewrite H. auto 20.
Qed.
Print Assumptions C60_dropped_names.
(** A path that cannot be followed is a KeyError, an IndexError or a TypeError: a key that is not there, an index out of range, or a step into what has no parts. *)
Theorem C55_exceptions : forall p v x e, modify_jabmod v p x = Err e -> e = KeyError \/ e = IndexError \/ e = TypeError.
Proof.
  induction p as [|k [|k2 p] IH]; intros v x e H.
  - injection H as <-. auto.
  - change (modify_jabmod v [k] x) with (assign v k x) in H. destruct v as [a| |o|l|l|l|l], k as [s|z]; cbn [assign] in H; try discriminate H; try (injection H as <-; auto; fail); destruct (seq_index (length l) z); cbn [of_option bind] in H; [discriminate H|injection H as <-; auto].
  - change (modify_jabmod v (k :: k2 :: p) x) with (bind (item v k) (fun sub => bind (modify_jabmod sub (k2 :: p) x) (fun sub' => Ok (inside v k sub')))) in H.
    destruct (item v k) as [sub|e0] eqn:E; cbn [bind] in H.
    + destruct (modify_jabmod sub (k2 :: p) x) eqn:E2; cbn [bind] in H; [discriminate H|]. injection H as <-. exact (IH _ _ _ E2).
    + injection H as <-. clear - E. assert (G : forall (A : Type) (o : option A) e1 e2, of_option e1 o = Err e2 -> e2 = e1) by (intros A [a|] e1 e2 X; [discriminate X|injection X as <-; reflexivity]).
      assert (L : forall (l : list pyval) z, bind (of_option IndexError (seq_index (length l) z)) (fun i => of_option IndexError (nth_error l i)) = Err e0 -> e0 = IndexError) by (intros l z; destruct (seq_index (length l) z); [apply G|intro X; injection X as <-; reflexivity]).
      destruct v as [a| |o|l|l|l|l], k as [s|z]; cbn [item] in E; try (injection E as <-; auto; fail); try (left; eapply G; exact E); try (right; left; eapply L; exact E).
      all: destruct a as [s0|z0]; try (injection E as <-; auto; fail).
      all: match type of E with context [seq_index ?n ?z] => destruct (seq_index n z) as [i|]; cbn [of_option bind] in E end; [|injection E as <-; auto].
      all: match type of E with context [nth_error ?l ?i] => destruct (nth_error l i); cbn [of_option bind] in E end; [discriminate E|injection E as <-; auto].
Qed.
Print Assumptions C55_exceptions.
Example C55_exceptions_sample : modify_jabmod (VDict [(KStr (u "a"), VAtom (KInt 1))]) [KStr (u "b"); KInt 0] (VAtom (KInt 2)) = Err KeyError /\
  modify_jabmod (VDict [(KStr (u "a"), VAtom (KInt 1))]) [KStr (u "a"); KInt 0] (VAtom (KInt 2)) = Err TypeError /\
  modify_jabmod (VList []) [KInt 0; KInt 0] (VAtom (KInt 2)) = Err IndexError.
Proof. repeat split; reflexivity. Qed.
