(** * ObjFacts: the objects of ObjModel and the records of the other models *)

From Coq Require Import Lia Permutation.
From Verif Require Import PyBase PyFacts Jabmod PairwiseModel ScoreModel Spec Regex ParserModel ParserSpec WriterModel NameqModel SftxtModel UrlText NameqFacts PropsNameq JsonText JsonFacts JsonParse JsonParseFacts JabmodJson PropsJson ConvertModel CliModel ObjModel.
Local Open Scope Z_scope.
Local Open Scope res_scope.

(** ** Specification *)
(** The three things the dict of a candidate on a voteline can hold, and such a dict with its keys in a given order. *)
Inductive thing := TheRank | TheRating | TheNext.
Definition thing_entry (p : pref) (t : thing) : list (str * json) :=
  match t with
  | TheRank => match p_rank p with Some r => [(u "rank", JInt r)] | None => [] end
  | TheRating => match p_rating p with Some (RInt z) => [(u "rating", JInt z)] | Some (RStr s) => [(u "rating", JStr s)] | None => [] end
  | TheNext => match p_nextdelim p with Some d => [(u "nextdelim", JStr [d])] | None => [] end
  end.
Definition arranged (o : list thing) (p : pref) : list (str * json) := flat_map (thing_entry p) o.
(** The same candidates in the same order, each with its dict in an order that R allows. *)
Definition candidates_shown (R : list thing -> Prop) (ps : list (str * json)) (prefs : dict pref) : Prop :=
  Forall2 (fun cj cp => fst cj = fst cp /\ exists o, R o /\ snd cj = JObj (arranged o (snd cp))) ps prefs.
(** The order on a voteline of an ABIF file: the rating, if it is given, the rank, the separator; if the first separator of the line is a
    comma, the separator comes before the rank.  A rating made up by --add-scores comes last. *)
Definition comma_first (prefstr : str) : Prop := exists ds, delims false prefstr = ch_comma :: ds.
Definition abif_order (add_scores : bool) (prefstr : str) (o : list thing) : Prop :=
  (~ comma_first prefstr /\ o = [TheRating; TheRank; TheNext]) \/ (comma_first prefstr /\ o = [TheRating; TheNext; TheRank]) \/
  (add_scores = true /\ ~ comma_first prefstr /\ o = [TheRank; TheNext; TheRating]) \/ (add_scores = true /\ comma_first prefstr /\ o = [TheNext; TheRank; TheRating]).
(** A text, or null. *)
Definition or_null (o : option str) : json := match o with Some s => JStr s | None => JNull end.
(** A voteline of an ABIF file: quantity, comment (null if there is none), preferences, their text, and the voter if one is named. *)
Definition abif_line (add_scores : bool) (j : json) (v : voteline) : Prop := exists ps prefstr,
  j = JObj ([(u "qty", JInt (v_qty v)); (u "comment", or_null (v_comment v)); (u "prefs", JObj ps); (u "prefstr", JStr (rstrip prefstr))]
            ++ match v_voterid v with Some i => [(u "voterid", JStr i)] | None => [] end) /\
  v_prefstr v = Some (rstrip prefstr) /\ v_nameq v = None /\ candidates_shown (abif_order add_scores prefstr) ps (v_prefs v).
(** The names of the candidates. *)
Definition names_of (m : jabmod) : json := JObj (map (fun kv => (fst kv, JStr (snd kv))) (j_candidates m)).
(** The object made from an ABIF file: candidates, metadata, votelines, in this order. *)
Definition abif_object (add_scores : bool) (j : json) (m : jabmod) : Prop := exists vs,
  j = JObj [(u "candidates", names_of m); (u "metadata", JObj (j_metadata m)); (u "votelines", JArr vs)] /\ Forall2 (abif_line add_scores) vs (j_votelines m).
(** A voteline read from a nameq file. *)
Definition nameq_object (j : json) (m : jabmod) : Prop :=
  j = JObj [(u "metadata", JObj (j_metadata m)); (u "candidates", names_of m);
            (u "votelines", JArr (map (fun v => JObj [(u "qty", JInt 1); (u "prefs", JObj (map (fun cp => (fst cp, JObj (arranged [TheRank] (snd cp)))) (v_prefs v))); (u "nameq", or_null (v_nameq v))]) (j_votelines m)))].
(** Any voteline whose candidates have no other keys, and no nulls, in any order. *)
Definition any_order (o : list thing) : Prop := Permutation o [TheRank; TheRating; TheNext].
Definition plain_line (j : json) (v : voteline) : Prop := exists l ps, j = JObj l /\ dget (u "qty") l = Some (JInt (v_qty v)) /\ dget (u "prefs") l = Some (JObj ps) /\ candidates_shown any_order ps (v_prefs v).
(** A merged voteline: the preferences of the first of its lines, as they are there, and the sum. *)
Definition merged_line (j : json) (v : voteline) : Prop := exists ps, j = JObj [(u "prefs", JObj ps); (u "qty", JInt (v_qty v))] /\ candidates_shown any_order ps (v_prefs v) /\ v = vl (v_qty v) (v_prefs v).
(** Two results: the same failure, or values that R relates. *)
Definition same_result {A B} (R : A -> B -> Prop) (x : result A) (y : result B) : Prop :=
  match x, y with Ok a, Ok b => R a b | Err e, Err e' => e = e' | _, _ => False end.

(** ** Relations through the error monad *)
Lemma sr_bind {A B A' B'} (R : A -> B -> Prop) (R' : A' -> B' -> Prop) x y f g : same_result R x y -> (forall a b, R a b -> same_result R' (f a) (g b)) -> same_result R' (bind x f) (bind y g).
Proof. destruct x, y; cbn; intros H G; try contradiction; [exact (G _ _ H)|exact H]. Qed.
Lemma sr_refl {A} (x : result A) : same_result eq x x.
Proof. destruct x; reflexivity. Qed.
Lemma sr_mapM {A B A' B'} (R : A -> B -> Prop) (R' : A' -> B' -> Prop) f g l l' : Forall2 R l l' -> (forall a b, R a b -> same_result R' (f a) (g b)) -> same_result (Forall2 R') (mapM f l) (mapM g l').
Proof.
  intros H G. induction H as [|a b l l' Hab H IH]; [constructor|]. cbn [mapM]. apply (sr_bind R'); [apply G, Hab|]. intros a' b' H'. apply (sr_bind (Forall2 R')); [exact IH|]. intros ys zs Hy. constructor; assumption.
Qed.
Lemma sr_foldM {X S S'} (R : S -> S' -> Prop) f g (l : list X) : (forall s s' x, R s s' -> same_result R (f s x) (g s' x)) -> forall s s', R s s' -> same_result R (foldM f l s) (foldM g l s').
Proof. intro H. induction l as [|x l IH]; intros s s' Hs; [exact Hs|]. cbn [foldM]. apply (sr_bind R); [apply H, Hs|exact IH]. Qed.
Lemma Forall2_insert {A B} (R : A -> B -> Prop) la lb x y l l' : (forall a b a' b', R a b -> R a' b' -> la a a' = lb b b') -> R x y -> Forall2 R l l' -> Forall2 R (insert_by la x l) (insert_by lb y l').
Proof.
  intros H Hx F. induction F as [|a b l l' Hab F IH]; cbn [insert_by]; [constructor; [exact Hx|constructor]|]. rewrite (H x y a b Hx Hab). destruct (lb y b); repeat (constructor; try assumption).
Qed.
Lemma Forall2_sort {A B} (R : A -> B -> Prop) la lb l l' : (forall a b a' b', R a b -> R a' b' -> la a a' = lb b b') -> Forall2 R l l' -> Forall2 R (sort_by la l) (sort_by lb l').
Proof. intros H F. induction F as [|a b l l' Hab F IH]; [constructor|]. cbn [sort_by fold_right]. apply Forall2_insert; assumption. Qed.

Lemma same_length {A B} (R : A -> B -> Prop) l l' : Forall2 R l l' -> length l = length l'.
Proof. intro F. induction F; cbn [length]; congruence. Qed.

(** ** Dicts with related values *)
Definition rdict {A B} (R : A -> B -> Prop) (d : dict A) (e : dict B) : Prop := Forall2 (fun a b => fst a = fst b /\ R (snd a) (snd b)) d e.
Lemma rdict_get {A B} (R : A -> B -> Prop) d e k : rdict R d e -> match dget k d, dget k e with Some a, Some b => R a b | None, None => True | _, _ => False end.
Proof. intro F. induction F as [|[k1 a] [k2 b] d e (E&H) F IH]; [exact I|]. cbn [fst snd] in *. subst k2. cbn [dget]. destruct (str_eqb k k1); [exact H|exact IH]. Qed.
Lemma rdict_set {A B} (R : A -> B -> Prop) d e k a b : rdict R d e -> R a b -> rdict R (dset k a d) (dset k b e).
Proof.
  intros F Hab. induction F as [|[k1 x] [k2 y] d e (E&H) F IH]; cbn [dset]; [constructor; [split; [reflexivity|exact Hab]|constructor]|]. cbn [fst snd] in *. subst k2. destruct (str_eqb k k1); constructor; try (split; [reflexivity|assumption]); assumption.
Qed.
Lemma rdict_mod {A B} (R : A -> B -> Prop) f g d e k : rdict R d e -> (forall a b, R a b -> R (f a) (g b)) -> same_result (rdict R) (dmodE k f d) (dmodE k g e).
Proof.
  intros F H. unfold dmodE. pose proof (rdict_get R d e k F) as G. destruct (dget k d), (dget k e); try contradiction; [|reflexivity]. cbn. apply rdict_set; [exact F|]. apply H, G.
Qed.

(** ** One candidate *)
Definition order_of (rate : bool) : list thing := if rate then [TheRating; TheNext; TheRank] else [TheRating; TheRank; TheNext].
(** When the rank comes before the separator, it is there. *)
Definition laid (rate : bool) (d : obj) (p : pref) : Prop := d = arranged (order_of rate) p /\ (rate = false -> p_rank p <> None).
Lemma arranged_rank_rate p r : dset (u "rank") (JInt r) (arranged [TheRating; TheNext; TheRank] p) = arranged [TheRating; TheNext; TheRank] (set_rank r p).
Proof. destruct p as [[x|] [[g|g]|] [n|]]; reflexivity. Qed.
Lemma arranged_rank p r : p_nextdelim p = None \/ p_rank p <> None -> dset (u "rank") (JInt r) (arranged [TheRating; TheRank; TheNext] p) = arranged [TheRating; TheRank; TheNext] (set_rank r p).
Proof. destruct p as [[x|] [[g|g]|] [n|]]; cbn [p_nextdelim p_rank]; intros [H|H]; try discriminate H; try congruence; reflexivity. Qed.
Lemma arranged_next rate p c : (rate = false \/ p_rank p = None) -> dset (u "nextdelim") (JStr [c]) (arranged (order_of rate) p) = arranged (order_of rate) (set_nextdelim c p).
Proof. destruct p as [[x|] [[g|g]|] [n|]], rate; cbn [p_rank order_of]; intros [H|H]; try discriminate H; reflexivity. Qed.
Lemma any_order_cases o : any_order o -> In o [[TheRank; TheRating; TheNext]; [TheRank; TheNext; TheRating]; [TheRating; TheRank; TheNext]; [TheRating; TheNext; TheRank]; [TheNext; TheRank; TheRating]; [TheNext; TheRating; TheRank]].
Proof.
  intro P. pose proof (Permutation_length P) as L. apply Permutation_sym in P. assert (Nd : NoDup o) by (apply (Permutation_NoDup P); repeat constructor; cbn; intuition discriminate).
  destruct o as [|a [|b [|c [|]]]]; try discriminate L. inversion Nd as [|? ? N1 N2]; subst. inversion N2 as [|? ? N3 _]; subst. destruct a, b, c; cbn in N1, N3 |- *; tauto.
Qed.
Ltac orders H := apply any_order_cases in H; cbn [In] in H; repeat destruct H as [<-|H]; [..|destruct H].
Lemma arranged_rating o p : any_order o -> dget (u "rating") (arranged o p) = option_map json_of_rating (p_rating p).
Proof. intro H. orders H; destruct p as [[x|] [[g|g]|] [n|]]; reflexivity. Qed.
Lemma arranged_get_rank o p : any_order o -> dget (u "rank") (arranged o p) = option_map JInt (p_rank p).
Proof. intro H. orders H; destruct p as [[x|] [[g|g]|] [n|]]; reflexivity. Qed.
Lemma arranged_read o p : any_order o -> pref_of_json (JObj (arranged o p)) = Some p.
Proof. intro H. orders H; destruct p as [[x|] [[g|g]|] [n|]]; reflexivity. Qed.
Lemma arranged_sorted o p : any_order o -> sort_keys (JObj (arranged o p)) = WriterModel.pref_json p.
Proof. intro H. orders H; destruct p as [[x|] [[g|g]|] [n|]]; reflexivity. Qed.
Lemma order_any rate : any_order (order_of rate).
Proof.
  destruct rate; cbn [order_of]; unfold any_order.
  - apply (Permutation_trans (l' := [TheRating; TheRank; TheNext])); [apply perm_skip, perm_swap|apply perm_swap].
  - apply perm_swap.
Qed.
Lemma laid_rating rate d p : laid rate d p -> rating_or_0_obj d = rating_or_0 p /\ has_true_key "rating" d = match p_rating p with Some r => rating_truthy r | None => false end.
Proof.
  intros (->&_). unfold rating_or_0_obj, rating_or_0, has_true_key. rewrite arranged_rating by apply order_any. destruct (p_rating p) as [[z|x]|]; split; reflexivity.
Qed.
Lemma laid_rank rate d p : laid rate d p -> has_true_key "rank" d = match p_rank p with Some z => negb (z =? 0) | None => false end.
Proof. intros (->&_). unfold has_true_key. rewrite arranged_get_rank by apply order_any. destruct (p_rank p); reflexivity. Qed.
Lemma laid_set_rank rate d p r : laid rate d p -> laid rate (if has_true_key "rank" d then d else dset (u "rank") (JInt r) d) (match p_rank p with Some z => if z =? 0 then set_rank r p else p | None => set_rank r p end).
Proof.
  intro H. rewrite (laid_rank rate d p H). destruct H as (->&H).
  assert (G : laid rate (dset (u "rank") (JInt r) (arranged (order_of rate) p)) (set_rank r p)).
  { split; [|discriminate]. destruct rate; cbn [order_of] in *; [apply arranged_rank_rate|apply arranged_rank; right; apply H; reflexivity]. }
  destruct (p_rank p) as [z|] eqn:E; [|exact G]. destruct (z =? 0) eqn:Ez; [exact G|]. cbn [negb]. split; [reflexivity|]. intros _. rewrite E. discriminate.
Qed.

(** ** The preferences of a line *)
Lemma assign_sim rate cs : forall prev d e, rdict (laid rate) d e -> same_result (rdict (laid rate)) (assign_ranks_obj prev cs d) (assign_ranks prev cs e).
Proof.
  induction cs as [|[c z] cs IH]; intros prev d e H; [exact H|]. cbn [assign_ranks_obj assign_ranks]. apply (sr_bind eq); [apply sr_refl|]. intros r ? <-. apply (sr_bind (rdict (laid rate))); [|intros; apply IH; assumption].
  apply rdict_mod; [exact H|]. intros a b Hab. apply laid_set_rank, Hab.
Qed.
Lemma add_ranks_sim rate d e : rdict (laid rate) d e -> same_result (rdict (laid rate)) (add_ranks_obj d) (add_ranks_by_rating e).
Proof.
  intro H. unfold add_ranks_obj, add_ranks_by_rating. apply (sr_bind eq); [|intros k ? <-; apply assign_sim, H].
  assert (G : same_result (Forall2 eq) (mapM (fun kv => let* z := rating_or_0_obj (snd kv) in Ok (fst kv, z)) d) (mapM (fun kv => let* z := rating_or_0 (snd kv) in Ok (fst kv, z)) e)).
  { apply (sr_mapM _ _ _ _ _ _ H). intros [k a] [k' b] (Ek&Hab). cbn [fst snd] in *. subst k'. rewrite (proj1 (laid_rating rate a b Hab)). destruct (rating_or_0 b); reflexivity. }
  destruct (mapM _ d), (mapM _ e); cbn in *; try contradiction; [|exact G]. induction G as [|x y l l' Exy _ IH]; [reflexivity|]. subst. reflexivity.
Qed.
Definition is_rate (mode : rankmode) : bool := match mode with MRate => true | _ => false end.
Definition part_done (rate : bool) (x : obj * Z) (y : pref * Z) : Prop := snd x = snd y /\ laid rate (fst x) (fst y) /\ (rate = true -> p_rank (fst y) = None).
Lemma loop_sim mode ds n cps : forall i rank d e, rdict (laid (is_rate mode)) d e -> same_result (rdict (laid (is_rate mode))) (prefs_loop_obj mode ds n i rank cps d) (prefs_loop mode ds n i rank cps e).
Proof.
  induction cps as [|[cand rating] cps IH]; intros i rank d e H; [exact H|]. cbn [prefs_loop_obj prefs_loop].
  set (p0 := match rating with Some rv => if rating_truthy rv then set_rating rv empty_pref else empty_pref | None => empty_pref end).
  set (d0 := match rating return obj with Some rv => if rating_truthy rv then dset (u "rating") (json_of_rating rv) [] else [] | None => [] end).
  assert (H0 : d0 = arranged (order_of (is_rate mode)) p0 /\ p_rank p0 = None /\ p_nextdelim p0 = None).
  { unfold d0, p0. destruct rating as [rv|]; [|destruct mode; auto]. destruct (rating_truthy rv); destruct rv, mode; auto. }
  clearbody p0 d0. destruct H0 as (E0&R0&N0). set (notlast := (i <? n - 1)%nat).
  apply (sr_bind (part_done (is_rate mode))).
  - assert (K : forall r, is_rate mode = false -> laid (is_rate mode) (dset (u "rank") (JInt r) d0) (set_rank r p0)).
    { intros r Em. rewrite Em in *. split; [|discriminate]. rewrite E0. apply arranged_rank. left. exact N0. }
    destruct mode; cbn [is_rate] in *.
    + destruct notlast; [|split; [reflexivity|]; split; [apply K; reflexivity|discriminate]]. destruct (nth_error ds i) as [c|]; cbn [of_option bind]; [|reflexivity]. destruct (N.eqb c ch_gt); cbn [same_result]; (split; [reflexivity|]); (split; [|discriminate]); cbn [fst]; [|apply K; reflexivity].
      destruct (K rank eq_refl) as (K1&_). rewrite K1. split; [|discriminate]. apply (arranged_next false). left. reflexivity.
    + split; [reflexivity|]. cbn [fst]. split; [split; [exact E0|discriminate]|auto].
    + split; [reflexivity|]. split; [apply K; reflexivity|discriminate].
  - intros [d1 r1] [p1 r1'] (Er&L1&N1). cbn [fst snd] in *. subst r1'.
    apply (sr_bind (laid (is_rate mode))).
    + destruct notlast; [|exact L1]. destruct (nth_error ds i) as [c|]; cbn [of_option bind]; [|reflexivity]. cbn [same_result]. destruct L1 as (->&L1). split; [|exact L1]. apply arranged_next. destruct (is_rate mode); auto.
    + intros d2 p2 L2. apply IH. apply rdict_set; [exact H|exact L2].
Qed.
Lemma parse_sim prefstr : same_result (fun x y => snd x = snd y /\ rdict (laid (is_rate (fst (rank_or_rate prefstr)))) (fst x) (fst y)) (parse_prefstr_obj prefstr) (parse_prefstr prefstr).
Proof.
  unfold parse_prefstr_obj, parse_prefstr. destruct (rank_or_rate prefstr) as [mode ds]. cbn [fst]. apply (sr_bind eq); [apply sr_refl|]. intros cps ? <-.
  apply (sr_bind (rdict (laid (is_rate mode)))); [apply loop_sim; constructor|]. intros d0 e0 H0. apply (sr_bind (rdict (laid (is_rate mode)))); [apply add_ranks_sim, H0|]. intros d1 e1 H1.
  destruct (map fst cps) as [|c0 keys]; [split; [reflexivity|constructor]|]. unfold dgetE. pose proof (rdict_get _ d1 e1 c0 H1) as G. destruct (dget c0 d1) as [d|], (dget c0 e1) as [p|]; try contradiction; [|reflexivity]. cbn [of_option bind].
  rewrite (proj2 (laid_rating _ _ _ G)), (laid_rank _ _ _ G). destruct (_ && _); [|split; [reflexivity|exact H1]]. apply (sr_bind (rdict (laid (is_rate mode)))); [apply add_ranks_sim, H1|]. intros d2 e2 H2. split; [reflexivity|exact H2].
Qed.
Lemma rate_comma prefstr : is_rate (fst (rank_or_rate prefstr)) = true <-> comma_first prefstr.
Proof.
  unfold rank_or_rate, comma_first. destruct (delims false prefstr) as [|d ds]; cbn [fst is_rate]; [split; [discriminate|intros (x&E); discriminate E]|]. destruct (N.eqb_spec d ch_comma) as [->|N]; cbn [is_rate]; split; try discriminate; eauto. intros (x&E). congruence.
Qed.
Lemma laid_shown add prefstr prefs ps : rdict (laid (is_rate (fst (rank_or_rate prefstr)))) prefs ps -> candidates_shown (abif_order add prefstr) (map (fun cd => (fst cd, JObj (snd cd))) prefs) ps.
Proof.
  intro H. unfold candidates_shown. induction H as [|[c d] [c' p] l l' (E&H) _ IH]; cbn [map]; constructor; [|exact IH]. cbn [fst snd] in *. split; [exact E|]. destruct H as (->&_). exists (order_of (is_rate (fst (rank_or_rate prefstr)))). split; [|reflexivity].
  pose proof (rate_comma prefstr) as K. destruct (is_rate _); cbn [order_of]; [right; left; split; [apply K; reflexivity|reflexivity]|left; split; [|reflexivity]]. intro C. apply K in C. discriminate C.
Qed.

(** ** The file *)
Definition st_rel (st : objstate) (m : jabmod) : Prop := j_metadata (fst st) = j_metadata m /\ j_candidates (fst st) = j_candidates m /\ Forall2 (abif_line false) (snd st) (j_votelines m).
Lemma linepair_shown q c prefs ps prefstr i : rdict (laid (is_rate (fst (rank_or_rate prefstr)))) prefs ps -> abif_line false (linepair q c prefs (rstrip prefstr) i) (Voteline q ps c (Some (rstrip prefstr)) i None).
Proof.
  intro H. exists (map (fun cd => (fst cd, JObj (snd cd))) prefs), prefstr. cbn [v_qty v_comment v_voterid v_prefs v_nameq v_prefstr]. split; [|split; [reflexivity|split; [reflexivity|apply laid_shown, H]]].
  unfold linepair, jobjs. destruct c, i; reflexivity.
Qed.
Lemma prefline_sim qty prefstr c st m : st_rel st m -> same_result st_rel (process_prefline_obj qty prefstr c st) (process_prefline qty prefstr c m).
Proof.
  destruct st as [m0 vls]. intros (E1&E2&F). cbn [fst snd] in *. unfold process_prefline_obj, process_prefline. rewrite E1, E2. apply (sr_bind eq); [apply sr_refl|]. intros q ? <-. apply (sr_bind eq); [apply sr_refl|]. intros bc ? <-. apply (sr_bind eq); [apply sr_refl|]. intros z ? <-.
  eapply sr_bind; [apply parse_sim|]. intros [d k] [e k'] (Ek&H). cbn [fst snd] in *. subst k'. cbn [same_result]. split; [reflexivity|]. split; [reflexivity|]. cbn [snd j_votelines]. apply Forall2_app; [exact F|]. constructor; [|constructor]. apply linepair_shown, H.
Qed.
Lemma line_sim cw sc st m il : st_rel st m -> same_result st_rel (process_line_obj cw sc st il) (process_line cw sc m il).
Proof.
  destruct il as [i l]. destruct st as [m0 vls]. intro H. unfold process_line_obj, process_line. destruct (strip_comment _) as [body c].
  apply (sr_bind (fun a b => st_rel (a, vls) b)).
  - destruct H as (E1&E2&F). cbn [fst snd] in *. unfold process_comment. rewrite E1, E2. destruct c as [[|x c]|]; [repeat split; assumption| |repeat split; assumption]. destruct sc; [|repeat split; assumption]. destruct (dget k_comments (j_metadata m)) as [[]|]; try reflexivity; (split; [reflexivity|]; split; [reflexivity|exact F]).
  - intros m1 m1' (E1&E2&F). cbn [fst snd] in *. destruct (re_match CANDLINE_REGEX body) as [[g r]|]; [unfold process_candline; rewrite E1, E2; repeat split; exact F|]. destruct (re_match METADATA_REGEX body) as [[g r]|]; [unfold process_metadata; rewrite E1, E2; repeat split; exact F|].
    destruct (re_match VOTELINE_REGEX body) as [[g r]|]; [apply prefline_sim; repeat split; assumption|repeat split; assumption].
Qed.

(** ** --add-scores *)
Lemma abif_order_any add prefstr o : abif_order add prefstr o -> any_order o.
Proof.
  unfold any_order. intros [(_&->)|[(_&->)|[(_&_&->)|(_&_&->)]]].
  - apply perm_swap.
  - exact (order_any true).
  - apply perm_skip, perm_swap.
  - apply (Permutation_trans (l' := [TheRank; TheNext; TheRating])); [apply perm_swap|apply perm_skip, perm_swap].
Qed.
Lemma shown_weaken (R R' : list thing -> Prop) ps prefs : (forall o, R o -> R' o) -> candidates_shown R ps prefs -> candidates_shown R' ps prefs.
Proof. intros H F. unfold candidates_shown in *. induction F as [|a b l l' (E&o&Ho&Eo) _ IH]; constructor; [|exact IH]. split; [exact E|]. exists o. auto. Qed.
Lemma line_items_abif add j v : abif_line add j v -> exists ps, line_items j = Ok ps /\ exists prefstr, candidates_shown (abif_order add prefstr) ps (v_prefs v).
Proof. intros (ps&prefstr&->&_&_&F). exists ps. split; [destruct (v_voterid v); reflexivity|eauto]. Qed.
Lemma order_add prefstr o : abif_order false prefstr o -> abif_order true prefstr o /\ (forall p r, p_rating p = None -> exists o', abif_order true prefstr o' /\ dset (u "rating") (JInt r) (arranged o p) = arranged o' (set_rating (RInt r) p)) /\
  (forall p r, p_rating p <> None -> dset (u "rating") (JInt r) (arranged o p) = arranged o (set_rating (RInt r) p)).
Proof.
  unfold abif_order. intros [(C&->)|[(C&->)|[(E&_)|(E&_)]]]; try discriminate E.
  - split; [auto|]. split; intros [[x|] [[g|g]|] [n|]] r H; cbn [p_rating] in H; try discriminate H; try congruence; try (exists [TheRank; TheNext; TheRating]; split; [auto 10|reflexivity]); reflexivity.
  - split; [auto|]. split; intros [[x|] [[g|g]|] [n|]] r H; cbn [p_rating] in H; try discriminate H; try congruence; try (exists [TheNext; TheRank; TheRating]; split; [auto 10|reflexivity]); reflexivity.
Qed.
Lemma add_rating_sim prefstr has n o p : abif_order false prefstr o ->
  same_result (fun x y => snd x = snd y /\ exists o', abif_order true prefstr o' /\ fst x = JObj (arranged o' (fst y))) (add_rating_obj has n (JObj (arranged o p))) (add_rating_pref has true n p).
Proof.
  intro Ho. pose proof (abif_order_any _ _ _ Ho) as Ha. destruct (order_add prefstr o Ho) as (A1&A2&A3). unfold add_rating_obj, add_rating_pref. cbn [jitems bind].
  assert (T : has_true_key "rating" (arranged o p) = match p_rating p with Some r => rating_truthy r | None => false end) by (unfold has_true_key; rewrite (arranged_rating o p Ha); destruct (p_rating p) as [[]|]; reflexivity).
  rewrite T. destruct (match p_rating p with Some r => rating_truthy r | None => false end); [split; [reflexivity|]; exists o; auto|].
  assert (S : forall r, exists o', abif_order true prefstr o' /\ dset (u "rating") (JInt r) (arranged o p) = arranged o' (set_rating (RInt r) p)).
  { intro r. destruct (p_rating p) as [g|] eqn:E; [exists o; split; [exact A1|apply A3; rewrite E; discriminate]|apply A2; exact E]. }
  destruct has; [split; [reflexivity|]; destruct (S 0) as (o'&B1&B2); exists o'; split; [exact B1|]; cbn [fst]; rewrite B2; reflexivity|].
  unfold jitem, dgetE. rewrite (arranged_get_rank o p Ha). destruct (p_rank p) as [r|]; cbn [option_map of_option bind]; [|reflexivity]. split; [reflexivity|]. destruct (S (n - r)) as (o'&B1&B2). exists o'. split; [exact B1|]. cbn [fst]. rewrite B2. reflexivity.
Qed.
Lemma has_rating_sim vls vs : Forall2 (abif_line false) vls vs -> exists items, mapM line_items vls = Ok items /\ existsb (fun ps => existsb (fun cj => entry_rated (snd cj)) ps) items = existsb (fun l => existsb (fun kv => match p_rating (snd kv) with Some _ => true | None => false end) (v_prefs l)) vs.
Proof.
  intro F. induction F as [|j v vls vs H F (items&E1&E2)]; [exists []; split; reflexivity|]. destruct (line_items_abif _ _ _ H) as (ps&El&prefstr&Fp). exists (ps :: items). split; [cbn [mapM]; rewrite El, E1; reflexivity|]. cbn [existsb]. rewrite E2. f_equal.
  clear -Fp. induction Fp as [|[c x] [c' p] l l' (_&o&Ho&E) _ IH]; [reflexivity|]. cbn [existsb snd] in *. rewrite IH. f_equal. subst x. cbn [entry_rated]. unfold dmem. rewrite (arranged_rating o p (abif_order_any _ _ _ Ho)). destruct (p_rating p); reflexivity.
Qed.
Lemma put_prefs v ps ps' prefstr : put_item (JObj ([(u "qty", JInt (v_qty v)); (u "comment", or_null (v_comment v)); (u "prefs", JObj ps); (u "prefstr", JStr (rstrip prefstr))] ++ match v_voterid v with Some i => [(u "voterid", JStr i)] | None => [] end)) (u "prefs") (JObj ps') =
  Ok (JObj ([(u "qty", JInt (v_qty v)); (u "comment", or_null (v_comment v)); (u "prefs", JObj ps'); (u "prefstr", JStr (rstrip prefstr))] ++ match v_voterid v with Some i => [(u "voterid", JStr i)] | None => [] end)).
Proof. reflexivity. Qed.
Definition st_rel_add (add : bool) (st : objstate) (m : jabmod) : Prop := j_metadata (fst st) = j_metadata m /\ j_candidates (fst st) = j_candidates m /\ Forall2 (abif_line add) (snd st) (j_votelines m).
Lemma add_ratings_sim st m : st_rel st m -> same_result (st_rel_add true) (add_ratings_obj (fst st) (snd st)) (add_ratings_to_votelines m true).
Proof.
  destruct st as [m0 vls]. intros (E1&E2&F). cbn [fst snd] in *. unfold add_ratings_obj, add_ratings_to_votelines, inmod_has_rating. destruct (has_rating_sim vls _ F) as (items&G1&G2). rewrite G1. cbn [bind]. rewrite G2, E1, E2.
  set (hasr := existsb _ (j_votelines m)). set (n := Z.of_nat _).
  apply (sr_bind (Forall2 (fun x y => snd x = snd y /\ abif_line true (fst x) (fst y)))).
  - apply (sr_mapM _ _ _ _ _ _ F). intros j v H. destruct (line_items_abif _ _ _ H) as (ps0&El&_). destruct H as (ps&prefstr&->&Hp&Hn&Fp). replace (line_items _) with (@Ok (dict json) ps) by (destruct (v_voterid v); reflexivity). cbn [bind]. clear El ps0.
    apply (sr_bind (Forall2 (fun cr cp => fst cr = fst cp /\ snd (snd cr) = snd (snd cp) /\ exists o', abif_order true prefstr o' /\ fst (snd cr) = JObj (arranged o' (fst (snd cp)))))).
    + apply (sr_mapM _ _ _ _ _ _ Fp). intros [c x] [c' p] (Ec&o&Ho&Ex). cbn [fst snd] in *. subst c' x. eapply sr_bind; [apply (add_rating_sim prefstr hasr n o p Ho)|]. intros [x b] [y b'] (Eb&Hx). cbn [fst snd] in *. split; [reflexivity|]. split; [exact Eb|exact Hx].
    + intros rs qs Fr. rewrite put_prefs. cbn [bind same_result fst snd]. split.
      * clear -Fr. induction Fr as [|x y l l' (_&E&_) _ IH]; [reflexivity|]. cbn [existsb]. rewrite E, IH. reflexivity.
      * exists (map (fun cr => (fst cr, fst (snd cr))) rs), prefstr. split; [reflexivity|]. split; [exact Hp|]. split; [exact Hn|]. cbn [with_prefs v_prefs]. clear -Fr. induction Fr as [|x y l l' (Ec&_&o'&Ho&Ex) _ IH]; cbn [map]; constructor; [|exact IH]. cbn [fst snd]. split; [exact Ec|]. exists o'. split; assumption.
  - intros out out' Fo. cbn [same_result]. unfold st_rel_add. cbn [fst snd j_metadata j_candidates j_votelines]. split; [|split; [reflexivity|]].
    + replace (existsb snd out) with (existsb snd out'); [reflexivity|]. clear -Fo. induction Fo as [|x y l l' (E&_) _ IH]; [reflexivity|]. cbn [existsb]. rewrite E, IH. reflexivity.
    + clear -Fo. induction Fo as [|x y l l' (_&E) _ IH]; cbn [map]; constructor; assumption.
Qed.
Lemma abif_qty add j v : abif_line add j v -> jitem j (u "qty") = Ok (JInt (v_qty v)).
Proof. intros (ps&prefstr&->&_). reflexivity. Qed.
Lemma abif_line_weaken j v : abif_line false j v -> abif_line true j v.
Proof. intros (ps&prefstr&E&H1&H2&F). exists ps, prefstr. split; [exact E|]. split; [exact H1|]. split; [exact H2|]. apply (shown_weaken (abif_order false prefstr)); [|exact F]. intros o Ho. apply (order_add prefstr o Ho). Qed.
Lemma finish_sim add st m : st_rel_add add st m ->
  same_result (abif_object add) (let* keyed := mapM (fun v => let* q := jitem v (u "qty") in let* z := json_number q in Ok (z, v)) (snd st) in Ok (emptyish_object (j_metadata (fst st)) (map (fun kv => (fst kv, JStr (snd kv))) (j_candidates (fst st))) (map snd (sort_desc fst keyed))))
    (Ok (Jabmod (j_metadata m) (j_candidates m) (sort_desc v_qty (j_votelines m)))).
Proof.
  destruct st as [m0 vls]. intros (E1&E2&F). cbn [fst snd] in *. rewrite E1, E2.
  assert (K : exists keyed, mapM (fun v => let* q := jitem v (u "qty") in let* z := json_number q in Ok (z, v)) vls = Ok keyed /\ Forall2 (fun zj v => fst zj = v_qty v /\ abif_line add (snd zj) v) keyed (j_votelines m)).
  { induction F as [|j v l l' H F (keyed&G1&G2)]; [exists []; split; [reflexivity|constructor]|]. exists ((v_qty v, j) :: keyed). split; [cbn [mapM]; rewrite (abif_qty _ _ _ H), G1; reflexivity|]. constructor; [split; [reflexivity|exact H]|exact G2]. }
  destruct K as (keyed&K1&K2). rewrite K1. cbn [bind same_result]. exists (map snd (sort_desc fst keyed)). split; [reflexivity|]. cbn [j_votelines].
  assert (S : Forall2 (fun zj v => fst zj = v_qty v /\ abif_line add (snd zj) v) (sort_desc fst keyed) (sort_desc v_qty (j_votelines m))).
  { unfold sort_desc. apply Forall2_sort; [|exact K2]. intros a b a' b' (Q1&_) (Q2&_). rewrite Q1, Q2. reflexivity. }
  clear -S. induction S as [|x y l l' (_&E) _ IH]; cbn [map]; constructor; assumption.
Qed.
Lemma convert_sim t cw add sc : same_result (abif_object add) (convert_abif_obj t cw add sc) (convert_abif_to_jabmod t cw add sc).
Proof.
  unfold convert_abif_obj, convert_abif_to_jabmod. destruct t as [|c t]; [reflexivity|]. apply (sr_bind st_rel).
  - apply sr_foldM; [intros; apply line_sim; assumption|]. split; [reflexivity|]. split; [reflexivity|constructor].
  - intros st m H. pose proof H as (_&_&F).
    destruct (snd st) as [|j l] eqn:Es, (j_votelines m) as [|v l'] eqn:Ev; [reflexivity|inversion F|inversion F|]. rewrite <- Es. clear F.
    apply (sr_bind (st_rel_add add)); [|intros; apply finish_sim; assumption]. destruct add; [apply add_ratings_sim, H|exact H].
Qed.

(** ** Reading the object *)
Lemma shown_read (R : list thing -> Prop) ps prefs : (forall o, R o -> any_order o) -> candidates_shown R ps prefs -> mapO (entry pref_of_json) ps = Some prefs.
Proof.
  intros HR F. induction F as [|[c j] [c' p] l l' (E&o&Ho&Ej) _ IH]; [reflexivity|]. cbn [fst snd] in *. subst c' j. cbn [mapO]. unfold entry at 1. cbn [fst snd]. rewrite (arranged_read o p (HR o Ho)), IH. reflexivity.
Qed.
Lemma abif_line_read add j v : abif_line add j v -> voteline_of_json j = Some v.
Proof.
  intros (ps&prefstr&->&Hp&Hn&F). apply shown_read in F; [|apply abif_order_any]. destruct v as [q prefs c p i n]. cbn [v_qty v_comment v_voterid v_prefs v_nameq v_prefstr] in *. subst p n.
  destruct c as [c|], i as [i|]; match goal with |- _ = Some (Voteline _ _ ?a ?b ?d ?e) => change (match mapO (entry pref_of_json) ps with Some prefs => Some (Voteline q prefs a b d e) | None => None end = Some (Voteline q prefs a b d e)) end; rewrite F; reflexivity.
Qed.
Lemma lines_read (R : json -> voteline -> Prop) vs l : (forall j v, R j v -> voteline_of_json j = Some v) -> Forall2 R vs l -> mapO voteline_of_json vs = Some l.
Proof. intros H F. induction F as [|j v vs l Hj _ IH]; [reflexivity|]. cbn [mapO]. rewrite (H j v Hj), IH. reflexivity. Qed.
Lemma abif_line_plain add j v : abif_line add j v -> plain_line j v.
Proof.
  intros (ps&prefstr&->&_&_&F). eexists. exists ps. split; [reflexivity|]. split; [reflexivity|]. split; [destruct (v_voterid v); reflexivity|]. apply (shown_weaken (abif_order add prefstr)); [apply abif_order_any|exact F].
Qed.

(** ** Consolidation *)
Lemma shown_keys R ps prefs : candidates_shown R ps prefs -> map fst ps = map fst prefs.
Proof. intro F. induction F as [|a b l l' (E&_) _ IH]; [reflexivity|]. cbn [map]. rewrite E, IH. reflexivity. Qed.
Lemma insert_map {A B} (f : A -> B) la lb x l : (forall a b, la a b = lb (f a) (f b)) -> insert_by lb (f x) (map f l) = map f (insert_by la x l).
Proof. intro H. induction l as [|y l IH]; [reflexivity|]. cbn [map insert_by]. rewrite <- H. destruct (la x y); [reflexivity|]. cbn [map]. rewrite IH. reflexivity. Qed.
Lemma sort_map {A B} (f : A -> B) la lb l : (forall a b, la a b = lb (f a) (f b)) -> sort_by lb (map f l) = map f (sort_by la l).
Proof. intro H. induction l as [|y l IH]; [reflexivity|]. cbn [map sort_by fold_right]. change (insert_by lb (f y) (sort_by lb (map f l)) = map f (insert_by la y (sort_by la l))). rewrite IH. apply insert_map, H. Qed.
Lemma shown_key ps prefs : candidates_shown any_order ps prefs -> json_dumps (sort_keys (JObj ps)) = prefs_key prefs.
Proof.
  intro F. unfold prefs_key. f_equal. change (sort_keys (JObj ps)) with (JObj (sort_by (fun a b : str * json => str_leb (fst a) (fst b)) (map (fun kv => (fst kv, sort_keys (snd kv))) ps))). f_equal.
  assert (E : map (fun kv => (fst kv, sort_keys (snd kv))) ps = map (fun kv => (fst kv, WriterModel.pref_json (snd kv))) prefs).
  { induction F as [|[c j] [c' p] l l' (E&o&Ho&Ej) _ IH]; [reflexivity|]. cbn [fst snd map] in *. subst c' j. rewrite IH, (arranged_sorted o p Ho). reflexivity. }
  rewrite E. apply (sort_map (fun kv => (fst kv, WriterModel.pref_json (snd kv)))). reflexivity.
Qed.
Definition merged_obj (d : obj) (v : voteline) : Prop := merged_line (JObj d) v.
Lemma dset_same_get {V} k (d : dict V) v : dget k (dset k v d) = Some v.
Proof. rewrite dget_dset, str_eqb_refl. reflexivity. Qed.
Lemma merge_step acc d j v : rdict merged_obj acc d -> plain_line j v -> same_result (rdict merged_obj) (consolidate_obj_step acc j) (Ok (consolidate_step d v)).
Proof.
  intros H (l&ps&->&Q&P&F). unfold consolidate_obj_step, consolidate_step. cbn [jitem]. unfold dgetE at 1. rewrite P. cbn [of_option bind]. rewrite (shown_key ps _ F). set (k := prefs_key (v_prefs v)).
  assert (H1 : rdict merged_obj (if dmem k acc then acc else dset k [(u "prefs", JObj ps); (u "qty", JInt 0)] acc) (if dmem k d then d else dset k (vl 0 (v_prefs v)) d)).
  { pose proof (rdict_get merged_obj acc d k H) as G. unfold dmem. destruct (dget k acc), (dget k d); try contradiction; [exact H|]. apply rdict_set; [exact H|]. exists ps. split; [reflexivity|]. split; [exact F|reflexivity]. }
  assert (S1 : dget k (if dmem k d then d else dset k (vl 0 (v_prefs v)) d) <> None).
  { unfold dmem. destruct (dget k d) eqn:E; [rewrite E; discriminate|rewrite dset_same_get; discriminate]. }
  set (acc1 := if dmem k acc then acc else _) in *. set (d1 := if dmem k d then d else _) in *. clearbody acc1 d1.
  pose proof (rdict_get merged_obj acc1 d1 k H1) as G. unfold dgetE at 1. destruct (dget k acc1) as [w|], (dget k d1) as [x|]; try contradiction. cbn [of_option bind].
  destruct G as (ps'&E&F'&Ex). injection E as ->. unfold dgetE. replace (dget (u "qty") [(u "prefs", JObj ps'); (u "qty", JInt (v_qty x))]) with (Some (JInt (v_qty x))) by reflexivity. cbn [of_option bind json_number]. rewrite Q. cbn [of_option bind json_number same_result].
  apply rdict_set; [exact H1|]. exists ps'. cbn [with_qty v_qty v_prefs]. split; [reflexivity|]. split; [exact F'|]. rewrite Ex. reflexivity.
Qed.
Lemma merge_fold vs l : Forall2 plain_line vs l -> forall acc d, rdict merged_obj acc d -> same_result (rdict merged_obj) (foldM consolidate_obj_step vs acc) (Ok (fold_left consolidate_step l d)).
Proof.
  intro F. induction F as [|j v vs l Hj F IH]; intros acc d H; [exact H|]. cbn [foldM fold_left]. pose proof (merge_step acc d j v H Hj) as G. destruct (consolidate_obj_step acc j) as [acc'|e]; [|destruct G]. cbn [bind]. apply IH, G.
Qed.
(** A jabmod object whose votelines are plain is merged like the record, and only its votelines change. *)
Lemma consolidate_object j l vs m : j = JObj l -> dget (u "votelines") l = Some (JArr vs) -> Forall2 plain_line vs (j_votelines m) ->
  exists vs', consolidate_obj j = Ok (JObj (dset (u "votelines") (JArr vs') l)) /\ Forall2 merged_line vs' (j_votelines (consolidate m)).
Proof.
  intros -> E F. unfold consolidate_obj. cbn [jitem]. unfold dgetE. rewrite E. cbn [of_option bind jiter]. pose proof (merge_fold vs _ F [] [] ltac:(constructor)) as G. destruct (foldM consolidate_obj_step vs []) as [acc|e]; [|destruct G]. cbn [bind put_item].
  exists (map (fun kd => JObj (snd kd)) acc). split; [reflexivity|]. cbn [consolidate j_votelines]. cbn [same_result] in G. induction G as [|a b acc d (_&H) _ IH]; cbn [map]; constructor; [exact H|exact IH].
Qed.
Lemma merged_line_read j v : merged_line j v -> voteline_of_json j = Some v.
Proof.
  intros (ps&->&F&E). apply shown_read in F; [|auto]. rewrite E. change (match mapO (entry pref_of_json) ps with Some prefs => Some (Voteline (v_qty v) prefs None None None None) | None => None end = Some (vl (v_qty v) (v_prefs v))). rewrite F. reflexivity.
Qed.

(** ** nameq *)
Lemma ranks_only prefs : forall l, rdict (fun (d : obj) p => exists r, d = [(u "rank", JInt r)] /\ p = ranked r) l prefs -> map (fun cd => (fst cd, JObj (snd cd))) l = map (fun cp => (fst cp, JObj (arranged [TheRank] (snd cp)))) prefs.
Proof. intros l F. induction F as [|[c d] [c' p] l prefs (E&r&E1&E2) _ IH]; [reflexivity|]. cbn [fst snd map] in *. subst. rewrite IH. reflexivity. Qed.
Definition nq_line (j : json * list str) (v : voteline) : Prop :=
  fst j = JObj [(u "qty", JInt 1); (u "prefs", JObj (map (fun cp => (fst cp, JObj (arranged [TheRank] (snd cp)))) (v_prefs v))); (u "nameq", or_null (v_nameq v))] /\ snd j = map fst (v_prefs v).
Lemma nameq_line_sim line : same_result nq_line (nameq_line_obj line) (nameq_line line).
Proof.
  assert (G : same_result (rdict (fun (d : obj) p => exists r, d = [(u "rank", JInt r)] /\ p = ranked r))
    (foldM (fun d kv => let* r := match snd kv with v0 :: _ => py_int v0 | [] => Err IndexError end in Ok (dset (fst kv) (dset (u "rank") (JInt r) []) d)) (parse_qs (strip line)) [])
    (foldM (fun d kv => let* r := match snd kv with v0 :: _ => py_int v0 | [] => Err IndexError end in Ok (dset (fst kv) (ranked r) d)) (parse_qs (strip line)) [])).
  { apply sr_foldM; [|constructor]. intros d e [k vs] H. apply (sr_bind eq); [apply sr_refl|]. intros r ? <-. cbn [same_result]. apply rdict_set; [exact H|]. exists r. split; reflexivity. }
  unfold nameq_line_obj. pose proof (nameq_line_shape line) as Sh. unfold nameq_line in *. cbv zeta in *.
  destruct (foldM (fun d kv => let* r := match snd kv with v0 :: _ => py_int v0 | [] => Err IndexError end in Ok (dset (fst kv) (dset (u "rank") (JInt r) []) d)) (parse_qs (strip line)) []) as [l|e],
    (foldM (fun d kv => let* r := match snd kv with v0 :: _ => py_int v0 | [] => Err IndexError end in Ok (dset (fst kv) (ranked r) d)) (parse_qs (strip line)) []) as [prefs|e']; cbn [same_result bind] in *; try contradiction; [|exact G].
  split; cbn [fst snd v_prefs v_nameq or_null]; [unfold jobjs; rewrite (ranks_only prefs l G); reflexivity|]. destruct (Sh _ eq_refl) as (_&_&_&E). symmetry. exact E.
Qed.
Lemma names_map ks : forall (t : dict str), fold_left (fun (t : dict json) k => dset k (JStr k) t) ks (map (fun kv => (fst kv, JStr (snd kv))) t) = map (fun kv => (fst kv, JStr (snd kv))) (fold_left (fun t k => dset k k t) ks t).
Proof.
  assert (D : forall k (t : dict str), dset k (JStr k) (map (fun kv => (fst kv, JStr (snd kv))) t) = map (fun kv => (fst kv, JStr (snd kv))) (dset k k t)).
  { intros k t. induction t as [|[k' v] t IH]; [reflexivity|]. cbn [map dset fst snd]. destruct (str_eqb k k'); [reflexivity|]. cbn [map fst snd]. rewrite IH. reflexivity. }
  induction ks as [|k ks IH]; intro t; [reflexivity|]. cbn [fold_left]. rewrite D. apply IH.
Qed.
Lemma nameq_sim t : same_result nameq_object (convert_nameq_obj t) (convert_nameq_to_jabmod t).
Proof.
  unfold convert_nameq_obj, convert_nameq_to_jabmod. apply (sr_bind (Forall2 nq_line)).
  - apply (sr_mapM eq); [induction (splitlines t); constructor; auto|]. intros l ? <-. apply nameq_line_sim.
  - intros l vs F. cbn [same_result]. unfold nameq_object, names_of. cbn [j_metadata j_candidates j_votelines]. rewrite (same_length _ _ _ F). f_equal. change (dset k_ballotcount (JInt (Z.of_nat (length vs))) (dset (u "version") (JStr (u "0.1")) [])) with [(u "version", JStr (u "0.1")); (k_ballotcount, JInt (Z.of_nat (length vs)))]. f_equal. f_equal; [|f_equal].
    + f_equal. f_equal. assert (G : forall (c : dict str), fold_left (fun t l => fold_left (fun t k => dset k (JStr k) t) (snd l) t) l (map (fun kv => (fst kv, JStr (snd kv))) c) = map (fun kv => (fst kv, JStr (snd kv))) (fold_left (fun t v => fold_left (fun t k => dset k k t) (map fst (v_prefs v)) t) vs c)).
      { clear -F. induction F as [|[j ks] v l vs (_&E) _ IH]; intro c; [reflexivity|]. cbn [fold_left snd] in *. rewrite E, names_map. apply IH. }
      exact (G []).
    + f_equal. f_equal. clear -F. induction F as [|[j ks] v l vs (E&_) _ IH]; [reflexivity|]. cbn [map fst] in *. rewrite E, IH. reflexivity.
Qed.

(** ** San Francisco files *)
Definition rank_entry (d : obj) (p : pref) : Prop := exists r, d = [(u "rank", JInt r)] /\ p = ranked r.
Lemma ballot_sim b : same_result plain_line (ballot_obj b) (ballot_voteline false b).
Proof.
  unfold ballot_obj, ballot_voteline. destruct (sb_votes b) as [votes|]; [|reflexivity]. cbn [of_option bind same_result].
  assert (G : rdict rank_entry (fold_left prefs_step_obj votes []) (fold_left (prefs_step false) votes [])).
  { assert (X : forall l e, rdict rank_entry l e -> rdict rank_entry (fold_left prefs_step_obj votes l) (fold_left (prefs_step false) votes e)); [|apply X; constructor].
    induction votes as [|v votes IH]; intros l e H; [exact H|]. cbn [fold_left]. apply IH. unfold prefs_step_obj, prefs_step. rewrite orb_false_r. destruct (negb _); [|exact H]. apply rdict_set; [exact H|]. exists (sv_rank v). split; reflexivity. }
  eexists. exists (map (fun cd => (fst cd, JObj (snd cd))) (fold_left prefs_step_obj votes [])). split; [reflexivity|]. split; [reflexivity|]. split; [reflexivity|]. cbn [v_prefs]. induction G as [|[c d] [c' p] l e (E&r&E1&E2) _ IH]; cbn [map]; constructor; [|exact IH].
  cbn [fst snd] in *. split; [exact E|]. exists [TheRank; TheRating; TheNext]. split; [apply Permutation_refl|]. subst. reflexivity.
Qed.
(** The object made from San Francisco files: null for a candidate without a name. *)
Definition sf_object (j : json) (m : sf_jabmod) : Prop := exists vs,
  j = JObj [(u "candidates", JObj (map (fun kn => (fst kn, match snd kn with Some n => JStr n | None => JNull end)) (sf_candidates m))); (u "metadata", JObj (sf_metadata m)); (u "votelines", JArr vs)] /\ Forall2 merged_line vs (sf_votelines m).
Lemma sf_sim master ballots : same_result sf_object (convert_sftxt_obj master ballots) (convert_sftxt_to_jabmod master ballots false).
Proof.
  unfold convert_sftxt_obj, convert_sftxt_to_jabmod. apply (sr_bind eq); [apply sr_refl|]. intros ls ? <-. apply (sr_bind eq); [apply sr_refl|]. intros [pool contest] ? <-. apply (sr_bind eq); [apply sr_refl|]. intros recs ? <-.
  apply (sr_bind (Forall2 plain_line)); [apply (sr_mapM eq); [induction recs; constructor; auto|]; intros b ? <-; apply ballot_sim|]. intros vls vs F. cbv zeta. rewrite (same_length _ _ _ F).
  set (md := dset k_ballotcount _ _). set (cs := map _ (cand_table 0 pool [])). 
  destruct (consolidate_object (emptyish_object md cs vls) _ vls (Jabmod md [] vs) eq_refl eq_refl F) as (vs'&E&F'). rewrite E. cbn [same_result]. exists vs'. split; [reflexivity|exact F'].
Qed.
