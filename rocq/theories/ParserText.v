(** * ParserText: lemmas relating the readings of different texts *)

From Verif Require Import PyBase PyFacts Jabmod Regex RegexFacts WordTable ScoreModel ScoreFacts Spec ParserModel ParserSpec ParserFacts ParserPrefs ParserRender.
From Verif Require Import PairwiseModel PropsPairwise PropsScore ParserFile.
Local Open Scope Z_scope.

Definition map_res {A B} (f : A -> B) (r : result A) : result B :=
  match r with Ok a => Ok (f a) | Err e => Err e end.

(** The model without the comments (and voter ids) of its votelines. *)
Definition erase_line (l : voteline) : voteline := Voteline (v_qty l) (v_prefs l) None (v_prefstr l) None (v_nameq l).
Definition erase (m : jabmod) : jabmod := Jabmod (j_metadata m) (j_candidates m) (map erase_line (j_votelines m)).

Lemma erase_eq m m' : erase m = erase m' -> j_metadata m = j_metadata m' /\ j_candidates m = j_candidates m' /\
  map erase_line (j_votelines m) = map erase_line (j_votelines m').
Proof. destruct m, m'; unfold erase; cbn. intro H. injection H. auto. Qed.

Lemma process_comment_off m lc i : process_comment m lc i false = Ok m.
Proof. unfold process_comment. destruct lc as [[|]|]; reflexivity. Qed.

Lemma lstrip_before_hash l : before_hash (lstrip l) = lstrip (before_hash l).
Proof.
  induction l as [|c r IH]; [reflexivity|]. cbn [lstrip before_hash]. destruct (N.eqb_spec c 35) as [->|n].
  - change (is_space 35) with false. reflexivity.
  - cbn [lstrip]. destruct (is_space c); [exact IH|]. cbn [before_hash]. destruct (N.eqb_spec c 35); [congruence|reflexivity].
Qed.
Lemma norm_before_hash cw l : before_hash (norm cw l) = norm cw (before_hash l).
Proof. destruct cw; [apply lstrip_before_hash|reflexivity]. Qed.

Lemma other_line_erase s m m' : erase m = erase m' -> erase (other_line s m) = erase (other_line s m').
Proof.
  intro H. apply erase_eq in H as (H1&H2&H3). unfold other_line.
  destruct (re_match CANDLINE_REGEX s) as [[g s']|]; [unfold process_candline, erase; cbn; congruence|].
  destruct (re_match METADATA_REGEX s) as [[g s']|]; unfold process_metadata, erase; cbn; congruence.
Qed.

Lemma process_line_erase cw m m' i i' l l' : one_line l -> one_line l' -> before_hash l = before_hash l' -> erase m = erase m' ->
  map_res erase (process_line cw false m (i, l)) = map_res erase (process_line cw false m' (i', l')).
Proof.
  intros Hl Hl' Hb He. rewrite !process_line_eq, !process_comment_off by assumption. cbn [bind].
  rewrite !norm_before_hash, <- Hb. destruct (vote_parts (norm cw (before_hash l))) as [[ds rest]|].
  - apply erase_eq in He as (H1&H2&H3). unfold process_prefline. destruct (py_int ds) as [q|]; [|reflexivity]. cbn [bind]. rewrite H1.
    destruct (dgetE k_ballotcount (j_metadata m')) as [bc|]; [|reflexivity]. cbn [bind].
    destruct (match bc with JInt z => _ | _ => _ end) as [z|]; [|reflexivity]. cbn [bind].
    destruct (parse_prefstr rest) as [[prefs keys]|]; [|reflexivity]. cbn [bind map_res]. unfold erase. cbn [j_metadata j_candidates j_votelines].
    rewrite H2, !map_app, H3. reflexivity.
  - cbn [map_res]. f_equal. apply other_line_erase; exact He.
Qed.

(** Lines with nothing before their comment do nothing. *)
Definition nonblank (s : str) : bool := negb (forallb is_space s).

Lemma norm_blank cw s : forallb is_space s = true -> forallb is_space (norm cw s) = true.
Proof. intro H. destruct cw; [cbn; rewrite lstrip_blank by exact H; reflexivity|exact H]. Qed.

Lemma blank_line cw m i l : one_line l -> nonblank (before_hash l) = false -> process_line cw false m (i, l) = Ok m.
Proof.
  intros Hl Hb. rewrite process_line_eq, process_comment_off by assumption. cbn [bind]. rewrite norm_before_hash.
  unfold nonblank in Hb. apply negb_false_iff in Hb. apply (norm_blank cw) in Hb. set (s := norm cw (before_hash l)) in *.
  assert (Hf : forall c r, s = c :: r -> is_space c = true).
  { intros c r Es. rewrite Es in Hb. cbn in Hb. apply andb_prop in Hb. apply Hb. }
  destruct (vote_parts s) as [[ds rest]|] eqn:Ev.
  - apply vote_parts_spec in Ev as [Es [Hne Hd]]. destruct ds as [|d ds]; [congruence|]. cbn in Es, Hd. apply andb_prop in Hd as [Hd _].
    specialize (Hf _ _ Es). apply digit_not_space in Hd. congruence.
  - unfold other_line. destruct (re_match CANDLINE_REGEX s) as [[g s']|] eqn:Ec.
    { apply candline_first in Ec as [r Er]. specialize (Hf _ _ Er). discriminate. }
    destruct (re_match METADATA_REGEX s) as [[g s']|] eqn:Em; [|reflexivity].
    apply metadata_first in Em as [r Er]. specialize (Hf _ _ Er). discriminate.
Qed.

Definition contents (ls : list str) : list str := filter nonblank (map before_hash ls).

Lemma fold_erase cw n : forall ls ls' i i' m m', (length ls + length ls' <= n)%nat ->
  (forall l, In l ls -> one_line l) -> (forall l, In l ls' -> one_line l) ->
  contents ls = contents ls' -> erase m = erase m' ->
  map_res erase (foldM (process_line cw false) (enumerate i ls) m) = map_res erase (foldM (process_line cw false) (enumerate i' ls') m').
Proof.
  induction n as [|n IH]; intros ls ls' i i' m m' Hn Hl Hl' Hc He.
  - destruct ls; cbn in Hn; [|lia]. destruct ls'; cbn in Hn; [|lia]. cbn. f_equal. exact He.
  - unfold contents in Hc. destruct ls as [|l ls]; [destruct ls' as [|l' ls']|].
    + cbn. f_equal. exact He.
    + cbn [map filter] in Hc. destruct (nonblank (before_hash l')) eqn:Eb; [discriminate|].
      cbn [enumerate foldM]. rewrite (blank_line _ _ _ _ (Hl' l' (or_introl eq_refl)) Eb). cbn [bind].
      apply (IH [] ls' i (i' + 1)); auto; [cbn in *; lia|]. intros x Hx; apply Hl'; right; exact Hx.
    + cbn [map filter] in Hc. destruct (nonblank (before_hash l)) eqn:Eb.
      * destruct ls' as [|l' ls']; [discriminate|]. cbn [map filter] in Hc.
        destruct (nonblank (before_hash l')) eqn:Eb'.
        -- injection Hc as Hb Hc. cbn [enumerate foldM].
           assert (Hp := process_line_erase cw m m' i i' l l' (Hl l (or_introl eq_refl)) (Hl' l' (or_introl eq_refl)) Hb He).
           destruct (process_line cw false m (i, l)) as [m1|e1], (process_line cw false m' (i', l')) as [m1'|e1']; cbn [map_res] in Hp; try discriminate.
           ++ cbn [bind]. apply IH; [cbn in Hn; lia| | |exact Hc|apply ok_inj; exact Hp].
              ** intros x Hx; apply Hl; right; exact Hx.
              ** intros x Hx; apply Hl'; right; exact Hx.
           ++ cbn. congruence.
        -- cbn [enumerate foldM]. rewrite (blank_line cw m' i' l' (Hl' l' (or_introl eq_refl)) Eb'). cbn [bind].
           apply (IH (l :: ls) ls' i (i' + 1)); auto; [cbn in *; lia| |].
           ++ intros x Hx; apply Hl'; right; exact Hx.
           ++ unfold contents. cbn [map filter]. rewrite Eb. exact Hc.
      * cbn [enumerate foldM]. rewrite (blank_line cw m i l (Hl l (or_introl eq_refl)) Eb). cbn [bind].
        apply (IH ls ls' (i + 1) i'); auto; [cbn in *; lia|]. intros x Hx; apply Hl; right; exact Hx.
Qed.

(** The end of the conversion: adding ratings and sorting. *)
Definition finish (ar : bool) (m : jabmod) : result jabmod :=
  match j_votelines m with
  | [] => Err VotelineExn
  | _ => bind (if ar then add_ratings_to_votelines m true else Ok m) (fun m1 =>
         Ok (Jabmod (j_metadata m1) (j_candidates m1) (sort_desc v_qty (j_votelines m1))))
  end.

Lemma convert_finish text cw ar sc : text <> [] ->
  convert_abif_to_jabmod text cw ar sc =
  bind (foldM (process_line cw sc) (enumerate 0 (splitlines text)) emptyish) (finish ar).
Proof. destruct text; [congruence|]. intros _. reflexivity. Qed.

Lemma mapM_map {A B C} (f : B -> result C) (g : A -> B) l : mapM f (map g l) = mapM (fun x => f (g x)) l.
Proof. induction l as [|x r IH]; cbn; [reflexivity|]. rewrite IH. reflexivity. Qed.
Lemma mapM_post {A B C} (f : A -> result B) (g : B -> C) l : mapM (fun x => map_res g (f x)) l = map_res (map g) (mapM f l).
Proof. induction l as [|x r IH]; cbn [mapM]; [reflexivity|]. rewrite IH. destruct (f x); cbn; [|reflexivity]. destruct (mapM f r); reflexivity. Qed.
Lemma mapM_ext {A B} (f g : A -> result B) l : (forall x, f x = g x) -> mapM f l = mapM g l.
Proof. intro H. induction l as [|x r IH]; cbn; [reflexivity|]. rewrite H, IH. reflexivity. Qed.

Lemma inmod_erase m : inmod_has_rating (erase m) = inmod_has_rating m.
Proof. unfold inmod_has_rating, erase. cbn [j_votelines]. induction (j_votelines m) as [|l r IH]; cbn; [reflexivity|]. rewrite IH. reflexivity. Qed.

Lemma add_ratings_erase m : add_ratings_to_votelines (erase m) true = map_res erase (add_ratings_to_votelines m true).
Proof.
  unfold add_ratings_to_votelines. rewrite inmod_erase. cbn [erase j_candidates j_votelines j_metadata]. rewrite mapM_map.
  set (has := inmod_has_rating m). set (n := Z.of_nat (length (j_candidates m))).
  rewrite (mapM_ext _ (fun l => map_res (fun lb : voteline * bool => (erase_line (fst lb), snd lb))
     (bind (mapM (fun kv => bind (add_rating_pref has true n (snd kv)) (fun r => Ok (fst kv, r))) (v_prefs l))
       (fun ps => Ok (with_prefs l (map (fun kr => (fst kr, fst (snd kr))) ps), existsb (fun kr => snd (snd kr)) ps))))).
  2:{ intro l. cbn [erase_line v_prefs]. destruct (mapM _ (v_prefs l)); reflexivity. }
  rewrite mapM_post. destruct (mapM _ (j_votelines m)) as [out|]; [|reflexivity]. cbn [map_res bind erase j_metadata j_candidates j_votelines].
  assert (E1 : forall o : list (voteline * bool), existsb snd (map (fun lb => (erase_line (fst lb), snd lb)) o) = existsb snd o).
  { induction o as [|x o IH]; cbn; [reflexivity|]. rewrite IH. reflexivity. }
  rewrite E1. unfold erase. cbn [j_metadata j_candidates j_votelines]. rewrite !map_map. reflexivity.
Qed.

Lemma sort_erase ls : sort_desc v_qty (map erase_line ls) = map erase_line (sort_desc v_qty ls).
Proof. unfold sort_desc. symmetry. apply (sort_by_map erase_line). reflexivity. Qed.

Lemma finish_erase ar m : finish ar (erase m) = map_res erase (finish ar m).
Proof.
  assert (G : bind (if ar then add_ratings_to_votelines (erase m) true else Ok (erase m)) (fun m1 =>
         Ok (Jabmod (j_metadata m1) (j_candidates m1) (sort_desc v_qty (j_votelines m1)))) =
    map_res erase (bind (if ar then add_ratings_to_votelines m true else Ok m) (fun m1 =>
         Ok (Jabmod (j_metadata m1) (j_candidates m1) (sort_desc v_qty (j_votelines m1)))))).
  { destruct ar.
    - rewrite add_ratings_erase. destruct (add_ratings_to_votelines m true) as [m1|]; [|reflexivity].
      cbn [map_res bind]. unfold erase. cbn [j_metadata j_candidates j_votelines]. rewrite sort_erase. reflexivity.
    - cbn [map_res bind]. unfold erase. cbn [j_metadata j_candidates j_votelines]. rewrite sort_erase. reflexivity. }
  unfold finish. destruct (j_votelines m) as [|v vs] eqn:Ev.
  - unfold erase. cbn [j_votelines]. rewrite Ev. reflexivity.
  - assert (Ev' : j_votelines (erase m) = erase_line v :: map erase_line vs) by (unfold erase; cbn [j_votelines]; rewrite Ev; reflexivity).
    rewrite Ev'. exact G.
Qed.

Lemma finish_erase_eq ar m m' : erase m = erase m' -> map_res erase (finish ar m) = map_res erase (finish ar m').
Proof. intro H. rewrite <- !finish_erase, H. reflexivity. Qed.

Lemma splitlines_nil_inv t : splitlines t = [] -> t = [].
Proof.
  unfold splitlines. destruct t as [|c r]; [reflexivity|]. cbn [splitlines_aux]. destruct (is_linebreak c); [discriminate|].
  assert (G : forall s cur, splitlines_aux s cur true <> []).
  { induction s as [|x s IH]; intro cur; cbn [splitlines_aux]; [discriminate|]. destruct (is_linebreak x); [discriminate|apply IH]. }
  intro H. destruct (G _ _ H).
Qed.

(** ** Skipping every line *)
Lemma no_votes_fold cw ls : forall i m, (forall l, In l ls -> one_line l) ->
  (forall l, In l ls -> is_voteline (norm cw l) = false) -> j_votelines m = [] ->
  exists m', foldM (process_line cw false) (enumerate i ls) m = Ok m' /\ j_votelines m' = [].
Proof.
  induction ls as [|l ls IH]; intros i m Hl Hv Hm; cbn [enumerate foldM]; [eauto|].
  rewrite process_line_eq, process_comment_off by (apply Hl; left; reflexivity). cbn [bind].
  assert (Hx := Hv l (or_introl eq_refl)). unfold is_voteline in Hx.
  destruct (vote_parts (before_hash (norm cw l))) as [[ds rest]|]; [discriminate|]. cbn [bind].
  apply IH; [intros x Hin; apply Hl; right; exact Hin|intros x Hin; apply Hv; right; exact Hin|].
  destruct (other_line_inv (before_hash (norm cw l)) m) as (->&_). exact Hm.
Qed.

(** ** Models that differ only in metadata under some keys *)
Definition same_but (K : str -> Prop) (m m' : jabmod) : Prop :=
  j_candidates m = j_candidates m' /\ j_votelines m = j_votelines m' /\
  forall k, ~ K k -> dget k (j_metadata m) = dget k (j_metadata m').

Lemma same_but_refl K m : same_but K m m.
Proof. repeat split. Qed.

Lemma same_but_dset K k v (d d' : dict json) : (forall x, ~ K x -> dget x d = dget x d') ->
  forall x, ~ K x -> dget x (dset k v d) = dget x (dset k v d').
Proof.
  intros H x Hx. destruct (str_eqb_spec x k) as [->|n]; [rewrite !dget_dset_same; reflexivity|]. rewrite !dget_dset_other by exact n. auto.
Qed.

Lemma other_line_same K s m m' : same_but K m m' -> same_but K (other_line s m) (other_line s m').
Proof.
  intros (H1&H2&H3). unfold other_line. destruct (re_match CANDLINE_REGEX s) as [[g s']|].
  { unfold process_candline, same_but; cbn. rewrite H1. auto. }
  destruct (re_match METADATA_REGEX s) as [[g s']|]; [|repeat split; assumption].
  unfold process_metadata, same_but; cbn. split; [exact H1|]. split; [exact H2|]. apply same_but_dset. exact H3.
Qed.

Definition rel_res {A} (R : A -> A -> Prop) (x y : result A) : Prop :=
  match x, y with Ok a, Ok b => R a b | Err e, Err e' => e = e' | _, _ => False end.

Lemma prefline_same K ds rest lc m m' : ~ K k_ballotcount -> same_but K m m' ->
  rel_res (same_but K) (process_prefline ds rest lc m) (process_prefline ds rest lc m').
Proof.
  intros HK (H1&H2&H3). unfold process_prefline. destruct (py_int ds) as [q|]; [|reflexivity]. cbn [bind].
  unfold dgetE. rewrite (H3 _ HK). destruct (of_option KeyError (dget k_ballotcount (j_metadata m'))) as [bc|]; [|reflexivity]. cbn [bind].
  destruct (match bc with JInt z => _ | _ => _ end) as [z|]; [|reflexivity]. cbn [bind].
  destruct (parse_prefstr rest) as [[prefs keys]|]; [|reflexivity]. cbn [bind rel_res]. unfold same_but. cbn.
  rewrite H1, H2. split; [reflexivity|]. split; [reflexivity|]. apply same_but_dset. exact H3.
Qed.

Lemma process_line_same K cw m m' i i' l : ~ K k_ballotcount -> one_line l -> same_but K m m' ->
  rel_res (same_but K) (process_line cw false m (i, l)) (process_line cw false m' (i', l)).
Proof.
  intros HK Hl H. rewrite !process_line_eq, !process_comment_off by assumption. cbn [bind].
  destruct (vote_parts (before_hash (norm cw l))) as [[ds rest]|]; [apply prefline_same; assumption|].
  cbn. apply other_line_same; exact H.
Qed.

Lemma fold_same K cw ls : forall i i' m m', ~ K k_ballotcount -> (forall l, In l ls -> one_line l) -> same_but K m m' ->
  rel_res (same_but K) (foldM (process_line cw false) (enumerate i ls) m) (foldM (process_line cw false) (enumerate i' ls) m').
Proof.
  induction ls as [|l ls IH]; intros i i' m m' HK Hl H; cbn [enumerate foldM]; [exact H|].
  assert (Hp := process_line_same K cw m m' i i' l HK (Hl l (or_introl eq_refl)) H).
  destruct (process_line cw false m (i, l)) as [m1|], (process_line cw false m' (i', l)) as [m1'|]; cbn in Hp; try contradiction; cbn [bind]; [|exact Hp].
  apply IH; auto. intros x Hx; apply Hl; right; exact Hx.
Qed.

Lemma finish_same K ar m m' : same_but K m m' -> rel_res (same_but K) (finish ar m) (finish ar m').
Proof.
  intros (H1&H2&H3). unfold finish. rewrite <- H2. destruct (j_votelines m) as [|v vs] eqn:Ev; [reflexivity|].
  destruct ar.
  - unfold add_ratings_to_votelines, inmod_has_rating. rewrite <- H1, <- H2, Ev.
    destruct (mapM _ (v :: vs)) as [out|]; [|reflexivity]. cbn [bind rel_res]. unfold same_but. cbn. split; [reflexivity|]. split; [reflexivity|].
    destruct (existsb snd out); [apply same_but_dset|]; exact H3.
  - cbn. unfold same_but. cbn. rewrite Ev, <- H2. auto.
Qed.

(** With storecomments the reader does the same things, except to metadata 'comments'. *)
Definition only_comments (k : str) : Prop := k = k_comments.
Lemma not_only_comments_bc : ~ only_comments k_ballotcount. Proof. discriminate. Qed.

Lemma store_line cw m m' i l m1 : one_line l -> same_but only_comments m m' ->
  process_line cw true m (i, l) = Ok m1 ->
  exists m1', process_line cw false m' (i, l) = Ok m1' /\ same_but only_comments m1 m1'.
Proof.
  intros Hl H H1. assert (Hp : rel_res (same_but only_comments) (process_line cw true m (i, l)) (process_line cw false m' (i, l))).
  { rewrite process_line_eq in H1 |- * by exact Hl. apply bind_ok in H1 as [m0 [E0 H1]]. rewrite E0. cbn [bind].
    rewrite process_line_eq, process_comment_off by exact Hl. cbn [bind].
    destruct (process_comment_inv _ _ _ _ _ E0) as (C1&C2&C3&_).
    assert (H0 : same_but only_comments m0 m').
    { destruct H as (A1&A2&A3). split; [congruence|]. split; [congruence|]. intros k Hk. rewrite C3 by exact Hk. auto. }
    destruct (vote_parts (before_hash (norm cw l))) as [[ds rest]|]; [apply prefline_same; [exact not_only_comments_bc|exact H0]|].
    cbn. apply other_line_same; exact H0. }
  rewrite H1 in Hp. destruct (process_line cw false m' (i, l)) as [m1'|]; [|contradiction]. eauto.
Qed.

Lemma store_fold cw ls : forall i m m' m1, (forall l, In l ls -> one_line l) -> same_but only_comments m m' ->
  foldM (process_line cw true) (enumerate i ls) m = Ok m1 ->
  exists m1', foldM (process_line cw false) (enumerate i ls) m' = Ok m1' /\ same_but only_comments m1 m1'.
Proof.
  induction ls as [|l ls IH]; intros i m m' m1 Hl H H1; cbn [enumerate foldM] in *; [apply ok_inj in H1; subst; eauto|].
  apply bind_ok in H1 as [m2 [E2 H1]]. destruct (store_line _ _ _ _ _ _ (Hl l (or_introl eq_refl)) H E2) as (m2'&E2'&H2).
  rewrite E2'. cbn [bind]. apply (IH _ m2); auto. intros x Hx; apply Hl; right; exact Hx.
Qed.

(** ** Preference texts without repetition *)

Lemma prefs_loop_keeps mode ds n c : forall cps i rank prefs prefs',
  prefs_loop mode ds n i rank cps prefs = Ok prefs' -> ~ In c (map fst cps) -> dget c prefs' = dget c prefs.
Proof.
  induction cps as [|[cand rating] r IH]; intros i rank prefs prefs' H Hc; cbn [prefs_loop] in H; [apply ok_inj in H; subst; reflexivity|].
  apply bind_ok in H as [[p1 rank1] [_ H]]. apply bind_ok in H as [p2 [_ H]]. cbn [map fst In] in Hc.
  rewrite (IH _ _ _ _ H) by tauto. apply dget_dset_other. intros ->. apply Hc. left; reflexivity.
Qed.

Lemma loop_first_rank mode ds n c0 r0 rest rank prefs prefs' i : mode <> MRate -> (mode = MRankOne -> rank = 1) ->
  prefs_loop mode ds n i rank ((c0, r0) :: rest) prefs = Ok prefs' -> ~ In c0 (map fst rest) ->
  exists p, dget c0 prefs' = Some p /\ p_rank p = Some rank.
Proof.
  intros Hm Hone H Hc. cbn [prefs_loop] in H.
  apply bind_ok in H as [[p1 rank1] [E1 H]]. apply bind_ok in H as [p2 [E2 H]].
  assert (Hp1 : p_rank p1 = Some rank).
  { destruct mode; [|congruence|].
    - destruct (i <? n - 1)%nat; [apply bind_ok in E1 as [d [_ E1]]; destruct (N.eqb d ch_gt)|]; apply ok_inj in E1; injection E1 as <- <-; reflexivity.
    - apply ok_inj in E1; injection E1 as <- <-. rewrite (Hone eq_refl). reflexivity. }
  assert (Hp2 : p_rank p2 = Some rank).
  { destruct (i <? n - 1)%nat; [apply bind_ok in E2 as [d [_ E2]]|]; apply ok_inj in E2; subst p2; exact Hp1. }
  exists p2. split; [|exact Hp2]. rewrite (prefs_loop_keeps _ _ _ _ _ _ _ _ _ H Hc). apply dget_dset_same.
Qed.

Lemma parse_first_rank s prefs keys : parse_prefstr s = Ok (prefs, keys) -> NoDup keys -> keys <> [] ->
  exists c p, In (c, p) prefs /\ p_rank p = Some 1.
Proof.
  intros H Hnd Hne. destruct (parse_prefstr_shape _ _ _ H) as (cps&prefs0&Ec&->&E0&->).
  destruct (prefs_loop_inv _ _ _ _ _ _ _ _ E0) as (Hn&He&Hk); [lia|exact (extract_ratings _ _ Ec)|constructor|intros c p []|].
  destruct cps as [|[c0 r0] rest]; [destruct (Hne eq_refl)|].
  assert (Hcase : fst (rank_or_rate s) = MRate \/ fst (rank_or_rate s) <> MRate) by (destruct (fst (rank_or_rate s)); [right|left|right]; congruence).
  destruct Hcase as [Hm|Hm].
  - set (nums := map (fun kv => pref_num (snd kv)) prefs0).
    assert (Hnn : nums <> []).
    { unfold nums. destruct prefs0; [|discriminate]. assert (Hx : In c0 (dkeys (@nil (str * pref)))) by (apply Hk; left; left; reflexivity). destruct Hx. }
    destruct (dense_rank_1 nums Hnn) as (z&Hz&Hd). unfold nums in Hz. apply in_map_iff in Hz as ([c p]&Ez&Hin). cbn in Ez.
    exists c, (fill_rank (dense_rank (pref_num p) nums) p). split.
    + apply in_map_iff. exists (c, p). split; [reflexivity|exact Hin].
    + destruct (fill_rank_facts (dense_rank (pref_num p) nums) p) as (_&_&->).
      destruct (He c p Hin) as (Hr&_). rewrite Hm in Hr. unfold has_rank. rewrite Hr. congruence.
  - cbn [map fst] in Hnd. inversion Hnd as [|? ? Hni _]; subst.
    destruct (loop_first_rank _ _ _ _ _ _ _ _ _ _ Hm (fun _ => eq_refl) E0 Hni) as (p&Ep&Er).
    exists c0. eexists. split; [apply in_map_iff; exists (c0, p); split; [reflexivity|apply dget_In; exact Ep]|].
    cbn [snd]. match goal with |- p_rank (fill_rank ?k p) = _ => destruct (fill_rank_facts k p) as (_&_&->) end.
    unfold has_rank. rewrite Er. reflexivity.
Qed.

Lemma keys_nodup s prefs keys : parse_prefstr s = Ok (prefs, keys) -> Z.of_nat (length prefs) = 1 + count_delims s -> NoDup keys.
Proof.
  intros H Hl. destruct (parse_prefstr_good _ _ _ H) as [(G1&_) G3]. pose proof (mentions_le _ _ _ H) as Hm.
  apply (@NoDup_incl_NoDup str (dkeys prefs)); [exact G1| |intros c Hc; apply G3; exact Hc].
  unfold dkeys. rewrite map_length. lia.
Qed.

Lemma prefs_loop_total mode ds n : forall cps i rank prefs, (i + length cps = n)%nat -> (n - 1 <= length ds)%nat ->
  exists prefs', prefs_loop mode ds n i rank cps prefs = Ok prefs'.
Proof.
  induction cps as [|[c r] cps IH]; intros i rank prefs Hn Hd; cbn [prefs_loop length] in *; [eauto|].
  assert (Hnth : (i <? n - 1)%nat = true -> exists d, nth_error ds i = Some d).
  { intro Hlt. apply Nat.ltb_lt in Hlt. destruct (nth_error ds i) eqn:En; [eauto|]. apply nth_error_None in En. lia. }
  destruct (i <? n - 1)%nat eqn:El.
  - destruct (Hnth eq_refl) as [d Ed]. rewrite Ed. cbn [of_option bind].
    destruct mode; cbn [bind]; [destruct (d =? ch_gt)%N; cbn [bind]| |]; apply IH; lia.
  - destruct mode; cbn [bind]; apply IH; lia.
Qed.

(** A preference text is readable as soon as its candidates can be extracted and there are enough
    delimiters between them. *)
Lemma parse_prefstr_total s cps : extract_candprefs s = Ok cps -> (length cps <= 1 + length (delims false s))%nat ->
  exists prefs, parse_prefstr s = Ok (prefs, map fst cps).
Proof.
  intros Ex Hlen. unfold parse_prefstr. destruct (rank_or_rate s) as [mode ds] eqn:Em. rewrite Ex. cbn [bind].
  assert (Eds : ds = delims false s) by (unfold rank_or_rate in Em; injection Em; auto). 
  destruct (prefs_loop_total mode ds (length cps) cps 0 1 []) as [prefs0 E0]; [reflexivity|subst ds; lia|]. rewrite E0. cbn [bind].
  destruct (prefs_loop_inv _ _ _ _ _ _ _ _ E0) as (Hn&He&Hk); [lia|exact (extract_ratings _ _ Ex)|constructor|intros c p []|].
  assert (Hrd : forall c p, In (c, p) prefs0 -> pref_readable p).
  { intros c p Hin. destruct (He c p Hin) as (_&Hf&_). unfold pref_readable. destruct (p_rating p); [|exact I].
    apply rating_fine_readable. exact Hf. }
  rewrite (add_ranks_ok prefs0 Hn Hrd). cbn [bind].
  set (prefs1 := map _ prefs0).
  assert (Hk1 : dkeys prefs1 = dkeys prefs0) by (unfold prefs1, dkeys; rewrite map_map; reflexivity).
  destruct (map fst cps) as [|c0 ks] eqn:Ek; [eauto|].
  assert (Hin : In c0 (dkeys prefs1)) by (rewrite Hk1; apply Hk; left; left; reflexivity).
  apply dget_Some_In in Hin as [p Ep]. unfold dgetE. rewrite Ep. cbn [of_option bind].
  destruct (_ && _); [|eauto].
  rewrite add_ranks_ok; [cbn [bind]; eauto|rewrite Hk1; exact Hn|].
  intros c q Hq. unfold prefs1 in Hq. apply in_map_iff in Hq as ([c1 q1]&Eq&Hq). cbn [fst snd] in Eq. injection Eq as _ <-.
  specialize (Hrd c1 q1 Hq). unfold pref_readable in *.
  destruct (fill_rank_facts (dense_rank (pref_num q1) (map (fun kv => pref_num (snd kv)) prefs0)) q1) as (->&_). exact Hrd.
Qed.

(** ** One line alone *)

Definition alone (v : voteline) (ks : list str) : jabmod :=
  Jabmod [(k_ballotcount, JInt (v_qty v))] (merge_cands ks []) [v].

Lemma convert_alone l r : one_line l -> vote_of l = Some r ->
  convert_abif_to_jabmod l false false false = bind r (fun vk => Ok (alone (fst vk) (snd vk))).
Proof.
  intros Hl Hr. unfold vote_of in Hr. destruct (vote_parts (before_hash l)) as [[ds rest]|] eqn:Ev; [|discriminate].
  assert (Hne : l <> []) by (intros ->; discriminate). rewrite convert_finish by exact Hne.
  rewrite splitlines_last by assumption. cbn [enumerate foldM].
  rewrite process_line_eq, process_comment_off by exact Hl. cbn [bind norm]. rewrite Ev.
  rewrite (process_prefline_eq _ _ _ emptyish 0) by reflexivity. apply some_inj in Hr. subst r.
  destruct (py_int ds) as [q|]; [|reflexivity]. cbn [bind]. destruct (parse_prefstr rest) as [[prefs ks]|]; reflexivity.
Qed.

Lemma vote_of_is l : is_voteline l = match vote_of l with Some _ => true | None => false end.
Proof. unfold is_voteline, vote_of. destruct (vote_parts (before_hash l)) as [[ds rest]|]; reflexivity. Qed.

(** Reading succeeds when every voteline can be read. *)
Lemma fold_lines_total cw ls : forall i m, (forall l, In l ls -> one_line l) -> state_fine m ->
  (forall l r, In l ls -> vote_of (norm cw l) = Some r -> exists x, r = Ok x) ->
  exists m', foldM (process_line cw false) (enumerate i ls) m = Ok m'.
Proof.
  induction ls as [|l ls IH]; intros i m Hl Hm Hv; cbn [enumerate foldM]; [eauto|].
  assert (Hl1 := Hl l (or_introl eq_refl)).
  assert (H1 : exists m1, process_line cw false m (i, l) = Ok m1).
  { rewrite process_line_eq, process_comment_off by exact Hl1. cbn [bind].
    specialize (Hv l). unfold vote_of in Hv. destruct (vote_parts (before_hash (norm cw l))) as [[ds rest]|]; [|eauto].
    destruct Hm as (_&_&B&_). rewrite (process_prefline_eq _ _ _ _ _ B).
    destruct (Hv _ (or_introl eq_refl) eq_refl) as [x Ex].
    destruct (py_int ds); [|discriminate]. cbn [bind] in *. destruct (parse_prefstr rest); [|discriminate]. cbn [bind]. eauto. }
  destruct H1 as [m1 E1]. rewrite E1. cbn [bind]. destruct (process_line_inv _ _ _ _ _ _ Hl1 Hm E1) as (S1&_).
  apply IH; [intros x Hx; apply Hl; right; exact Hx|exact S1|]. intros x r Hx. apply (Hv x r). right; exact Hx.
Qed.
