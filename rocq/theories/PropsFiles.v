(** * Property C79: what the reader makes of whole files - the order of the lines, joined files, split
    votelines, and the table of candidates (abiflib/core.py convert_abif_to_jabmod). *)

From Verif Require Import PyBase PyFacts Jabmod Regex RegexFacts WordTable ScoreModel ScoreFacts Spec ParserModel ParserSpec ParserFacts ParserPrefs ParserRender.
From Verif Require Import PairwiseModel PairwiseFacts PropsPairwise PropsScore IrvModel IrvFacts IrvStrict IrvTrace IrvCriteria PropsIrv ParserFile ParserText ParserLines PropsParser.
From Verif Require Import PropsCopeMore PropsScoreMore.
From Coq Require Import Permutation Sorted.
Local Open Scope Z_scope.

(** ** The table of candidates *)
(** What a candidate line ("=token:name") declares. *)
Definition decl (l : str) : option (str * str) :=
  match re_match CANDLINE_REGEX (before_hash l) with Some (g, _) => Some (group 1 g, group 2 g) | None => None end.
(** The name given to [c] by the last line declaring it. *)
Fixpoint last_name (c : str) (ls : list str) : option str :=
  match ls with
  | [] => None
  | l :: r => match last_name c r with
              | Some n => Some n
              | None => match decl l with Some (k, n) => if str_eqb c k then Some n else None | None => None end
              end
  end.
(** [c] occurs among the preferences of one of the votelines. *)
Definition mentions (c l : str) : bool := match vote_of l with Some (Ok (_, ks)) => memb c ks | _ => false end.

Definition table_step (t : dict str) (l : str) : dict str :=
  match vote_of l with
  | Some (Ok (_, ks)) => merge_cands ks t
  | Some (Err _) => t
  | None => match decl l with Some (k, n) => dset k n t | None => t end
  end.

Lemma fold_table cw sc ls : forall i m m', (forall l, In l ls -> one_line l) -> state_fine m ->
  foldM (process_line cw sc) (enumerate i ls) m = Ok m' ->
  j_candidates m' = fold_left table_step (map (norm cw) ls) (j_candidates m).
Proof.
  induction ls as [|l ls IH]; intros i m m' Hl Hm H; cbn [enumerate foldM map fold_left] in *; [apply ok_inj in H; subst; reflexivity|].
  apply bind_ok in H as [m1 [E1 H]]. destruct (process_line_inv cw sc m i l m1 (Hl l (or_introl eq_refl)) Hm E1) as (S1&_).
  rewrite (IH (i + 1) m1 m'); [|intros x Hx; apply Hl; right; exact Hx|exact S1|exact H]. f_equal. clear IH H.
  rewrite process_line_eq in E1 by (apply Hl; left; reflexivity). apply bind_ok in E1 as [m2 [E2 E1]].
  destruct (process_comment_inv _ _ _ _ _ E2) as (C1&C2&C3&C4). unfold table_step, vote_of.
  destruct (vote_parts (before_hash (norm cw l))) as [[ds rest]|] eqn:Ev.
  - rewrite (process_prefline_eq ds rest _ m2 (total_ballots m)) in E1; [|rewrite C3 by discriminate; apply Hm].
    apply bind_ok in E1 as [q [Eq E1]]. apply bind_ok in E1 as [pk [Ep E1]]. apply ok_inj in E1. subst m1. rewrite Eq. cbn [bind]. rewrite Ep. cbn [bind j_candidates]. rewrite C1. reflexivity.
  - apply ok_inj in E1. subst m1. unfold other_line, decl. rewrite <- C1. destruct (re_match CANDLINE_REGEX _) as [[g s']|]; [reflexivity|].
    destruct (re_match METADATA_REGEX _) as [[g s']|]; reflexivity.
Qed.

Lemma merge_get c ks : forall t, dget c (merge_cands ks t) = match dget c t with Some n => Some n | None => if memb c ks then Some c else None end.
Proof.
  induction ks as [|k ks IH]; intro t; unfold merge_cands; cbn [fold_left memb existsb].
  - destruct (dget c t); reflexivity.
  - change (fold_left _ ks ?t0) with (merge_cands ks t0). rewrite IH. destruct (dmem k t) eqn:Em.
    + destruct (dget c t) eqn:Ec; [reflexivity|]. cbn [memb]. destruct (str_eqb_spec c k) as [->|]; [|reflexivity].
      unfold dmem in Em. rewrite Ec in Em. discriminate.
    + rewrite dget_dset. destruct (str_eqb_spec c k) as [->|n].
      * unfold dmem in Em. destruct (dget k t); [discriminate|]. reflexivity.
      * destruct (dget c t); reflexivity.
Qed.
Lemma decl_not_vote l k n : decl l = Some (k, n) -> vote_of l = None.
Proof.
  unfold decl, vote_of. destruct (vote_parts (before_hash l)) as [[ds rest]|] eqn:Ev; [|reflexivity]. destruct (vote_not_other _ _ _ Ev) as [-> _]. discriminate.
Qed.
Lemma last_name_app c l1 l2 : last_name c (l1 ++ l2) = match last_name c l2 with Some n => Some n | None => last_name c l1 end.
Proof. induction l1 as [|l r IH]; cbn [app last_name]; [destruct (last_name c l2); reflexivity|]. rewrite IH. destruct (last_name c l2); reflexivity. Qed.

Lemma table_get c ls : forall t, dget c (fold_left table_step ls t) =
  match last_name c ls with Some n => Some n | None =>
    match dget c t with Some n => Some n | None => if existsb (mentions c) ls then Some c else None end end.
Proof.
  induction ls as [|l ls IH] using rev_ind; intro t.
  - cbn. destruct (dget c t); reflexivity.
  - rewrite fold_left_app, last_name_app, existsb_app. cbn [fold_left last_name existsb]. rewrite orb_false_r.
    unfold table_step at 1, mentions at 2. destruct (decl l) as [[k n]|] eqn:Ed.
    + rewrite (decl_not_vote _ _ _ Ed), orb_false_r. rewrite dget_dset. destruct (str_eqb_spec c k) as [->|]; [reflexivity|]. apply IH.
    + destruct (vote_of l) as [[[v ks]|e]|] eqn:Ev; rewrite ?orb_false_r; [|apply IH|apply IH].
      rewrite merge_get, IH. destruct (last_name c ls); [reflexivity|]. destruct (dget c t); [reflexivity|].
      destruct (existsb (mentions c) ls); cbn [orb]; [reflexivity|]. reflexivity.
Qed.

(** The lines of a file as the reader sees them. *)
Definition lines_of (cw : bool) (t : str) : list str := map (norm cw) (splitlines t).

Lemma convert_table text cw ar sc m : convert_abif_to_jabmod text cw ar sc = Ok m ->
  j_candidates m = fold_left table_step (lines_of cw text) [].
Proof.
  intro H. destruct (convert_shape _ _ _ _ _ H) as (m0&E0&Hne&m1&E1&->). cbn [j_candidates].
  rewrite <- (fold_table cw sc _ 0 emptyish m0 (splitlines_one_line text) emptyish_fine E0 : _ = fold_left table_step (lines_of cw text) []).
  destruct (convert_state _ _ _ _ E0) as (Hf&_). destruct ar; [|apply ok_inj in E1; subst; reflexivity].
  destruct (add_ratings_fine m0 Hf) as (m1'&E1'&C1&_). rewrite E1 in E1'. apply ok_inj in E1'. subst. exact C1.
Qed.

(** Who is a candidate, and under which name: the name is the one given by the last candidate line for
    that token, wherever it stands; a token that is only mentioned on ballots is its own name; nobody
    else is a candidate. *)
Theorem C79_table : forall text cleanws add_ratings storecomments m c,
  convert_abif_to_jabmod text cleanws add_ratings storecomments = Ok m ->
  dget c (j_candidates m) =
    match last_name c (lines_of cleanws text) with
    | Some n => Some n
    | None => if existsb (mentions c) (lines_of cleanws text) then Some c else None
    end.
Proof. intros text cw ar sc m c H. rewrite (convert_table _ _ _ _ _ H), table_get. reflexivity. Qed.
Print Assumptions C79_table.

(** [mentions] means: read as a file by itself, the line is accepted and [c] is a candidate. *)
Theorem C79_mentions : forall l c, one_line l ->
  (mentions c l = true <-> exists m, convert_abif_to_jabmod l false false false = Ok m /\ In c (cands m)).
Proof.
  intros l c Hl. unfold mentions. destruct (vote_of l) as [r|] eqn:Ev.
  - rewrite (convert_alone l r Hl Ev). destruct r as [[v ks]|e]; cbn [bind].
    + split.
      * intro H. eexists. split; [reflexivity|]. unfold alone, cands. cbn [j_candidates].
        apply (proj1 (proj2 (merge_cands_facts ks [] (NoDup_nil _)))). left. apply memb_In. exact H.
      * intros (m&E&Hc). apply ok_inj in E. subst m. unfold alone, cands in Hc. cbn [j_candidates] in Hc.
        apply (proj1 (proj2 (merge_cands_facts ks [] (NoDup_nil _)))) in Hc as [Hc|[]]. apply memb_In. exact Hc.
    + split; [discriminate|]. intros (m&E&_). discriminate.
  - split; [discriminate|]. intros (m&E&_). rewrite C30_rejected in E; [discriminate|]. intros x Hx.
    rewrite vote_of_is. destruct l as [|y l]; [destruct Hx|]. rewrite splitlines_last in Hx by (exact Hl || discriminate). destruct Hx as [<-|[]]. cbn [norm]. rewrite Ev. reflexivity.
Qed.
Print Assumptions C79_mentions.

(** ** The order of the lines *)
Lemma votes_perm ls ls' : Permutation ls ls' -> Permutation (votes_of ls) (votes_of ls').
Proof.
  induction 1 as [|x l l' _ IH|x y l|l1 l2 l3 _ IH1 _ IH2]; cbn [votes_of].
  - constructor.
  - destruct (vote_of x); [constructor|]; exact IH.
  - destruct (vote_of x), (vote_of y); try apply Permutation_refl. apply perm_swap.
  - eapply perm_trans; eassumption.
Qed.
Lemma votes_of_app ls ls' : votes_of (ls ++ ls') = votes_of ls ++ votes_of ls'.
Proof. induction ls as [|l ls IH]; cbn [app votes_of]; [reflexivity|]. destruct (vote_of l); [cbn [app]; f_equal|]; exact IH. Qed.
Lemma map_Ok_inj {A} (l l' : list A) : map Ok l = map Ok l' -> l = l'.
Proof. revert l'. induction l as [|x l IH]; intros [|y l'] H; try discriminate; [reflexivity|]. cbn [map] in H. injection H as -> H. f_equal. auto. Qed.
Lemma votes_of_all ls vs l r : votes_of ls = map Ok vs -> In l ls -> vote_of l = Some r -> exists vk, r = Ok vk /\ In vk vs.
Proof.
  revert vs. induction ls as [|x ls IH]; intros vs H Hin Hr; [destruct Hin|]. cbn [votes_of] in H. destruct Hin as [->|Hin].
  - rewrite Hr in H. destruct vs as [|vk vs]; [discriminate|]. cbn [map] in H. injection H as -> _. exists vk. split; [reflexivity|left; reflexivity].
  - destruct (vote_of x); [|exact (IH vs H Hin Hr)]. destruct vs as [|vk vs]; [discriminate|]. cbn [map] in H. injection H as _ H.
    destruct (IH vs H Hin Hr) as (y&E&Hy). exists y. split; [exact E|right; exact Hy].
Qed.

(** A file can be read exactly if it has a voteline and all its votelines can be read. *)
Lemma readable_iff text cw ar : (exists m, convert_abif_to_jabmod text cw ar false = Ok m) <->
  exists vs, vs <> [] /\ votes_of (lines_of cw text) = map Ok vs.
Proof.
  split.
  - intros [m H]. destruct (convert_votes _ _ _ _ _ H) as (m0&vs&ls&_&_&Hne&Ev&_). exists vs. split; [|exact Ev]. intros ->. apply Hne. reflexivity.
  - intros (vs&Hne&Ev). apply C30_accepted.
    + destruct vs as [|[v ks] vs]; [congruence|]. destruct (votes_of_In _ _ v ks Ev (or_introl eq_refl)) as (l&Hl&El).
      apply in_map_iff in Hl as (x&<-&Hx). exists x. split; [exact Hx|]. rewrite vote_of_is, El. reflexivity.
    + intros l Hl Hv. rewrite vote_of_is in Hv. destruct (vote_of (norm cw l)) as [r|] eqn:Er; [|discriminate].
      destruct (votes_of_all _ _ (norm cw l) r Ev (in_map _ _ _ Hl) Er) as ([v ks]&->&_).
      rewrite (convert_alone _ _ (one_line_norm cw l (splitlines_one_line _ _ Hl)) Er). cbn [bind]. eauto.
Qed.

Lemma mapM_perm {A B} (f : A -> result B) l l' o : Permutation l l' -> mapM f l = Ok o -> exists o', mapM f l' = Ok o' /\ Permutation o o'.
Proof.
  intro P. revert o. induction P as [|x l l' _ IH|x y l|l1 l2 l3 _ IH1 _ IH2]; intros o H.
  - apply ok_inj in H. subst o. exists []. split; [reflexivity|constructor].
  - cbn [mapM] in *. apply bind_ok in H as [y [Ey H]]. apply bind_ok in H as [ys [Es H]]. apply ok_inj in H. subst o.
    destruct (IH _ Es) as (o'&E'&P'). rewrite Ey, E'. cbn [bind]. eexists. split; [reflexivity|]. constructor. exact P'.
  - cbn [mapM] in *. apply bind_ok in H as [a [Ea H]]. apply bind_ok in H as [bs [Es H]]. apply ok_inj in H. subst o.
    apply bind_ok in Es as [c [Ec Es]]. apply bind_ok in Es as [cs [Ecs Es]]. apply ok_inj in Es. subst bs.
    rewrite Ea, Ec, Ecs. cbn [bind]. eexists. split; [reflexivity|]. apply perm_swap.
  - destruct (IH1 _ H) as (o1&E1&P1). destruct (IH2 _ E1) as (o2&E2&P2). exists o2. split; [exact E2|eapply perm_trans; eassumption].
Qed.
Lemma existsb_perm {A} (p : A -> bool) l l' : Permutation l l' -> existsb p l = existsb p l'.
Proof. induction 1 as [|x l l' _ IH|x y l|l1 l2 l3 _ IH1 _ IH2]; cbn [existsb]; [reflexivity|congruence| |congruence]. destruct (p x), (p y); reflexivity. Qed.

Lemma add_ratings_perm m m' r : Permutation (j_votelines m) (j_votelines m') -> length (j_candidates m) = length (j_candidates m') ->
  add_ratings_to_votelines m true = Ok r -> exists r', add_ratings_to_votelines m' true = Ok r' /\ Permutation (j_votelines r) (j_votelines r').
Proof.
  intros P L H. unfold add_ratings_to_votelines in *. unfold inmod_has_rating in *. rewrite <- (existsb_perm _ _ _ P). rewrite <- L.
  apply bind_ok in H as [out [E H]]. apply ok_inj in H. subst r. destruct (mapM_perm _ _ _ _ P E) as (out'&E'&P'). rewrite E'. cbn [bind].
  eexists. split; [reflexivity|]. cbn [j_votelines]. apply Permutation_map. exact P'.
Qed.

Lemma table_perm ls ls' : Permutation ls ls' -> (forall c, existsb (mentions c) ls = existsb (mentions c) ls').
Proof. intros P c. apply existsb_perm. exact P. Qed.

Definition is_decl (l : str) : bool := match l with 61%N :: _ => true | _ => false end.
Lemma decl_is_decl l : decl l <> None -> is_decl l = true.
Proof.
  unfold decl. destruct (re_match CANDLINE_REGEX (before_hash l)) as [[g s']|] eqn:E; [|congruence]. intros _.
  apply candline_first in E as [r E]. destruct l as [|c l]; [discriminate|]. cbn [before_hash] in E. destruct (N.eqb c 35); [discriminate|].
  injection E as -> _. reflexivity.
Qed.
Lemma last_name_decls c ls : last_name c ls = last_name c (filter is_decl ls).
Proof.
  induction ls as [|l ls IH]; [reflexivity|]. cbn [last_name filter]. rewrite IH. destruct (is_decl l) eqn:Ed; [reflexivity|].
  assert (E : decl l = None) by (destruct (decl l) eqn:E; [rewrite decl_is_decl in Ed by congruence; discriminate|reflexivity]).
  rewrite E. destruct (last_name c (filter is_decl ls)); reflexivity.
Qed.
Lemma last_name_none c ls : last_name c ls = None <-> forall l k n, In l ls -> decl l = Some (k, n) -> k <> c.
Proof.
  induction ls as [|l ls IH]; cbn [last_name]; [split; [intros _ x k n []|reflexivity]|]. split.
  - intros H x k n [->|Hx] Ed.
    + destruct (last_name c ls); [discriminate|]. rewrite Ed in H. destruct (str_eqb_spec c k); [discriminate|congruence].
    + destruct (last_name c ls); [discriminate|]. exact (proj1 IH eq_refl x k n Hx Ed).
  - intro H. rewrite (proj2 IH) by (intros x k n Hx; apply H; right; exact Hx). destruct (decl l) as [[k n]|] eqn:Ed; [|reflexivity].
    destruct (str_eqb_spec c k) as [->|]; [|reflexivity]. destruct (H l k n (or_introl eq_refl) Ed eq_refl).
Qed.
Lemma last_name_perm c ls ls' : Permutation ls ls' -> (last_name c ls = None <-> last_name c ls' = None).
Proof.
  intro P. rewrite !last_name_none. split; intros H l k n Hl; apply H; [apply (Permutation_in _ (Permutation_sym P))|apply (Permutation_in _ P)]; exact Hl.
Qed.

Lemma table_keys c ls : In c (dkeys (fold_left table_step ls [])) <-> last_name c ls <> None \/ existsb (mentions c) ls = true.
Proof.
  rewrite <- dget_Some_In. rewrite table_get. cbn [dget]. destruct (last_name c ls) as [n|]; [split; [left; discriminate|eauto]|].
  destruct (existsb (mentions c) ls).
  - split; [right; reflexivity|eauto].
  - split; [intros [v E]; discriminate|]. intros [H|H]; [congruence|discriminate].
Qed.

(** The votelines and the candidates of a file do not depend on the order of its lines; nor do the
    names of the candidates, if the candidate lines (those starting with '=') keep their order. *)
Theorem C79_line_order : forall text1 text2 cleanws add_ratings m1,
  Permutation (splitlines text1) (splitlines text2) ->
  convert_abif_to_jabmod text1 cleanws add_ratings false = Ok m1 ->
  exists m2, convert_abif_to_jabmod text2 cleanws add_ratings false = Ok m2 /\
    Permutation (j_votelines m1) (j_votelines m2) /\
    Permutation (cands m1) (cands m2) /\
    dget (u "ballotcount") (j_metadata m2) = dget (u "ballotcount") (j_metadata m1) /\
    (filter is_decl (lines_of cleanws text1) = filter is_decl (lines_of cleanws text2) ->
     Permutation (j_candidates m1) (j_candidates m2)).
Proof.
  intros t1 t2 cw ar m1 P H1.
  assert (PL : Permutation (lines_of cw t1) (lines_of cw t2)) by (apply Permutation_map; exact P).
  destruct (proj1 (readable_iff t1 cw ar) (ex_intro _ m1 H1)) as (vs1&Hne1&Ev1).
  pose proof (votes_perm _ _ PL) as PV. rewrite Ev1 in PV. apply Permutation_sym, Permutation_map_inv in PV as (vs2&Ev2&Pv).
  assert (Hne2 : vs2 <> []) by (intros ->; apply Permutation_sym, Permutation_nil in Pv; congruence).
  destruct (proj2 (readable_iff t2 cw ar) (ex_intro _ vs2 (conj Hne2 Ev2))) as [m2 H2]. exists m2. split; [exact H2|].
  pose proof (C29_well_formed _ _ _ _ _ H1) as (_&_&N1&_). pose proof (C29_well_formed _ _ _ _ _ H2) as (_&_&N2&_).
  pose proof (convert_table _ _ _ _ _ H1) as T1. pose proof (convert_table _ _ _ _ _ H2) as T2.
  assert (PC : Permutation (cands m1) (cands m2)).
  { apply NoDup_Permutation; [exact N1|exact N2|]. intro c. unfold cands. rewrite T1, T2. change (map fst ?x) with (dkeys x). rewrite !table_keys.
    rewrite (table_perm _ _ PL c). rewrite (last_name_perm c _ _ PL). tauto. }
  assert (PVL : Permutation (j_votelines m1) (j_votelines m2)).
  { destruct (convert_shape _ _ _ _ _ H1) as (a0&A0&_&a1&A1&Ea). destruct (convert_shape _ _ _ _ _ H2) as (b0&B0&_&b1&B1&Eb).
    destruct (convert_state _ _ _ _ A0) as (Fa&va&Va&Ja&_). destruct (convert_state _ _ _ _ B0) as (Fb&vb&Vb&Jb&_).
    change (map (norm cw) (splitlines t1)) with (lines_of cw t1) in Va. change (map (norm cw) (splitlines t2)) with (lines_of cw t2) in Vb.
    rewrite Ev1 in Va. apply map_Ok_inj in Va. subst va. rewrite Ev2 in Vb. apply map_Ok_inj in Vb. subst vb.
    assert (P0 : Permutation (j_votelines a0) (j_votelines b0)) by (rewrite Ja, Jb; apply Permutation_map; exact Pv).
    assert (P1 : Permutation (j_votelines a1) (j_votelines b1)).
    { destruct ar.
      - assert (L : length (j_candidates a0) = length (j_candidates b0)).
        { rewrite (fold_table cw false _ 0 emptyish a0 (splitlines_one_line t1) emptyish_fine A0).
          rewrite (fold_table cw false _ 0 emptyish b0 (splitlines_one_line t2) emptyish_fine B0).
          change (j_candidates emptyish) with (@nil (str * str)).
          change (map (norm cw) (splitlines t1)) with (lines_of cw t1). change (map (norm cw) (splitlines t2)) with (lines_of cw t2). rewrite <- T1, <- T2.
          pose proof (Permutation_length PC) as E. unfold cands in E. rewrite !map_length in E. exact E. }
        destruct (add_ratings_perm _ _ _ P0 L A1) as (b1'&B1'&P1). rewrite B1 in B1'. apply ok_inj in B1'. subst b1'. exact P1.
      - apply ok_inj in A1. apply ok_inj in B1. subst a1 b1. exact P0. }
    rewrite Ea, Eb. cbn [j_votelines]. rewrite (sort_desc_perm v_qty (j_votelines a1)), (sort_desc_perm v_qty (j_votelines b1)). exact P1. }
  split; [exact PVL|]. split; [exact PC|]. split.
  - change (u "ballotcount") with k_ballotcount. rewrite (C28_ballotcount _ _ _ _ _ H1), (C28_ballotcount _ _ _ _ _ H2). do 2 f_equal. apply zsum_perm, Permutation_map, Permutation_sym, PVL.
  - intro Hd. apply NoDup_Permutation; [exact (NoDup_map_inv _ _ N1)|exact (NoDup_map_inv _ _ N2)|].
    assert (G : forall c, dget c (j_candidates m1) = dget c (j_candidates m2)).
    { intro c. rewrite T1, T2, !table_get, (last_name_decls c (lines_of cw t1)), Hd, <- last_name_decls, (table_perm _ _ PL c). reflexivity. }
    intros [c n]. split; intro Hin.
    + apply dget_In. rewrite <- G. apply dget_In_nodup; [exact N1|exact Hin].
    + apply dget_In. rewrite G. apply dget_In_nodup; [exact N2|exact Hin].
Qed.
Print Assumptions C79_line_order.

(** ** What follows for the results *)
Section SameElection.
Context (m m' : jabmod) (PV : Permutation (j_votelines m) (j_votelines m')) (PC : Permutation (j_candidates m) (j_candidates m')).

Lemma se_cands : Permutation (cands m) (cands m').
Proof. apply Permutation_map. exact PC. Qed.
Lemma se_memb c : memb c (cands m) = memb c (cands m').
Proof.
  destruct (memb c (cands m)) eqn:E1, (memb c (cands m')) eqn:E2; try reflexivity.
  - apply memb_In, (Permutation_in _ se_cands), memb_In in E1. congruence.
  - apply memb_In, (Permutation_in _ (Permutation_sym se_cands)), memb_In in E2. congruence.
Qed.
Lemma se_votes a b : votes_over m a b = votes_over m' a b.
Proof. unfold votes_over. apply ballots_where_perm. exact PV. Qed.
Lemma se_score c : total_score m c = total_score m' c.
Proof. unfold total_score. apply zsum_perm, Permutation_map, PV. Qed.
Lemma se_supporters c : supporters m c = supporters m' c.
Proof. unfold supporters. apply ballots_where_perm. exact PV. Qed.
Lemma se_name c : NoDup (cands m) -> dget c (j_candidates m) = dget c (j_candidates m').
Proof.
  intro N. assert (N' : NoDup (cands m')) by (apply (Permutation_NoDup se_cands); exact N).
  destruct (dget c (j_candidates m)) as [n|] eqn:E.
  - symmetry. apply dget_In_nodup; [exact N'|]. apply (Permutation_in _ PC). apply dget_In. exact E.
  - destruct (dget c (j_candidates m')) as [n|] eqn:E'; [|reflexivity]. apply dget_In, (Permutation_in _ (Permutation_sym PC)) in E'.
    rewrite (dget_In_nodup c n) in E; [discriminate|exact N|exact E'].
Qed.

Lemma se_pairwise pm pm' : tallyable m -> tallyable m' -> pairwise_count_dict m = Ok pm -> pairwise_count_dict m' = Ok pm' ->
  forall a b, mat_get a b pm' = mat_get a b pm.
Proof.
  intros T T' E E' a b. rewrite (C01_pairwise_exact m T) in E. apply ok_inj in E. rewrite (C01_pairwise_exact m' T') in E'. apply ok_inj in E'. subst pm pm'.
  unfold mat_get. rewrite !matrix_dmap, !dget_dmap, se_memb. destruct (memb a (cands m')); [|reflexivity]. rewrite !dget_dmap, se_memb.
  destruct (memb b (cands m')); [|reflexivity]. rewrite se_votes. reflexivity.
Qed.

Lemma se_copeland cc cc' ws ws' : tallyable m -> tallyable m' ->
  full_copecount m = Ok cc -> full_copecount m' = Ok cc' -> get_Copeland_winners cc = Ok ws -> get_Copeland_winners cc' = Ok ws' ->
  (forall c, dget c (cc_winlosstie cc') = dget c (cc_winlosstie cc)) /\ Permutation ws ws'.
Proof.
  intros T T' E E' W W'.
  assert (T2 : tallyable (with_lines m (j_votelines m'))).
  { split; [apply T|]. intros l Hl. apply (proj2 T'). exact Hl. }
  assert (E2 : full_copecount (with_lines m (j_votelines m')) = Ok cc).
  { rewrite <- E. unfold full_copecount. rewrite (C03_line_order_irrelevant m _ T PV). reflexivity. }
  exact (C68_candidate_order (with_lines m (j_votelines m')) m' cc cc' ws ws' T2 T' PC eq_refl E2 E' W W').
Qed.

Lemma se_scores r r' : scorable m -> scorable m' -> basic_score_result m = Ok r -> basic_score_result m' = Ok r' ->
  forall c, dget c r' = dget c r.
Proof.
  intros S S' E E' c. rewrite (basic_score_ok m S) in E. rewrite (basic_score_ok m' S') in E'. apply ok_inj in E. apply ok_inj in E'. subst r r'.
  rewrite !dget_dmap, se_memb. destruct (memb c (cands m')); [|reflexivity]. do 2 f_equal.
  - unfold cand_name. rewrite (se_name c) by apply S. reflexivity.
  - symmetry. apply se_score.
  - symmetry. apply se_supporters.
Qed.

Lemma se_order : NoDup (cands m) -> (forall a b, In a (cands m) -> In b (cands m) -> total_score m a = total_score m b -> a = b) ->
  sort_desc (total_score m') (cands m') = sort_desc (total_score m) (cands m).
Proof.
  intros N D. symmetry.
  assert (P : Permutation (sort_desc (total_score m) (cands m)) (sort_desc (total_score m') (cands m'))).
  { rewrite !sort_desc_perm. exact se_cands. }
  assert (S1 := sort_desc_sorted (total_score m) (cands m)).
  assert (S2 : StronglySorted (fun x y => total_score m y <= total_score m x) (sort_desc (total_score m') (cands m'))).
  { assert (X := sort_desc_sorted (total_score m') (cands m')). clear -X PV. induction X as [|x l _ IH F]; constructor; [exact IH|].
    eapply Forall_impl; [|exact F]. intros y Hy. cbn beta in Hy. rewrite !se_score. exact Hy. }
  assert (D' : forall a b, In a (sort_desc (total_score m) (cands m)) -> In b (sort_desc (total_score m) (cands m)) -> total_score m a = total_score m b -> a = b).
  { intros a b Ha Hb. apply D; apply (Permutation_in _ (sort_desc_perm (total_score m) (cands m))); assumption. }
  clear D N. revert S2 P D'. generalize (sort_desc (total_score m') (cands m')) as l'. induction S1 as [|x l _ IH F]; intros l' S2 P D'.
  - apply Permutation_nil in P. congruence.
  - destruct l' as [|y l']; [apply Permutation_sym, Permutation_nil in P; discriminate|]. apply StronglySorted_inv in S2 as [S2 F2]. rewrite Forall_forall in F, F2.
    assert (E : x = y).
    { apply D'; [left; reflexivity|apply (Permutation_in _ (Permutation_sym P)); left; reflexivity|].
      assert (Hx : In x (y :: l')) by (apply (Permutation_in _ P); left; reflexivity). assert (Hy : In y (x :: l)) by (apply (Permutation_in _ (Permutation_sym P)); left; reflexivity).
      destruct Hx as [->|Hx]; [reflexivity|]. destruct Hy as [->|Hy]; [reflexivity|]. specialize (F _ Hy). specialize (F2 _ Hx). cbn beta in F, F2. lia. }
    subst y. f_equal. apply IH; [exact S2|exact (Permutation_cons_inv P)|]. intros a b Ha Hb. apply D'; right; assumption.
Qed.

Lemma se_star bc st st' : scorable m -> scorable m' -> tallyable m -> tallyable m' ->
  dget k_ballotcount (j_metadata m) = Some (JInt bc) -> dget k_ballotcount (j_metadata m') = Some (JInt bc) ->
  (forall a b, In a (cands m) -> In b (cands m) -> total_score m a = total_score m b -> a = b) ->
  STAR_result m = Ok st -> STAR_result m' = Ok st' ->
  st_fin1 st' = st_fin1 st /\ st_fin2 st' = st_fin2 st /\ st_fin1votes st' = st_fin1votes st /\ st_fin2votes st' = st_fin2votes st /\ st_winner st' = st_winner st.
Proof.
  intros S S' T T' B B' D E E'. destruct (star_parts m bc st S T B E) as (a&b&q&So&F1&F2&_&_&V1&V2&W).
  destruct (star_parts m' bc st' S' T' B' E') as (a'&b'&q'&So'&F1'&F2'&_&_&V1'&V2'&W').
  rewrite (se_order (proj1 S) D), So in So'. injection So' as <- <- <-.
  assert (Nm : forall c, cand_name m' c = cand_name m c) by (intro c; unfold cand_name; rewrite (se_name c) by apply S; reflexivity).
  rewrite F1', F2', V1', V2', W', F1, F2, V1, V2, W, !Nm, <- !se_votes. auto.
Qed.

Lemma se_irv o o' d d' : schedule o -> schedule o' -> irv_election m -> irv_election m' -> strict_election m ->
  IRV_dict_from_jabmod o m = Ok d -> IRV_dict_from_jabmod o' m' = Ok d' ->
  (forall i rc rm, round d i rc rm -> ~ final d i -> im_random_elim rm = false) ->
  Permutation (ir_winner d) (ir_winner d') /\ Forall2 (@Permutation _) (ir_rounds d) (ir_rounds d').
Proof.
  intros Ho Ho' I I' Hs E E' Hnr.
  assert (Ex := C26_irv_line_order o m (j_votelines m') Ho I Hs PV). rewrite E in Ex.
  assert (I2 : irv_election (with_lines m (j_votelines m'))).
  { destruct I as (I1&I3&I4). split; [exact I1|]. split; [exact I3|]. intros l Hl. apply (I4 l), (Permutation_in _ (Permutation_sym PV)). exact Hl. }
  destruct (irv_run o _ Ho I2) as (x&Ey&T&_). rewrite Ex in Ey. apply ok_inj in Ey. subst x.
  destruct (irv_run o' m' Ho' I') as (x&Ey&T'&_). rewrite E' in Ey. apply ok_inj in Ey. subst x.
  destruct (trace_lengths _ _ _ _ _ _ _ _ T) as [L _].
  assert (Hq : forall k rm, nth_error (ir_roundmeta d) k = Some rm -> (S k < length (ir_roundmeta d))%nat -> im_random_elim rm = false).
  { intros k rm Hk HL. destruct (nth_error (ir_rounds d) k) as [rc|] eqn:Er.
    - apply (Hnr k rc rm); [split; assumption|]. unfold final. lia.
    - apply nth_error_None in Er. lia. }
  destruct (trace_det o o' _ _ _ _ _ _ _ Ho Ho' T Hq _ _ _ _ _ se_cands T') as (H1&H2&_). split; assumption.
Qed.
End SameElection.

(** Two files with the same lines in different orders, candidate lines in the same order, give the same
    pairwise counts, win-loss-tie records, Copeland winners and scores; the same score ranking and STAR
    result if no two candidates have the same score; and the same IRV rounds and winners (up to the
    order of the candidates) if no ballot ranks two candidates equal and no lot is drawn. *)
Theorem C79_same_results : forall text1 text2 cleanws add_ratings m1 m2,
  Permutation (splitlines text1) (splitlines text2) ->
  filter is_decl (lines_of cleanws text1) = filter is_decl (lines_of cleanws text2) ->
  Z.of_nat (length text1) <= maxsize -> Z.of_nat (length text2) <= maxsize ->
  convert_abif_to_jabmod text1 cleanws add_ratings false = Ok m1 ->
  convert_abif_to_jabmod text2 cleanws add_ratings false = Ok m2 ->
  (exists pm1 pm2, pairwise_count_dict m1 = Ok pm1 /\ pairwise_count_dict m2 = Ok pm2 /\ forall a b, mat_get a b pm2 = mat_get a b pm1) /\
  (forall cc1 cc2 ws1 ws2, full_copecount m1 = Ok cc1 -> full_copecount m2 = Ok cc2 ->
     get_Copeland_winners cc1 = Ok ws1 -> get_Copeland_winners cc2 = Ok ws2 ->
     (forall c, dget c (cc_winlosstie cc2) = dget c (cc_winlosstie cc1)) /\ Permutation ws1 ws2) /\
  (exists r1 r2, basic_score_result m1 = Ok r1 /\ basic_score_result m2 = Ok r2 /\ forall c, dget c r2 = dget c r1) /\
  ((forall a b, In a (cands m1) -> In b (cands m1) -> total_score m1 a = total_score m1 b -> a = b) ->
     (forall sr1 sr2, enhanced_score_result m1 = Ok sr1 -> enhanced_score_result m2 = Ok sr2 -> sr_ranklist sr2 = sr_ranklist sr1) /\
     (forall st1 st2, STAR_result m1 = Ok st1 -> STAR_result m2 = Ok st2 ->
        st_fin1 st2 = st_fin1 st1 /\ st_fin2 st2 = st_fin2 st1 /\ st_fin1votes st2 = st_fin1votes st1 /\
        st_fin2votes st2 = st_fin2votes st1 /\ st_winner st2 = st_winner st1)) /\
  (forall o1 o2 d1 d2, schedule o1 -> schedule o2 -> strict_election m1 -> cands m1 <> [] ->
     IRV_dict_from_jabmod o1 m1 = Ok d1 -> IRV_dict_from_jabmod o2 m2 = Ok d2 ->
     (forall i rc rm, round d1 i rc rm -> ~ final d1 i -> im_random_elim rm = false) ->
     Permutation (ir_winner d1) (ir_winner d2) /\ Forall2 (@Permutation _) (ir_rounds d1) (ir_rounds d2)).
Proof.
  intros t1 t2 cw ar m1 m2 P Hd L1 L2 H1 H2. destruct (C79_line_order t1 t2 cw ar m1 P H1) as (m2'&H2'&PV&_&Eb&PC).
  rewrite H2 in H2'. apply ok_inj in H2'. subst m2'. specialize (PC Hd).
  destruct (C36_parsed_is_tallyable _ _ _ _ _ H1 L1) as (T1&S1&_&I1). destruct (C36_parsed_is_tallyable _ _ _ _ _ H2 L2) as (T2&S2&_&I2).
  split; [|split; [|split; [|split]]].
  - rewrite (C01_pairwise_exact m1 T1), (C01_pairwise_exact m2 T2). do 2 eexists. split; [reflexivity|]. split; [reflexivity|].
    apply (se_pairwise m1 m2 PV PC); [exact T1|exact T2|apply C01_pairwise_exact, T1|apply C01_pairwise_exact, T2].
  - intros cc1 cc2 ws1 ws2 E1 E2 W1 W2. exact (se_copeland m1 m2 PV PC cc1 cc2 ws1 ws2 T1 T2 E1 E2 W1 W2).
  - rewrite (basic_score_ok m1 S1), (basic_score_ok m2 S2). do 2 eexists. split; [reflexivity|]. split; [reflexivity|].
    apply (se_scores m1 m2 PV PC); [exact S1|exact S2|apply basic_score_ok, S1|apply basic_score_ok, S2].
  - intro D. split.
    + intros sr1 sr2 E1 E2. rewrite (ranklist_order m1 sr1 S1 E1), (ranklist_order m2 sr2 S2 E2). exact (se_order m1 m2 PV PC (proj1 S1) D).
    + intros st1 st2 E1 E2. change (u "ballotcount") with k_ballotcount in Eb. pose proof (C28_ballotcount _ _ _ _ _ H1) as B1. rewrite <- Eb in B1.
      exact (se_star m1 m2 PV PC _ st1 st2 S1 S2 T1 T2 (C28_ballotcount _ _ _ _ _ H1) B1 D E1 E2).
  - intros o1 o2 d1 d2 O1 O2 Hs Hne E1 E2 Hnr.
    assert (Hne2 : cands m2 <> []) by (intro E; pose proof (se_cands m1 m2 PC) as Q; rewrite E in Q; apply Permutation_sym, Permutation_nil in Q; congruence).
    exact (se_irv m1 m2 PV PC o1 o2 d1 d2 O1 O2 (I1 Hne) (I2 Hne2) Hs E1 E2 Hnr).
Qed.
Print Assumptions C79_same_results.

(** If moreover both files start with the same candidate lines, which name every candidate, and have no
    others, then the results are the same in every detail. *)
Lemma merge_declared ks : forall t, (forall c, In c ks -> In c (dkeys t)) -> merge_cands ks t = t.
Proof.
  induction ks as [|k ks IH]; intros t H; unfold merge_cands; cbn [fold_left]; [reflexivity|]. change (fold_left _ ks ?t0) with (merge_cands ks t0).
  assert (E : dmem k t = true) by (apply dmem_In, H; left; reflexivity). rewrite E. apply IH. intros c Hc. apply H. right. exact Hc.
Qed.
Lemma table_fixed t ls : (forall l, In l ls -> decl l = None) -> (forall l c, In l ls -> mentions c l = true -> In c (dkeys t)) ->
  fold_left table_step ls t = t.
Proof.
  induction ls as [|l ls IH]; intros H1 H2; cbn [fold_left]; [reflexivity|].
  assert (E : table_step t l = t).
  { unfold table_step. rewrite (H1 l (or_introl eq_refl)). destruct (vote_of l) as [[[v ks]|e]|] eqn:Ev; [|reflexivity|reflexivity].
    apply merge_declared. intros c Hc. apply (H2 l c (or_introl eq_refl)). unfold mentions. rewrite Ev. apply memb_In. exact Hc. }
  rewrite E. apply IH; [intros x Hx; apply H1; right; exact Hx|intros x c Hx; apply (H2 x c); right; exact Hx].
Qed.

Theorem C79_declared_first : forall text1 text2 cleanws add_ratings m1 m2 header body1 body2,
  lines_of cleanws text1 = header ++ body1 -> lines_of cleanws text2 = header ++ body2 ->
  Permutation (splitlines text1) (splitlines text2) ->
  (forall l, In l (body1 ++ body2) -> is_decl l = false) ->
  (forall l c, In l (body1 ++ body2) -> mentions c l = true -> last_name c header <> None) ->
  Z.of_nat (length text1) <= maxsize -> Z.of_nat (length text2) <= maxsize ->
  convert_abif_to_jabmod text1 cleanws add_ratings false = Ok m1 ->
  convert_abif_to_jabmod text2 cleanws add_ratings false = Ok m2 ->
  j_candidates m2 = j_candidates m1 /\
  pairwise_count_dict m2 = pairwise_count_dict m1 /\ full_copecount m2 = full_copecount m1 /\
  basic_score_result m2 = basic_score_result m1 /\ enhanced_score_result m2 = enhanced_score_result m1 /\
  STAR_result m2 = STAR_result m1 /\
  (forall o, schedule o -> strict_election m1 -> cands m1 <> [] -> IRV_dict_from_jabmod o m2 = IRV_dict_from_jabmod o m1).
Proof.
  intros t1 t2 cw ar m1 m2 hd b1 b2 E1 E2 P Hd Hm L1 L2 H1 H2.
  assert (Hdecl : forall l, In l (b1 ++ b2) -> decl l = None).
  { intros l Hl. destruct (decl l) eqn:E; [|reflexivity]. assert (X := Hd l Hl). rewrite decl_is_decl in X by congruence. discriminate. }
  assert (Hkeys : forall l c, In l (b1 ++ b2) -> mentions c l = true -> In c (dkeys (fold_left table_step hd []))).
  { intros l c Hl Hc. apply table_keys. left. exact (Hm l c Hl Hc). }
  assert (C1 : j_candidates m1 = fold_left table_step hd []).
  { rewrite (convert_table _ _ _ _ _ H1), E1, fold_left_app. apply table_fixed; [intros l Hl; apply Hdecl; apply in_or_app; auto|intros l c Hl; apply (Hkeys l c); apply in_or_app; auto]. }
  assert (C2 : j_candidates m2 = fold_left table_step hd []).
  { rewrite (convert_table _ _ _ _ _ H2), E2, fold_left_app. apply table_fixed; [intros l Hl; apply Hdecl; apply in_or_app; auto|intros l c Hl; apply (Hkeys l c); apply in_or_app; auto]. }
  assert (EC : j_candidates m2 = j_candidates m1) by congruence.
  destruct (C79_line_order t1 t2 cw ar m1 P H1) as (m2'&H2'&PV&_&Eb&_). rewrite H2 in H2'. apply ok_inj in H2'. subst m2'.
  destruct (C36_parsed_is_tallyable _ _ _ _ _ H1 L1) as (T1&S1&_&I1). destruct (C36_parsed_is_tallyable _ _ _ _ _ H2 L2) as (T2&S2&_&I2).
  assert (EP : pairwise_count_dict m2 = pairwise_count_dict m1).
  { apply tally_ext; [exact T2|exact T1|exact EC|]. intros a b. symmetry. apply (se_votes m1 m2 PV). }
  assert (EF : full_copecount m2 = full_copecount m1) by (unfold full_copecount; rewrite EP, EC; reflexivity).
  assert (EB : basic_score_result m2 = basic_score_result m1).
  { rewrite (basic_score_ok m1 S1), (basic_score_ok m2 S2). f_equal. unfold cands. rewrite EC. apply dmap_ext. intros c _. f_equal.
    - unfold cand_name. rewrite EC. reflexivity.
    - symmetry. apply (se_score m1 m2 PV).
    - symmetry. apply (se_supporters m1 m2 PV). }
  assert (EE : enhanced_score_result m2 = enhanced_score_result m1).
  { change (u "ballotcount") with k_ballotcount in Eb. unfold enhanced_score_result, dgetE. rewrite EB, Eb. reflexivity. }
  split; [exact EC|]. split; [exact EP|]. split; [exact EF|]. split; [exact EB|]. split; [exact EE|]. split.
  - unfold STAR_result. rewrite EE, EF. reflexivity.
  - intros o Ho Hs Hne. rewrite <- (C26_irv_line_order o m1 (j_votelines m2) Ho (I1 Hne) Hs PV).
    unfold IRV_dict_from_jabmod, with_lines. cbn [j_candidates j_votelines]. rewrite EC. reflexivity.
Qed.
Print Assumptions C79_declared_first.

(** ** Joined files *)
Lemma splitlines_join_aux : forall n s t cur st, (length s <= n)%nat ->
  splitlines_aux (s ++ 10%N :: t) cur st = splitlines_aux (s ++ [10%N]) cur st ++ splitlines t.
Proof.
  induction n as [|n IH]; intros s t cur st Hn.
  { destruct s; [|cbn in Hn; lia]. cbn [app splitlines_aux]. change (is_linebreak 10) with true. cbv iota.
    change (10 =? 13)%N with false. cbn [andb]. destruct t; reflexivity. }
  destruct s as [|c r]. { apply (IH []). cbn. lia. }
  cbn [length] in Hn. cbn [app splitlines_aux]. destruct (is_linebreak c) eqn:El; [|apply IH; lia].
  destruct r as [|c' r']; cbn [app].
  - destruct (N.eqb c 13 && N.eqb 10 10)%bool; cbn [app]; f_equal. apply (IH [] t [] false). cbn. lia.
  - cbn [length] in Hn. destruct (N.eqb c 13 && N.eqb c' 10)%bool; cbn [app]; f_equal; [apply IH; lia|].
    apply (IH (c' :: r') t [] false). cbn [length]. lia.
Qed.
Lemma splitlines_join s t : splitlines (s ++ 10%N :: t) = splitlines (s ++ [10%N]) ++ splitlines t.
Proof. apply (splitlines_join_aux (length s)). lia. Qed.

Lemma same_ballot_prefers v w a b : same_ballot v w -> v_qty w = v_qty v /\ prefers w a b = prefers v a b.
Proof. intros (S1&_&_&_&_&S6&_). split; [exact S1|]. unfold prefers. rewrite !S6. reflexivity. Qed.

(** The counts of a file, from the votelines its lines give. *)
Lemma convert_counts text cw ar sc m : convert_abif_to_jabmod text cw ar sc = Ok m ->
  exists vs, votes_of (lines_of cw text) = map Ok vs /\
    (ar = false -> Permutation (j_votelines m) (map fst vs)) /\
    total_ballots m = zsum (map v_qty (map fst vs)) /\
    (forall a b, votes_over m a b = ballots_where (fun l => prefers l a b) (map fst vs)).
Proof.
  intro H. destruct (convert_votes _ _ _ _ _ H) as (m0&vs&ls&_&_&_&Ev&El&F&Els&_). exists vs. split; [exact Ev|].
  assert (P : Permutation (j_votelines m) ls) by (rewrite El; apply sort_desc_perm).
  split; [intro Ha; rewrite <- (Els Ha); exact P|]. split.
  - unfold total_ballots. rewrite <- (Forall2_qty _ _ F). apply zsum_perm, Permutation_map, P.
  - intros a b. unfold votes_over. rewrite (ballots_where_perm _ _ _ P). unfold ballots_where. clear -F. revert F. generalize (map fst vs) as us. intros us F.
    induction F as [|v w us' ws H _ IH]; cbn [map zsum]; [reflexivity|]. destruct (same_ballot_prefers v w a b H) as [-> ->]. rewrite IH. reflexivity.
Qed.

(** Two files, the first ending with a newline, written one after the other (as "cat file1 file2" does):
    all counts of ballots add up, and the candidates are those of the two files, named as in the second
    file if it has a line naming them. *)
Theorem C79_joined : forall text1 text2 cleanws add_ratings m1 m2,
  convert_abif_to_jabmod (text1 ++ u "
") cleanws add_ratings false = Ok m1 ->
  convert_abif_to_jabmod text2 cleanws add_ratings false = Ok m2 ->
  exists m, convert_abif_to_jabmod ((text1 ++ u "
") ++ text2) cleanws add_ratings false = Ok m /\
    total_ballots m = total_ballots m1 + total_ballots m2 /\
    (forall a b, votes_over m a b = votes_over m1 a b + votes_over m2 a b) /\
    (forall c, In c (cands m) <-> In c (cands m1) \/ In c (cands m2)) /\
    (forall c, last_name c (lines_of cleanws text2) <> None -> dget c (j_candidates m) = dget c (j_candidates m2)) /\
    (forall c, last_name c (lines_of cleanws text2) = None -> In c (cands m1) -> dget c (j_candidates m) = dget c (j_candidates m1)) /\
    (add_ratings = false -> Permutation (j_votelines m) (j_votelines m1 ++ j_votelines m2)).
Proof.
  intros t1 t2 cw ar m1 m2 H1 H2. rewrite <- app_assoc. change (u "
") with [10%N] in *. cbn [app].
  destruct (convert_counts _ _ _ _ _ H1) as (v1&V1&P1&B1&O1). destruct (convert_counts _ _ _ _ _ H2) as (v2&V2&P2&B2&O2).
  assert (EL : lines_of cw (t1 ++ 10%N :: t2) = lines_of cw (t1 ++ [10%N]) ++ lines_of cw t2).
  { unfold lines_of. rewrite splitlines_join, map_app. reflexivity. }
  assert (Ev : votes_of (lines_of cw (t1 ++ 10%N :: t2)) = map Ok (v1 ++ v2)) by (rewrite EL, votes_of_app, V1, V2, map_app; reflexivity).
  assert (Hne : v1 ++ v2 <> []).
  { destruct (proj1 (readable_iff t2 cw ar) (ex_intro _ m2 H2)) as (x&Hx&Ex). rewrite V2 in Ex. apply map_Ok_inj in Ex. subst x. intro E. apply app_eq_nil in E as [_ E]. congruence. }
  destruct (proj2 (readable_iff (t1 ++ 10%N :: t2) cw ar) (ex_intro _ _ (conj Hne Ev))) as [m H]. exists m. split; [exact H|].
  destruct (convert_counts _ _ _ _ _ H) as (v&V&P&B&O). rewrite Ev in V. apply map_Ok_inj in V. subst v.
  pose proof (convert_table _ _ _ _ _ H) as T. pose proof (convert_table _ _ _ _ _ H1) as T1. pose proof (convert_table _ _ _ _ _ H2) as T2.
  split; [|split; [|split; [|split; [|split]]]].
  - rewrite B, B1, B2, !map_app. apply zsum_app.
  - intros a b. rewrite O, O1, O2, map_app. unfold ballots_where. rewrite map_app. apply zsum_app.
  - intro c. unfold cands. rewrite T, T1, T2. change (map fst ?x) with (dkeys x). rewrite !table_keys, EL, last_name_app, existsb_app, orb_true_iff.
    destruct (last_name c (lines_of cw t2)); [|tauto]. split; [right; left; discriminate|left; discriminate].
  - intros c Hc. rewrite T, T2, !table_get, EL, last_name_app. destruct (last_name c (lines_of cw t2)); [reflexivity|congruence].
  - intros c Hc Hin. unfold cands in Hin. rewrite T1 in Hin. apply table_keys in Hin. rewrite T, T1, !table_get, EL, last_name_app, Hc, existsb_app.
    destruct (last_name c (lines_of cw (t1 ++ [10%N]))); [reflexivity|]. destruct Hin as [Hin|Hin]; [congruence|]. rewrite Hin. reflexivity.
  - intro Ha. rewrite (P Ha), (P1 Ha), (P2 Ha), map_app. apply Permutation_refl.
Qed.
Print Assumptions C79_joined.

(** ** Split votelines *)
Lemma take_digits ds rest : forallb is_digit ds = true -> take_while is_digit (ds ++ 58%N :: rest) = ds /\ drop_while is_digit (ds ++ 58%N :: rest) = 58%N :: rest.
Proof.
  induction ds as [|d ds IH]; intro H; cbn [app take_while drop_while].
  - change (is_digit 58) with false. split; reflexivity.
  - cbn [forallb] in H. apply andb_prop in H as [H1 H2]. rewrite H1. destruct (IH H2) as [-> ->]. split; reflexivity.
Qed.
Lemma digits_no_hash ds rest : forallb is_digit ds = true -> before_hash (ds ++ 58%N :: rest) = ds ++ 58%N :: before_hash rest /\ comment_of (ds ++ 58%N :: rest) = comment_of rest.
Proof.
  induction ds as [|d ds IH]; intro H; cbn [app before_hash comment_of].
  - change (58 =? 35)%N with false. split; reflexivity.
  - cbn [forallb] in H. apply andb_prop in H as [H1 H2]. destruct (N.eqb_spec d 35) as [->|]; [vm_compute in H1; discriminate|]. destruct (IH H2) as [-> ->]. split; reflexivity.
Qed.
Lemma vote_of_digits ds rest : numeral ds ->
  vote_of (ds ++ 58%N :: rest) = Some (bind (py_int ds) (fun q => bind (parse_prefstr (before_hash rest)) (fun pk =>
    Ok (Voteline q (fst pk) (comment_of rest) (Some (rstrip (before_hash rest))) (voter_id (comment_of rest)) None, snd pk)))).
Proof.
  intros [Hne Hd]. unfold vote_of. destruct (digits_no_hash ds rest Hd) as [-> ->]. unfold vote_parts.
  destruct (take_digits ds (before_hash rest) Hd) as [-> ->]. destruct ds as [|d ds]; [congruence|]. reflexivity.
Qed.

(** Writing "5:A>B" as the two lines "2:A>B" and "3:A>B" changes no count and no candidate. *)
Theorem C79_split : forall text1 text2 cleanws add_ratings m1 before after ds ds1 ds2 q q1 q2 rest,
  numeral ds -> numeral ds1 -> numeral ds2 ->
  py_int ds = Ok q -> py_int ds1 = Ok q1 -> py_int ds2 = Ok q2 -> q = q1 + q2 ->
  lines_of cleanws text1 = before ++ (ds ++ u ":" ++ rest) :: after ->
  lines_of cleanws text2 = before ++ (ds1 ++ u ":" ++ rest) :: (ds2 ++ u ":" ++ rest) :: after ->
  Z.of_nat (length text1) <= maxsize -> Z.of_nat (length text2) <= maxsize ->
  convert_abif_to_jabmod text1 cleanws add_ratings false = Ok m1 ->
  exists m2, convert_abif_to_jabmod text2 cleanws add_ratings false = Ok m2 /\
    j_candidates m2 = j_candidates m1 /\ total_ballots m2 = total_ballots m1 /\
    (forall a b, votes_over m2 a b = votes_over m1 a b) /\
    pairwise_count_dict m2 = pairwise_count_dict m1 /\ full_copecount m2 = full_copecount m1 /\
    (add_ratings = false -> basic_score_result m2 = basic_score_result m1 /\ enhanced_score_result m2 = enhanced_score_result m1 /\ STAR_result m2 = STAR_result m1).
Proof.
  intros t1 t2 cw ar m1 A0 B0 ds ds1 ds2 q q1 q2 rest N0 N1 N2 Q0 Q1 Q2 Eq E1 E2 L1 L2 H1.
  change (u ":" ++ rest) with (58%N :: rest) in *.
  destruct (convert_counts _ _ _ _ _ H1) as (v1&V1&P1&B1&O1).
  pose proof V1 as V1'. rewrite E1, votes_of_app in V1'. cbn [votes_of] in V1'. rewrite (vote_of_digits ds rest N0), Q0 in V1'. cbn [bind] in V1'.
  symmetry in V1'. apply map_eq_app in V1' as (va&vb&Ev&Va&Vb). destruct vb as [|[w ks] vb]; [discriminate|]. cbn [map] in Vb. injection Vb as Ew Vb. symmetry in Ew.
  apply bind_ok in Ew as [[ps ks'] [Ep Ew]]. cbn [fst snd] in Ew. apply ok_inj in Ew. injection Ew as Ew Ek. subst ks'.
  set (mk := fun z => Voteline z ps (comment_of rest) (Some (rstrip (before_hash rest))) (voter_id (comment_of rest)) None).
  assert (V2 : votes_of (lines_of cw t2) = map Ok (va ++ (mk q1, ks) :: (mk q2, ks) :: vb)).
  { rewrite E2, votes_of_app. cbn [votes_of]. rewrite (vote_of_digits ds1 rest N1), (vote_of_digits ds2 rest N2), Q1, Q2. cbn [bind]. rewrite Ep. cbn [bind fst snd].
    rewrite map_app, <- Va. cbn [map]. rewrite <- Vb. reflexivity. }
  destruct (proj2 (readable_iff t2 cw ar)) as [m2 H2]; [exists (va ++ (mk q1, ks) :: (mk q2, ks) :: vb); split; [destruct va; discriminate|exact V2]|].
  exists m2. split; [exact H2|]. destruct (convert_counts _ _ _ _ _ H2) as (v2&V2'&P2&B2&O2). rewrite V2 in V2'. apply map_Ok_inj in V2'. subst v2 v1.
  assert (EC : j_candidates m2 = j_candidates m1).
  { rewrite (convert_table _ _ _ _ _ H1), (convert_table _ _ _ _ _ H2), E1, E2, !fold_left_app. cbn [fold_left].
    generalize (fold_left table_step A0 []) as t. intro t. f_equal. unfold table_step.
    rewrite (vote_of_digits ds rest N0), (vote_of_digits ds1 rest N1), (vote_of_digits ds2 rest N2), Q0, Q1, Q2. cbn [bind]. rewrite Ep. cbn [bind fst snd].
    apply merge_declared. intros c Hc.
    apply dget_Some_In. rewrite merge_get. destruct (dget c _); [eauto|]. rewrite (proj2 (memb_In c ks) Hc). eauto. }
  assert (ES : forall f : voteline -> Z, (f (mk (q1 + q2)) = f (mk q1) + f (mk q2)) ->
     zsum (map f (map fst (va ++ (mk q1, ks) :: (mk q2, ks) :: vb))) = zsum (map f (map fst (va ++ (w, ks) :: vb)))).
  { intros f Hf. rewrite !map_app, !zsum_app. cbn [map zsum fst]. rewrite <- Ew, Eq. fold (mk (q1 + q2)). rewrite Hf. lia. }
  assert (EB : total_ballots m2 = total_ballots m1) by (rewrite B1, B2; apply (ES v_qty); reflexivity).
  assert (EO : forall a b, votes_over m2 a b = votes_over m1 a b).
  { intros a b. rewrite O1, O2. unfold ballots_where. apply (ES (fun l => if prefers l a b then v_qty l else 0)).
    change (prefers (mk (q1 + q2)) a b) with (prefers (mk 0) a b). change (prefers (mk q1) a b) with (prefers (mk 0) a b). change (prefers (mk q2) a b) with (prefers (mk 0) a b).
    destruct (prefers (mk 0) a b); reflexivity. }
  destruct (C36_parsed_is_tallyable _ _ _ _ _ H1 L1) as (T1&S1&_). destruct (C36_parsed_is_tallyable _ _ _ _ _ H2 L2) as (T2&S2&_).
  assert (EP : pairwise_count_dict m2 = pairwise_count_dict m1) by (apply tally_ext; assumption).
  assert (EF : full_copecount m2 = full_copecount m1) by (unfold full_copecount; rewrite EP, EC; reflexivity).
  split; [exact EC|]. split; [exact EB|]. split; [exact EO|]. split; [exact EP|]. split; [exact EF|].
  intro Ha. specialize (P1 Ha). specialize (P2 Ha).
  assert (EBS : basic_score_result m2 = basic_score_result m1).
  { rewrite (basic_score_ok m1 S1), (basic_score_ok m2 S2). f_equal. unfold cands. rewrite EC. apply dmap_ext. intros c _. f_equal.
    - unfold cand_name. rewrite EC. reflexivity.
    - unfold total_score. rewrite (zsum_perm _ _ (Permutation_map _ P1)), (zsum_perm _ _ (Permutation_map _ P2)). apply ES.
      change (rating_on (mk (q1 + q2)) c) with (rating_on (mk 0) c). change (rating_on (mk q1) c) with (rating_on (mk 0) c). change (rating_on (mk q2) c) with (rating_on (mk 0) c). cbn [mk v_qty]. lia.
    - unfold supporters. rewrite (ballots_where_perm _ _ _ P1), (ballots_where_perm _ _ _ P2). unfold ballots_where. apply ES.
      change (rating_on (mk (q1 + q2)) c) with (rating_on (mk 0) c). change (rating_on (mk q1) c) with (rating_on (mk 0) c). change (rating_on (mk q2) c) with (rating_on (mk 0) c). cbn [mk v_qty].
      match goal with |- context [if ?x then _ else _] => destruct x end; lia. }
  assert (EE : enhanced_score_result m2 = enhanced_score_result m1).
  { unfold enhanced_score_result, dgetE. rewrite EBS, (C28_ballotcount _ _ _ _ _ H1), (C28_ballotcount _ _ _ _ _ H2).
    unfold total_ballots in EB. rewrite EB. reflexivity. }
  split; [exact EBS|]. split; [exact EE|]. unfold STAR_result. rewrite EE, EF. reflexivity.
Qed.
Print Assumptions C79_split.

(** ** Samples, and what does depend on the order *)
Definition ordered : str := u "=A:Ann" ++ nl ++ u "=B:Bob" ++ nl ++ u "# note" ++ nl ++ u "5:A>B>C" ++ nl ++ u "4:C>B" ++ nl ++ u "2:B>C/3" ++ nl.
Definition reordered : str := u "2:B>C/3" ++ nl ++ u "=A:Ann" ++ nl ++ u "4:C>B" ++ nl ++ u "5:A>B>C" ++ nl ++ u "=B:Bob" ++ nl ++ u "# note" ++ nl.
Example C79_sample : Permutation (splitlines ordered) (splitlines reordered) /\
  filter is_decl (lines_of false ordered) = filter is_decl (lines_of false reordered) /\
  exists m1 m2 d, convert_abif_to_jabmod ordered false true false = Ok m1 /\ convert_abif_to_jabmod reordered false true false = Ok m2 /\
    cands m1 = [A; B; C] /\ cands m2 = [B; C; A] /\ strict_election m1 /\
    IRV_dict_from_jabmod o0 m1 = Ok d /\ map im_random_elim (ir_roundmeta d) = [false; false] /\ ir_winner d = [C].
Proof.
  split; [|split; [vm_compute; reflexivity|]].
  - assert (E1 : splitlines ordered = [u "=A:Ann"; u "=B:Bob"; u "# note"; u "5:A>B>C"; u "4:C>B"; u "2:B>C/3"]) by (vm_compute; reflexivity).
    assert (E2 : splitlines reordered = [u "2:B>C/3"; u "=A:Ann"; u "4:C>B"; u "5:A>B>C"; u "=B:Bob"; u "# note"]) by (vm_compute; reflexivity).
    rewrite E1, E2. apply NoDup_Permutation; [nodup|nodup|]. intro x. cbn. tauto.
  - do 3 eexists. split; [vm_compute; reflexivity|]. split; [vm_compute; reflexivity|]. split; [vm_compute; reflexivity|]. split; [vm_compute; reflexivity|].
    split; [strict_elec|]. split; [vm_compute; reflexivity|]. split; vm_compute; reflexivity.
Qed.

Example C79_declared_sample : exists header body1 body2,
  lines_of false (u "=A:Ann" ++ nl ++ u "=B:Bob" ++ nl ++ u "5:A>B" ++ nl ++ u "3:B") = header ++ body1 /\
  lines_of false (u "=A:Ann" ++ nl ++ u "=B:Bob" ++ nl ++ u "3:B" ++ nl ++ u "5:A>B") = header ++ body2 /\
  (forall l, In l (body1 ++ body2) -> is_decl l = false) /\
  (forall l c, In l (body1 ++ body2) -> mentions c l = true -> last_name c header <> None).
Proof.
  exists [u "=A:Ann"; u "=B:Bob"], [u "5:A>B"; u "3:B"], [u "3:B"; u "5:A>B"]. split; [vm_compute; reflexivity|]. split; [vm_compute; reflexivity|].
  split; [intros l Hl; cbn in Hl; destruct Hl as [<-|[<-|[<-|[<-|[]]]]]; reflexivity|].
  assert (Ea : vote_of (u "5:A>B") = Some (Ok (Voteline 5 [(A, Pref (Some 1) None (Some 62%N)); (B, Pref (Some 2) None None)] None (Some (u "A>B")) None None, [A; B]))) by (vm_compute; reflexivity).
  assert (Eb : exists v, vote_of (u "3:B") = Some (Ok (v, [B]))) by (eexists; vm_compute; reflexivity). destruct Eb as [v Eb].
  assert (Fa : forall c, mentions c (u "5:A>B") = memb c [A; B]) by (intro c; unfold mentions; rewrite Ea; reflexivity).
  assert (Fb : forall c, mentions c (u "3:B") = memb c [B]) by (intro c; unfold mentions; rewrite Eb; reflexivity).
  assert (LA : last_name A [u "=A:Ann"; u "=B:Bob"] <> None) by (vm_compute; discriminate).
  assert (LB : last_name B [u "=A:Ann"; u "=B:Bob"] <> None) by (vm_compute; discriminate).
  intros l c Hl Hc. cbn [app In] in Hl. destruct Hl as [<-|[<-|[<-|[<-|[]]]]]; rewrite ?Fa, ?Fb in Hc; apply memb_In in Hc; cbn [In] in Hc;
    repeat (destruct Hc as [<-|Hc]; [assumption|]); destruct Hc.
Qed.

Example C79_joined_sample : exists m1 m2 m, convert_abif_to_jabmod (u "=A:Ann" ++ nl ++ u "5:A>B" ++ u "
") false false false = Ok m1 /\
  convert_abif_to_jabmod (u "=A:Alice" ++ nl ++ u "2:C>A") false false false = Ok m2 /\
  convert_abif_to_jabmod ((u "=A:Ann" ++ nl ++ u "5:A>B" ++ u "
") ++ u "=A:Alice" ++ nl ++ u "2:C>A") false false false = Ok m /\
  j_candidates m = [(A, u "Alice"); (B, B); (C, C)] /\ total_ballots m = 7 /\ votes_over m A B = 7 /\ votes_over m C A = 2.
Proof. do 3 eexists. split; [vm_compute; reflexivity|]. split; [vm_compute; reflexivity|]. split; [vm_compute; reflexivity|]. repeat split; vm_compute; reflexivity. Qed.

(** With ballots that rank candidates equal first, the order of lines with the same quantity decides who
    wins by IRV, although no lot is drawn. *)
Theorem C79_irv_order_refuted : exists text1 text2 m1 m2 d1 d2,
  Permutation (splitlines text1) (splitlines text2) /\
  convert_abif_to_jabmod text1 false false false = Ok m1 /\ convert_abif_to_jabmod text2 false false false = Ok m2 /\
  j_candidates m1 = j_candidates m2 /\
  IRV_dict_from_jabmod o0 m1 = Ok d1 /\ IRV_dict_from_jabmod o0 m2 = Ok d2 /\
  Forall (fun rm => im_random_elim rm = false) (ir_roundmeta d1) /\ Forall (fun rm => im_random_elim rm = false) (ir_roundmeta d2) /\
  ir_winner d1 = [A] /\ ir_winner d2 = [C].
Proof.
  exists (u "5:A=B>C" ++ nl ++ u "5:A=B" ++ nl ++ u "5:C" ++ nl ++ u "4:A" ++ nl ++ u "3:D>C"), (u "5:A=B>C" ++ nl ++ u "5:C" ++ nl ++ u "5:A=B" ++ nl ++ u "4:A" ++ nl ++ u "3:D>C").
  do 4 eexists. split; [|split; [vm_compute; reflexivity|split; [vm_compute; reflexivity|split; [vm_compute; reflexivity|split; [vm_compute; reflexivity|split; [vm_compute; reflexivity|]]]]]].
  - assert (E1 : splitlines (u "5:A=B>C" ++ nl ++ u "5:A=B" ++ nl ++ u "5:C" ++ nl ++ u "4:A" ++ nl ++ u "3:D>C") = [u "5:A=B>C"; u "5:A=B"; u "5:C"; u "4:A"; u "3:D>C"]) by (vm_compute; reflexivity).
    assert (E2 : splitlines (u "5:A=B>C" ++ nl ++ u "5:C" ++ nl ++ u "5:A=B" ++ nl ++ u "4:A" ++ nl ++ u "3:D>C") = [u "5:A=B>C"; u "5:C"; u "5:A=B"; u "4:A"; u "3:D>C"]) by (vm_compute; reflexivity).
    rewrite E1, E2. apply perm_skip, perm_swap.
  - vm_compute. repeat split; repeat constructor.
Qed.
Print Assumptions C79_irv_order_refuted.

(** When two candidates share the second best score, the order of the lines decides which of them is in
    the STAR runoff, and with it who wins. *)
Theorem C79_star_order_refuted : exists text1 text2 m1 m2 st1 st2,
  Permutation (splitlines text1) (splitlines text2) /\
  convert_abif_to_jabmod text1 false true false = Ok m1 /\ convert_abif_to_jabmod text2 false true false = Ok m2 /\
  STAR_result m1 = Ok st1 /\ STAR_result m2 = Ok st2 /\ st_winner st1 = B /\ st_winner st2 = A.
Proof.
  exists (u "3:B/2,A/1" ++ nl ++ u "2:A/5" ++ nl ++ u "2:C/3"), (u "2:C/3" ++ nl ++ u "2:A/5" ++ nl ++ u "3:B/2,A/1").
  do 4 eexists. split; [|split; [vm_compute; reflexivity|split; [vm_compute; reflexivity|split; [vm_compute; reflexivity|split; [vm_compute; reflexivity|]]]]].
  - assert (E1 : splitlines (u "3:B/2,A/1" ++ nl ++ u "2:A/5" ++ nl ++ u "2:C/3") = [u "3:B/2,A/1"; u "2:A/5"; u "2:C/3"]) by (vm_compute; reflexivity).
    assert (E2 : splitlines (u "2:C/3" ++ nl ++ u "2:A/5" ++ nl ++ u "3:B/2,A/1") = [u "2:C/3"; u "2:A/5"; u "3:B/2,A/1"]) by (vm_compute; reflexivity).
    rewrite E1, E2. apply (Permutation_rev [u "3:B/2,A/1"; u "2:A/5"; u "2:C/3"]).
  - vm_compute. split; reflexivity.
Qed.
Print Assumptions C79_star_order_refuted.

(** The name of a candidate named twice depends on which line comes last. *)
Theorem C79_names_order_refuted : exists text1 text2 m1 m2,
  Permutation (splitlines text1) (splitlines text2) /\
  convert_abif_to_jabmod text1 false false false = Ok m1 /\ convert_abif_to_jabmod text2 false false false = Ok m2 /\
  dget A (j_candidates m1) = Some (u "Bea") /\ dget A (j_candidates m2) = Some (u "Ann").
Proof.
  exists (u "=A:Ann" ++ nl ++ u "=A:Bea" ++ nl ++ u "1:A"), (u "=A:Bea" ++ nl ++ u "=A:Ann" ++ nl ++ u "1:A").
  do 2 eexists. split; [|split; [vm_compute; reflexivity|split; [vm_compute; reflexivity|split; vm_compute; reflexivity]]].
  assert (E1 : splitlines (u "=A:Ann" ++ nl ++ u "=A:Bea" ++ nl ++ u "1:A") = [u "=A:Ann"; u "=A:Bea"; u "1:A"]) by (vm_compute; reflexivity).
  assert (E2 : splitlines (u "=A:Bea" ++ nl ++ u "=A:Ann" ++ nl ++ u "1:A") = [u "=A:Bea"; u "=A:Ann"; u "1:A"]) by (vm_compute; reflexivity).
  rewrite E1, E2. apply perm_swap.
Qed.
Print Assumptions C79_names_order_refuted.

Example C79_split_sample : exists m1 m2, convert_abif_to_jabmod (u "# x" ++ nl ++ u "5:A>B/2 # c") true false false = Ok m1 /\
  lines_of true (u "# x" ++ nl ++ u "5:A>B/2 # c") = [u "# x"] ++ (u "5" ++ u ":" ++ u "A>B/2 # c") :: [] /\
  lines_of true (u "# x" ++ nl ++ u " 2:A>B/2 # c" ++ nl ++ u "03:A>B/2 # c") = [u "# x"] ++ (u "2" ++ u ":" ++ u "A>B/2 # c") :: (u "03" ++ u ":" ++ u "A>B/2 # c") :: [] /\
  numeral (u "5") /\ numeral (u "2") /\ numeral (u "03") /\ py_int (u "03") = Ok 3 /\
  convert_abif_to_jabmod (u "# x" ++ nl ++ u " 2:A>B/2 # c" ++ nl ++ u "03:A>B/2 # c") true false false = Ok m2 /\
  map v_qty (j_votelines m2) = [3; 2] /\ total_score m2 B = 10.
Proof.
  do 2 eexists. split; [vm_compute; reflexivity|]. split; [vm_compute; reflexivity|]. split; [vm_compute; reflexivity|].
  split; [split; [discriminate|reflexivity]|]. split; [split; [discriminate|reflexivity]|]. split; [split; [discriminate|reflexivity]|].
  split; [vm_compute; reflexivity|]. split; [vm_compute; reflexivity|]. split; vm_compute; reflexivity.
Qed.
