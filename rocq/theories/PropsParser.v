(** * Properties C28-C38: the ABIF reader (abiflib/core.py convert_abif_to_jabmod, abiflib/abifregex.py)

    Vocabulary in ParserSpec.v: [before_hash]/[comment_of] split a line at its first '#';
    [is_voteline] says a line has the form digits:preferences; [norm cleanws] removes the leading
    white space of a line when cleanws is on. *)

From Verif Require Import PyBase PyFacts Jabmod Regex RegexFacts WordTable ScoreModel ScoreFacts Spec ParserModel ParserSpec ParserFacts ParserPrefs ParserRender.
From Verif Require Import PairwiseModel PairwiseFacts PropsPairwise PropsScore IrvModel PropsIrv ParserFile ParserText ParserLines.
From Coq Require Import Permutation Sorted.
Local Open Scope Z_scope.

(** A sample file: metadata, a candidate line, rankings, ratings, comments and a voter id. *)
Definition nl : str := [10%N].
Definition demo : str :=
  u "{title: demo}" ++ nl ++ u "# a comment" ++ nl ++ u "=A:[Ann B]" ++ nl ++
  u "12:A>B=C  # first" ++ nl ++ u "3:C/5,B/2,A" ++ nl ++ u "20:[D E]/3>A ##VID:v7 x" ++ nl ++ nl.

Example demo_parses : exists m, convert_abif_to_jabmod demo false false false = Ok m /\
  map v_qty (j_votelines m) = [20; 12; 3] /\ cands m = [A; B; C; u "D E"] /\
  map v_voterid (j_votelines m) = [Some (u "v7"); None; None] /\
  dget (u "title") (j_metadata m) = Some (JStr (u "demo")).
Proof. eexists. split; [vm_compute; reflexivity|]. repeat split; vm_compute; reflexivity. Qed.

(** What a successful conversion consists of: the votelines of the lines, in file order, possibly
    given ratings, sorted. *)
Definition same_ballot (l l' : voteline) : Prop :=
  v_qty l' = v_qty l /\ v_prefstr l' = v_prefstr l /\ v_comment l' = v_comment l /\ v_voterid l' = v_voterid l /\
  dkeys (v_prefs l') = dkeys (v_prefs l) /\ (forall c, rank_on l' c = rank_on l c) /\
  (forall c p', In (c, p') (v_prefs l') -> exists p, In (c, p) (v_prefs l) /\ p_nextdelim p' = p_nextdelim p /\
     (p_rating p' = p_rating p \/ exists z, p_rating p' = Some (RInt z))).

Lemma same_ballot_refl l : same_ballot l l.
Proof. repeat split. intros c p H. exists p. auto. Qed.
Lemma Forall2_refl {T} (R : T -> T -> Prop) l : (forall x, R x x) -> Forall2 R l l.
Proof. intro H. induction l; constructor; auto. Qed.

Lemma convert_votes text cw ar sc m : convert_abif_to_jabmod text cw ar sc = Ok m ->
  exists m0 vs ls, state_fine m0 /\ j_votelines m0 = map fst vs /\ map fst vs <> [] /\
    votes_of (map (norm cw) (splitlines text)) = map Ok vs /\
    j_votelines m = sort_desc v_qty ls /\ Forall2 same_ballot (map fst vs) ls /\ (ar = false -> ls = map fst vs) /\
    j_candidates m = j_candidates m0 /\ NoDup (dkeys (j_metadata m)) /\
    dget k_ballotcount (j_metadata m) = dget k_ballotcount (j_metadata m0) /\
    (forall v ks, In (v, ks) vs -> incl ks (cands m)).
Proof.
  intro H. destruct (convert_shape _ _ _ _ _ H) as (m0&E0&Hne&m1&E1&Em).
  destruct (convert_state _ _ _ _ E0) as (Hf&vs&Ev&Ej&Hk).
  exists m0, vs, (j_votelines m1). rewrite Ej in Hne. subst m. cbn [j_votelines j_candidates j_metadata].
  split; [exact Hf|]. split; [exact Ej|]. split; [exact Hne|]. split; [exact Ev|]. split; [reflexivity|].
  destruct ar.
  - destruct (add_ratings_fine m0 Hf) as (m1'&E1'&C1&B1&N1&F1). rewrite E1 in E1'. apply ok_inj in E1'. subst m1'.
    rewrite <- Ej. repeat (split; [assumption || discriminate|]).
    intros v ks Hin. unfold cands. cbn [j_candidates]. rewrite C1. exact (Hk v ks Hin).
  - apply ok_inj in E1. subst m1. rewrite <- Ej. split; [apply Forall2_refl, same_ballot_refl|].
    repeat (split; [reflexivity|]). split; [apply Hf|]. split; [reflexivity|]. exact Hk.
Qed.

Lemma Forall2_qty vs ls : Forall2 same_ballot vs ls -> map v_qty ls = map v_qty vs.
Proof. induction 1 as [|a b r r' Hab _ IH]; [reflexivity|]. cbn. rewrite IH. f_equal. apply Hab. Qed.
Lemma zsum_perm l l' : Permutation l l' -> zsum l = zsum l'.
Proof. induction 1; cbn; lia. Qed.

(** ** C28 *)
(** Whatever the file says, metadata.ballotcount is the number of ballots on the votelines. *)
Theorem C28_ballotcount : forall text cleanws add_ratings storecomments m,
  convert_abif_to_jabmod text cleanws add_ratings storecomments = Ok m ->
  dget k_ballotcount (j_metadata m) = Some (JInt (zsum (map v_qty (j_votelines m)))).
Proof.
  intros text cw ar sc m H. destruct (convert_votes _ _ _ _ _ H) as (m0&vs&ls&Hf&Ej&_&_&El&F&_&_&_&Eb&_).
  rewrite Eb. destruct Hf as (_&_&->&_). do 2 f_equal. unfold total_ballots. rewrite Ej, El, <- (Forall2_qty _ _ F).
  apply zsum_perm, Permutation_map, Permutation_sym, sort_desc_perm.
Qed.
Print Assumptions C28_ballotcount.

Example C28_nonvacuous : exists m, convert_abif_to_jabmod (u "{ballotcount: 99}" ++ nl ++ u "2:A>B" ++ nl ++ u "3:B") false true false = Ok m /\
  dget k_ballotcount (j_metadata m) = Some (JInt 5) /\ dget k_ballotcount_abif (j_metadata m) = Some (JStr (u "99")).
Proof. eexists. split; [vm_compute; reflexivity|]. split; reflexivity. Qed.

(** ** C29 *)
Lemma Forall2_In_r {A B} (R : A -> B -> Prop) l l' y : Forall2 R l l' -> In y l' -> exists x, In x l /\ R x y.
Proof. induction 1 as [|a b r r' Hab _ IH]; intros []; [subst; eauto with datatypes|]. destruct (IH H) as (x&Hx&Hr). eauto with datatypes. Qed.

(** Every voteline of the result comes from a line of the file. *)
Lemma votes_of_In ls : forall vs v ks, votes_of ls = map Ok vs -> In (v, ks) vs -> exists l, In l ls /\ vote_of l = Some (Ok (v, ks)).
Proof.
  induction ls as [|l ls IH]; intros vs v ks H Hin; cbn [votes_of] in H.
  - destruct vs; [destruct Hin|discriminate].
  - destruct (vote_of l) as [x|] eqn:Ex.
    + destruct vs as [|y vs]; [discriminate|]. cbn [map] in H. injection H as Hx H. subst x. destruct Hin as [->|Hin].
      * exists l. split; [left; reflexivity|exact Ex].
      * destruct (IH _ _ _ H Hin) as (l'&Hl'&E'). exists l'. split; [right; exact Hl'|exact E'].
    + destruct (IH _ _ _ H Hin) as (l'&Hl'&E'). exists l'. split; [right; exact Hl'|exact E'].
Qed.

(** What holds of every parsed voteline. *)
Definition line_good (table : list str) (l : voteline) : Prop :=
  0 <= v_qty l /\ NoDup (dkeys (v_prefs l)) /\ incl (dkeys (v_prefs l)) table /\
  exists ps, v_prefstr l = Some ps /\
  forall c p, In (c, p) (v_prefs l) ->
    (exists z, p_rank p = Some z /\ 1 <= z <= 1 + count_delims ps) /\
    forall r, p_rating p = Some r -> readable r = true.

Lemma parsed_line text cw ar sc m l : convert_abif_to_jabmod text cw ar sc = Ok m -> In l (j_votelines m) ->
  line_good (cands m) l /\
  exists line v ks, In line (splitlines text) /\ vote_of (norm cw line) = Some (Ok (v, ks)) /\ same_ballot v l /\ line_fine (cands m) v.
Proof.
  intros H Hin. destruct (convert_votes _ _ _ _ _ H) as (m0&vs&ls&Hf&Ej&_&Ev&El&F&_&Ec&_&_&_).
  rewrite El in Hin. apply (Permutation_in _ (sort_desc_perm _ _)) in Hin.
  destruct (Forall2_In_r _ _ _ _ F Hin) as (v&Hv&Hs). destruct Hf as (_&_&_&Hl).
  assert (Hfv : line_fine (cands m) v).
  { unfold cands. rewrite Ec. apply Hl. rewrite Ej. exact Hv. }
  split.
  - destruct Hs as (S1&S2&S3&S4&S5&S6&S7). destruct Hfv as (L1&L2&L3&ps&L4&L5).
    split; [lia|]. rewrite S5. split; [exact L2|]. split; [exact L3|]. exists ps. split; [congruence|].
    intros c p Hp. assert (Hc : dget c (v_prefs l) = Some p).
    { apply dget_In_nodup; [unfold dkeys in *; rewrite S5; exact L2|exact Hp]. }
    assert (Hr : rank_on l c = p_rank p) by (unfold rank_on; rewrite Hc; reflexivity).
    assert (Hk : In c (dkeys (v_prefs v))) by (rewrite <- S5; apply in_map_iff; exists (c, p); auto).
    apply dget_Some_In in Hk as [p' Hp']. assert (Hin' := dget_In _ _ _ Hp'). destruct (L5 c p' Hin') as [(z&Ez&Hz) Hr'].
    split.
    + exists z. split; [|exact Hz]. rewrite <- Hr, S6. unfold rank_on. rewrite Hp'. exact Ez.
    + intros r Er. destruct (S7 c p Hp) as (p0&Hp0&_&[E0|[z0 E0]]); rewrite Er in E0.
      * symmetry in E0. apply rating_fine_readable. exact (proj2 (L5 c p0 Hp0) r E0).
      * apply some_inj in E0. subst r. reflexivity.
  - apply in_map_iff in Hv as ([v' ks]&Ev'&Hv). cbn in Ev'. subst v'.
    destruct (votes_of_In _ _ _ _ Ev Hv) as (l'&Hl'&Evo). apply in_map_iff in Hl' as (line&<-&Hline).
    exists line, v, ks. auto.
Qed.

(** Parsed models are well-formed. *)
Theorem C29_well_formed : forall text cleanws add_ratings storecomments m,
  convert_abif_to_jabmod text cleanws add_ratings storecomments = Ok m ->
  j_votelines m <> [] /\
  StronglySorted (fun l l' => v_qty l' <= v_qty l) (j_votelines m) /\
  NoDup (cands m) /\ NoDup (map fst (j_metadata m)) /\
  forall l, In l (j_votelines m) ->
    0 <= v_qty l /\ NoDup (map fst (v_prefs l)) /\ incl (map fst (v_prefs l)) (cands m) /\
    exists prefstr, v_prefstr l = Some prefstr /\
    forall c, In c (map fst (v_prefs l)) -> exists r, rank_on l c = Some r /\ 1 <= r <= 1 + count_delims prefstr.
Proof.
  intros text cw ar sc m H. destruct (convert_votes _ _ _ _ _ H) as (m0&vs&ls&Hf&Ej&Hne&Ev&El&F&_&Ec&Hn&_&_).
  split; [|split; [|split; [|split]]].
  - rewrite El. intro Hnil. assert (P := sort_desc_perm v_qty ls). rewrite Hnil in P. apply Permutation_nil in P. subst ls.
    apply Hne. destruct (map fst vs); [reflexivity|]. inversion F.
  - rewrite El. apply sort_desc_sorted.
  - unfold cands. rewrite Ec. apply Hf.
  - exact Hn.
  - intros l Hl. destruct (parsed_line _ _ _ _ _ _ H Hl) as [(L1&L2&L3&ps&L4&L5) _].
    split; [exact L1|]. split; [exact L2|]. split; [exact L3|]. exists ps. split; [exact L4|].
    intros c Hc. apply dget_Some_In in Hc as [p Hp]. destruct (L5 c p (dget_In _ _ _ Hp)) as [(z&Ez&Hz) _].
    exists z. split; [|exact Hz]. unfold rank_on. rewrite Hp. exact Ez.
Qed.
Print Assumptions C29_well_formed.

(** A candidate written twice: nobody is ranked first, and rank 3 is given though only two candidates
    are listed. *)
Theorem C29_first_rank_refuted : exists text m l, convert_abif_to_jabmod text false false false = Ok m /\
  In l (j_votelines m) /\ v_prefs l <> [] /\
  (forall c, rank_on l c <> Some 1) /\ (exists c, rank_on l c = Some 3) /\ length (v_prefs l) = 2%nat.
Proof.
  exists (u "1:A>B>A"). eexists. eexists. split; [vm_compute; reflexivity|]. split; [left; reflexivity|].
  split; [discriminate|]. split; [|split; [exists A; reflexivity|reflexivity]].
  intro c. unfold rank_on. cbn [v_prefs dget]. destruct (str_eqb c _); [discriminate|]. destruct (str_eqb c _); discriminate.
Qed.
Print Assumptions C29_first_rank_refuted.

(** What is missing from the full claim: it needs that no candidate is repeated, that is, the line
    lists one candidate more than the text has delimiters. *)
Theorem C29_first_rank_partial : forall text cleanws add_ratings storecomments m l prefstr,
  convert_abif_to_jabmod text cleanws add_ratings storecomments = Ok m -> In l (j_votelines m) ->
  v_prefstr l = Some prefstr -> Z.of_nat (length (v_prefs l)) = 1 + count_delims prefstr ->
  (exists c, rank_on l c = Some 1) /\
  (forall c r, rank_on l c = Some r -> 1 <= r <= Z.of_nat (length (v_prefs l))).
Proof.
  intros text cw ar sc m l ps H Hl Hps Hlen. destruct (parsed_line _ _ _ _ _ _ H Hl) as [(L1&L2&L3&ps'&L4&L5) (line&v&ks&Hline&Ev&Hs&Hf)].
  rewrite Hps in L4. apply some_inj in L4. subst ps'. destruct Hs as (S1&S2&S3&S4&S5&S6&S7). split.
  - unfold vote_of in Ev. destruct (vote_parts (before_hash (norm cw line))) as [[ds rest]|]; [|discriminate]. apply some_inj in Ev.
    apply bind_ok in Ev as [q [Eq Ev]]. apply bind_ok in Ev as [[prefs keys] [Ep Ev]]. cbn [fst snd] in Ev. apply ok_inj in Ev.
    injection Ev as Ev1 Ev2. subst ks. rewrite <- Ev1 in S2, S5, S6. cbn [v_prefstr v_prefs] in S2, S5.
    rewrite Hps in S2. apply some_inj in S2. 
    assert (Hlp : length (v_prefs l) = length prefs).
    { rewrite <- (map_length fst (v_prefs l)), <- (map_length fst prefs). f_equal. exact S5. }
    assert (Hk : NoDup keys).
    { apply (keys_nodup rest prefs); [exact Ep|]. rewrite <- Hlp, Hlen, S2. apply f_equal, count_delims_rstrip. }
    assert (Hne : keys <> []).
    { intros ->. destruct (parse_prefstr_good _ _ _ Ep) as [_ G]. assert (dkeys prefs = []).
      { destruct (dkeys prefs) as [|c r]; [reflexivity|]. destruct (proj1 (G c) (or_introl eq_refl)). }
      apply map_eq_nil in H0. rewrite H0 in Hlp. cbn [length] in Hlp. rewrite Hlp in Hlen. unfold count_delims in Hlen. lia. }
    destruct (parse_first_rank _ _ _ Ep Hk Hne) as (c&p&Hin&Hr). exists c. rewrite S6. unfold rank_on. cbn [v_prefs].
    rewrite (dget_In_nodup c p); [exact Hr| |exact Hin]. apply (parse_prefstr_good _ _ _ Ep).
  - intros c r Hr. unfold rank_on in Hr. destruct (dget c (v_prefs l)) as [p|] eqn:Ed; [|discriminate].
    destruct (L5 c p (dget_In _ _ _ Ed)) as [(z&Ez&Hz) _]. rewrite Ez in Hr. apply some_inj in Hr. lia.
Qed.
Print Assumptions C29_first_rank_partial.

Example C29_partial_nonvacuous : exists m l, convert_abif_to_jabmod demo false true false = Ok m /\ In l (j_votelines m) /\
  v_prefstr l = Some (u "A>B=C") /\ Z.of_nat (length (v_prefs l)) = 1 + count_delims (u "A>B=C").
Proof. eexists. eexists. split; [vm_compute; reflexivity|]. split; [right; left; reflexivity|]. split; reflexivity. Qed.

(** Each voteline of the file is read on its own: the votelines of the result are those obtained by
    reading each voteline as a file by itself, in decreasing order of quantity (equal quantities in
    file order).  No other line and no other voteline has any influence. *)
Theorem C29_lines_independent : forall text cleanws storecomments m,
  convert_abif_to_jabmod text cleanws false storecomments = Ok m ->
  exists vs, j_votelines m = sort_desc v_qty vs /\
    Forall2 (fun line v => exists m1, convert_abif_to_jabmod line false false false = Ok m1 /\ j_votelines m1 = [v] /\ incl (cands m1) (cands m))
            (filter is_voteline (map (norm cleanws) (splitlines text))) vs.
Proof.
  intros text cw sc m H. destruct (convert_votes _ _ _ _ _ H) as (m0&vs&ls&_&_&_&Ev&El&_&Els&_&_&_&Hk).
  exists ls. split; [exact El|]. rewrite (Els eq_refl). clear Els El ls.
  assert (Hol : forall l, In l (map (norm cw) (splitlines text)) -> one_line l).
  { intros l Hl. apply in_map_iff in Hl as (x&<-&Hx). apply one_line_norm. apply (splitlines_one_line text); exact Hx. }
  revert vs Ev Hk Hol. generalize (map (norm cw) (splitlines text)) as lines.
  induction lines as [|l lines IH]; intros vs Ev Hk Hol; cbn [votes_of filter] in *.
  - destruct vs; [constructor|discriminate].
  - rewrite vote_of_is. destruct (vote_of l) as [r|] eqn:Er.
    + destruct vs as [|[v ks] vs]; [discriminate|]. cbn [map] in Ev. injection Ev as Er' Ev. subst r. cbn [map fst]. constructor.
      * exists (alone v ks). rewrite (convert_alone l _ (Hol l (or_introl eq_refl)) Er). split; [reflexivity|]. split; [reflexivity|].
        intros c Hc. unfold alone, cands in Hc. cbn [j_candidates] in Hc.
        destruct (merge_cands_facts ks [] (NoDup_nil _)) as (_&M2&_). apply M2 in Hc as [Hc|[]]. apply (Hk v ks (or_introl eq_refl)); exact Hc.
      * apply IH; auto; [intros v' ks' Hin; apply (Hk v' ks'); right; exact Hin|intros x Hx; apply Hol; right; exact Hx].
    + apply IH; auto. intros x Hx; apply Hol; right; exact Hx.
Qed.
Print Assumptions C29_lines_independent.

(** ** C30 *)
Theorem C30_rejected : forall text cleanws add_ratings,
  (forall l, In l (splitlines text) -> is_voteline (norm cleanws l) = false) ->
  convert_abif_to_jabmod text cleanws add_ratings false = Err VotelineExn.
Proof.
  intros text cw ar Hv. destruct text as [|c t] eqn:Et; [reflexivity|]. rewrite convert_finish by discriminate. rewrite <- Et in *.
  destruct (no_votes_fold cw (splitlines text) 0 emptyish (splitlines_one_line text) Hv eq_refl) as (m'&->&Em).
  cbn [bind]. unfold finish. rewrite Em. reflexivity.
Qed.
Print Assumptions C30_rejected.

Theorem C30_empty_text : forall cleanws add_ratings storecomments,
  convert_abif_to_jabmod [] cleanws add_ratings storecomments = Err VotelineExn.
Proof. reflexivity. Qed.
Print Assumptions C30_empty_text.

(** Exactly which exceptions are possible, and that a file with a voteline is never rejected for
    having none.  AttributeError needs storecomments (and a "comments" metadata line). *)
Lemma fold_no_votelineexn text cw sc m0 : foldM (process_line cw sc) (enumerate 0 (splitlines text)) emptyish = Ok m0 ->
  j_votelines m0 = [] -> forall l, In l (splitlines text) -> is_voteline (norm cw l) = false.
Proof.
  intros E0 Hn l Hl. destruct (convert_state _ _ _ _ E0) as (_&vs&Ev&Ej&_). rewrite Hn in Ej. symmetry in Ej. apply map_eq_nil in Ej. subst vs.
  assert (G : forall ls, votes_of ls = [] -> forall x, In x ls -> vote_of x = None).
  { induction ls as [|y ls IH]; intros H x []; cbn in H; [subst; destruct (vote_of x); [discriminate|reflexivity]|].
    destruct (vote_of y); [discriminate|auto]. }
  rewrite vote_of_is, (G _ Ev (norm cw l)); [reflexivity|]. apply in_map; exact Hl.
Qed.

Theorem C30_exceptions : forall text cleanws add_ratings storecomments e,
  convert_abif_to_jabmod text cleanws add_ratings storecomments = Err e ->
  (e = VotelineExn /\ forall l, In l (splitlines text) -> is_voteline (norm cleanws l) = false) \/
  ((e = TypeError \/ e = IndexError) /\ exists l, In l (splitlines text) /\ is_voteline (norm cleanws l) = true) \/
  (e = AttributeError /\ storecomments = true).
Proof.
  intros text cw ar sc e H. destruct text as [|c t] eqn:Et.
  { cbn in H. left. split; [congruence|]. intros l []. }
  rewrite convert_finish in H by discriminate. rewrite <- Et in *. clear Et c t.
  destruct (foldM (process_line cw sc) (enumerate 0 (splitlines text)) emptyish) as [m0|e0] eqn:E0; cbn [bind] in H.
  - destruct (convert_state _ _ _ _ E0) as (Hf&_). left. unfold finish in H. destruct (j_votelines m0) as [|v vs] eqn:Ev.
    + split; [congruence|]. exact (fold_no_votelineexn _ _ _ _ E0 Ev).
    + exfalso. destruct ar; [|discriminate]. destruct (add_ratings_fine m0 Hf) as (m1&E1&_). rewrite E1 in H. discriminate.
  - injection H as <-. destruct (fold_lines_err cw sc _ _ _ _ (splitlines_one_line text) emptyish_fine E0) as [[He (l&Hl&Hv)]|He]; [|auto].
    right. left. split; [exact He|]. exists l. split; [exact Hl|]. rewrite vote_of_is. destruct (vote_of (norm cw l)); congruence.
Qed.
Print Assumptions C30_exceptions.

(** A text with a voteline is accepted if each voteline can be read on its own. *)
Theorem C30_accepted : forall text cleanws add_ratings,
  (exists l, In l (splitlines text) /\ is_voteline (norm cleanws l) = true) ->
  (forall l, In l (splitlines text) -> is_voteline (norm cleanws l) = true ->
     exists m1, convert_abif_to_jabmod (norm cleanws l) false false false = Ok m1) ->
  exists m, convert_abif_to_jabmod text cleanws add_ratings false = Ok m.
Proof.
  intros text cw ar (l0&Hl0&Hv0) Hall.
  assert (Hne : text <> []) by (intros ->; destruct Hl0). rewrite convert_finish by exact Hne.
  destruct (fold_lines_total cw (splitlines text) 0 emptyish (splitlines_one_line text) emptyish_fine) as [m0 E0].
  { intros l r Hl Hr. destruct (Hall l Hl) as [m1 E1]; [rewrite vote_of_is, Hr; reflexivity|].
    rewrite (convert_alone _ r) in E1; [|apply one_line_norm, (splitlines_one_line text), Hl|exact Hr].
    apply bind_ok in E1 as [x [Ex _]]. eauto. }
  rewrite E0. cbn [bind]. destruct (convert_state _ _ _ _ E0) as (Hf&_). unfold finish.
  destruct (j_votelines m0) as [|v vs] eqn:Ev.
  - rewrite (fold_no_votelineexn _ _ _ _ E0 Ev l0 Hl0) in Hv0. discriminate.
  - destruct ar; [|cbn; eauto]. destruct (add_ratings_fine m0 Hf) as (m1&E1&_). rewrite E1. cbn. eauto.
Qed.
Print Assumptions C30_accepted.

Example C30_nonvacuous :
  (forall l, In l (splitlines (u "{title: x}" ++ nl ++ u "=A:Ann" ++ nl ++ u "#3:A>B")) -> is_voteline (norm true l) = false) /\
  convert_abif_to_jabmod (u "3:A>B" ++ nl ++ u "2:A[B]") false false false = Err IndexError /\
  convert_abif_to_jabmod (u "3:[]>B") false false false = Err TypeError.
Proof.
  split; [|split; vm_compute; reflexivity]. intros l Hl. vm_compute in Hl. destruct Hl as [<-|[<-|[<-|[]]]]; reflexivity.
Qed.

(** ** C31 *)
(** The model without line comments and voter ids is determined by what stands before the '#' of each
    line; lines that are blank before their '#' can be added and removed at will.  [erase m] is [m]
    with the comment and voterid of every voteline removed (ParserText.v). *)
Theorem C31_comments_ignored : forall text1 text2 cleanws add_ratings,
  filter nonblank (map before_hash (splitlines text1)) = filter nonblank (map before_hash (splitlines text2)) ->
  map_res erase (convert_abif_to_jabmod text1 cleanws add_ratings false) =
  map_res erase (convert_abif_to_jabmod text2 cleanws add_ratings false).
Proof.
  intros t1 t2 cw ar H.
  assert (G : forall t, t <> [] -> map_res erase (convert_abif_to_jabmod t cw ar false) =
     map_res erase (bind (foldM (process_line cw false) (enumerate 0 (splitlines t)) emptyish) (finish ar)))
    by (intros t Ht; rewrite convert_finish by exact Ht; reflexivity).
  assert (G0 : forall t, map_res erase (convert_abif_to_jabmod t cw ar false) =
     map_res erase (bind (foldM (process_line cw false) (enumerate 0 (splitlines t)) emptyish) (finish ar))).
  { intros [|c t]; [reflexivity|apply G; discriminate]. }
  rewrite !G0. clear G G0.
  assert (HF := fold_erase cw _ _ _ 0 0 emptyish emptyish (le_n _) (splitlines_one_line t1) (splitlines_one_line t2) H eq_refl).
  destruct (foldM _ (enumerate 0 (splitlines t1)) _) as [m1|e1], (foldM _ (enumerate 0 (splitlines t2)) _) as [m2|e2]; cbn [map_res] in HF; try discriminate.
  - cbn [bind]. apply finish_erase_eq. apply ok_inj. exact HF.
  - cbn. congruence.
Qed.
Print Assumptions C31_comments_ignored.

(** Storing comments changes nothing but metadata 'comments'. *)
Theorem C31_storecomments : forall text cleanws add_ratings m,
  convert_abif_to_jabmod text cleanws add_ratings true = Ok m ->
  exists m', convert_abif_to_jabmod text cleanws add_ratings false = Ok m' /\
    j_candidates m' = j_candidates m /\ j_votelines m' = j_votelines m /\
    forall k, k <> u "comments" -> dget k (j_metadata m') = dget k (j_metadata m).
Proof.
  intros text cw ar m H. destruct text as [|c t] eqn:Et; [discriminate|]. rewrite convert_finish in * by discriminate. rewrite <- Et in *.
  apply bind_ok in H as [m0 [E0 H]].
  destruct (store_fold cw _ 0 emptyish emptyish m0 (splitlines_one_line text) (same_but_refl _ _) E0) as (m0'&E0'&HR).
  rewrite E0'. cbn [bind]. assert (HF := finish_same _ ar _ _ HR). rewrite H in HF.
  destruct (finish ar m0') as [m'|]; [|contradiction]. cbn in HF. destruct HF as (H1&H2&H3).
  exists m'. split; [reflexivity|]. split; [congruence|]. split; [congruence|]. intros k Hk. symmetry. apply H3. exact Hk.
Qed.
Print Assumptions C31_storecomments.

Example C31_nonvacuous :
  filter nonblank (map before_hash (splitlines (u "3:A>B #x ##VID:7" ++ nl ++ u "  # hello" ++ nl ++ u "2:B"))) =
  filter nonblank (map before_hash (splitlines (u "3:A>B " ++ nl ++ u "2:B#"))) /\
  exists m, convert_abif_to_jabmod (u "3:A>B #x" ++ nl ++ u "2:B") false false true = Ok m /\
    dget k_comments (j_metadata m) = Some (JArr [JArr [JInt 0; JStr (u "#x")]]).
Proof. split; [reflexivity|]. eexists. split; [vm_compute; reflexivity|]. reflexivity. Qed.

(** ** C32 *)
(** Every voteline carries the comment of its line, and the voter id that comment announces. *)
Theorem C32_voter_ids : forall text cleanws add_ratings storecomments m l,
  convert_abif_to_jabmod text cleanws add_ratings storecomments = Ok m -> In l (j_votelines m) ->
  exists line, In line (splitlines text) /\ is_voteline (norm cleanws line) = true /\
    v_comment l = comment_of line /\ v_voterid l = voter_id (comment_of line).
Proof.
  intros text cw ar sc m l H Hl. destruct (parsed_line _ _ _ _ _ _ H Hl) as [_ (line&v&ks&Hline&Ev&Hs&_)].
  exists line. split; [exact Hline|]. split; [rewrite vote_of_is, Ev; reflexivity|].
  assert (Hc : comment_of (norm cw line) = comment_of line).
  { destruct cw; [|reflexivity]. cbn. destruct (lstrip_suffix line) as (a&Ea&Ha). rewrite Ea at 2.
    clear Ea. induction a as [|c a IH]; [reflexivity|]. cbn [forallb] in Ha. apply andb_prop in Ha as [Hc Ha]. cbn [app comment_of].
    destruct (N.eqb_spec c 35) as [->|n]; [vm_compute in Hc; discriminate|]. exact (IH Ha). }
  unfold vote_of in Ev. destruct (vote_parts (before_hash (norm cw line))) as [[ds rest]|]; [|discriminate]. apply some_inj in Ev.
  apply bind_ok in Ev as [q [_ Ev]]. apply bind_ok in Ev as [pk [_ Ev]]. apply ok_inj in Ev. injection Ev as <- _.
  destruct Hs as (_&_&S3&S4&_). rewrite S3, S4. cbn. rewrite Hc. auto.
Qed.
Print Assumptions C32_voter_ids.

Lemma comment_of_app a b : ~ In 35%N a -> comment_of (a ++ 35%N :: b) = Some (35%N :: b).
Proof.
  intro H. induction a as [|c a IH]; cbn; [reflexivity|]. destruct (N.eqb_spec c 35) as [->|n]; [destruct H; left; reflexivity|].
  apply IH. intro Hi. apply H. right; exact Hi.
Qed.
Lemma comment_of_none a : ~ In 35%N a -> comment_of a = None.
Proof.
  intro H. induction a as [|c a IH]; cbn; [reflexivity|]. destruct (N.eqb_spec c 35) as [->|n]; [destruct H; left; reflexivity|].
  apply IH. intro Hi. apply H. right; exact Hi.
Qed.

(** "...##VID:id" followed by white space or by the end of the line announces [id]; a line without
    '#' announces nothing. *)
Theorem C32_voter_id_syntax : forall text id rest, ~ In 35%N text -> id <> [] ->
  (forall c, In c id -> is_space c = false) ->
  (rest = [] \/ exists c r, rest = c :: r /\ is_space c = true) ->
  voter_id (comment_of (text ++ u "##VID:" ++ id ++ rest)) = Some id /\ voter_id (comment_of text) = None.
Proof.
  intros text id rest Hh Hne Hid Hrest. split; [|rewrite comment_of_none by exact Hh; reflexivity].
  change (u "##VID:" ++ id ++ rest) with (35%N :: (u "#VID:" ++ id ++ rest)). rewrite comment_of_app by exact Hh.
  unfold voter_id. change (35%N :: u "#VID:" ++ id ++ rest) with (u "##VID:" ++ id ++ rest).
  rewrite (proj2 (strip_prefix_spec (u "##VID:") _ (id ++ rest)) eq_refl).
  destruct (take_drop_app (fun x => negb (is_space x)) id rest) as [-> _].
  - apply forallb_In. intros c Hc. rewrite (Hid c Hc). reflexivity.
  - destruct Hrest as [->|(c&r&->&Hc)]; [exact I|]. cbn. rewrite Hc. reflexivity.
  - destruct id; [congruence|reflexivity].
Qed.
Print Assumptions C32_voter_id_syntax.

(** ** C35 *)
Lemma unlines_ne x xs : unlines (x :: xs) <> [].
Proof. cbn. destruct x; discriminate. Qed.

Lemma process_lines_cleanws sc ls : forall i m,
  foldM (process_line true sc) (enumerate i ls) m = foldM (process_line false sc) (enumerate i (map lstrip ls)) m.
Proof.
  induction ls as [|l ls IH]; intros i m; cbn [enumerate map foldM]; [reflexivity|].
  change (process_line false sc m (i, lstrip l)) with (process_line true sc m (i, l)).
  destruct (process_line true sc m (i, l)); cbn [bind]; [apply IH|reflexivity].
Qed.

Theorem C35_cleanws : forall text add_ratings storecomments,
  convert_abif_to_jabmod text true add_ratings storecomments =
  convert_abif_to_jabmod (unlines (map lstrip (splitlines text))) false add_ratings storecomments.
Proof.
  intros text ar sc. destruct text as [|c t] eqn:Et; [reflexivity|]. rewrite <- Et.
  assert (Hne : text <> []) by (rewrite Et; discriminate). rewrite convert_finish by exact Hne.
  destruct (splitlines text) as [|l ls] eqn:El; [destruct (Hne (splitlines_nil_inv _ El))|].
  rewrite convert_finish by (apply unlines_ne). rewrite splitlines_unlines.
  - rewrite process_lines_cleanws. reflexivity.
  - intros x Hx. apply in_map_iff in Hx as (y&<-&Hy). apply one_line_lstrip. apply (splitlines_one_line text). rewrite El. exact Hy.
Qed.
Print Assumptions C35_cleanws.

Theorem C35_no_indentation : forall text add_ratings storecomments,
  (forall l c r, In l (splitlines text) -> l = c :: r -> is_space c = false) ->
  convert_abif_to_jabmod text true add_ratings storecomments = convert_abif_to_jabmod text false add_ratings storecomments.
Proof.
  intros text ar sc H. destruct text as [|c t] eqn:Et; [reflexivity|]. rewrite <- Et in *.
  rewrite !convert_finish by (rewrite Et; discriminate). rewrite process_lines_cleanws.
  assert (E0 : map lstrip (splitlines text) = splitlines text).
  { rewrite <- map_id. apply map_ext_in. intros l Hl. apply lstrip_first. intros c0 r Ec. exact (H l c0 r Hl Ec). }
  rewrite E0. reflexivity.
Qed.
Print Assumptions C35_no_indentation.

Example C35_nonvacuous :
  convert_abif_to_jabmod (u "  3:A>B" ++ nl) false false false = Err VotelineExn /\
  exists m, convert_abif_to_jabmod (u "  3:A>B" ++ nl) true false false = Ok m /\ map v_qty (j_votelines m) = [3].
Proof. split; [vm_compute; reflexivity|]. eexists. split; [vm_compute; reflexivity|]. reflexivity. Qed.

(** ** C33 *)
Lemma before_hash_id s : ~ In 35%N s -> before_hash s = s.
Proof.
  intro H. induction s as [|c s IH]; cbn; [reflexivity|]. destruct (N.eqb_spec c 35) as [->|n]; [destruct H; left; reflexivity|].
  f_equal. apply IH. intro Hi; apply H; right; exact Hi.
Qed.

(** Characters that may occur in a voteline: no line break, no '#'. *)
Definition safe_char (c : N) : Prop := is_linebreak c = false /\ c <> 35%N.
Definition safe (s : str) : Prop := forall c, In c s -> safe_char c.
Lemma safe_app a b : safe a -> safe b -> safe (a ++ b).
Proof. intros Ha Hb c Hc. apply in_app_or in Hc as [Hc|Hc]; auto. Qed.
Lemma safe_cons c b : safe_char c -> safe b -> safe (c :: b).
Proof. intros Ha Hb x [<-|Hx]; auto. Qed.
Lemma safe_nil : safe []. Proof. intros c []. Qed.
Lemma safe_one_line s : safe s -> one_line s. Proof. intros H c Hc; apply (H c Hc). Qed.
Lemma safe_no_hash s : safe s -> ~ In 35%N s. Proof. intros H Hc. apply (H _ Hc). reflexivity. Qed.
Lemma safe_plain s : forallb plain_char s = true -> safe s.
Proof.
  intros H c Hc. rewrite forallb_In in H. specialize (H c Hc). unfold plain_char in H. apply andb_prop in H as [H1 H2].
  split; [apply negb_true_iff; exact H1|]. intros ->. vm_compute in H2. discriminate.
Qed.
Lemma safe_digits s : forallb is_digit s = true -> safe s.
Proof.
  intros H c Hc. rewrite forallb_In in H. specialize (H c Hc). split.
  - destruct (is_linebreak c) eqn:El; [|reflexivity]. apply linebreak_space in El. apply digit_not_space in H. congruence.
  - intros ->. vm_compute in H. discriminate.
Qed.
Lemma safe_blank s : blank s -> safe s.
Proof.
  intros [H1 H2] c Hc. split; [apply H2; exact Hc|]. intros ->. rewrite forallb_In in H1. specialize (H1 _ Hc). vm_compute in H1. discriminate.
Qed.
Lemma safe_slash r : (forall d, r = Some d -> numeral d) -> safe (slash r).
Proof.
  intro H. destruct r as [d|]; [|apply safe_nil]. apply safe_cons; [split; [reflexivity|discriminate]|]. apply safe_digits. apply (H d eq_refl).
Qed.
Lemma safe_show w : well_written w -> safe (show w).
Proof.
  destruct w as [n r|n r|n d]; cbn.
  - intros ((_&H&_)&_&_&Hr). apply safe_app; [apply safe_plain; exact H|apply safe_slash; exact Hr].
  - intros ((_&H&_)&_&Hr). apply safe_cons; [split; [reflexivity|discriminate]|]. apply safe_app; [apply safe_plain; exact H|].
    apply safe_cons; [split; [reflexivity|discriminate]|]. apply safe_slash; exact Hr.
  - intros (H&_&Hr). apply safe_cons; [split; [reflexivity|discriminate]|]. apply safe_app; [apply safe_plain; exact H|].
    apply safe_cons; [split; [reflexivity|discriminate]|]. apply (safe_slash (Some d)). intros d' Ed; apply some_inj in Ed; subst; exact Hr.
Qed.
Lemma safe_item i : item_ok i -> safe (show_item i).
Proof. destruct i as [[a w] b]. intros (H1&H2&H3). cbn. repeat apply safe_app; auto using safe_blank, safe_show. Qed.
Lemma safe_prefs r : forall i, item_ok i -> (forall d j, In (d, j) r -> delimiter d /\ item_ok j) -> safe (show_prefs i r).
Proof.
  induction r as [|[d j] r IH]; intros i Hi Hr; cbn [show_prefs]; [apply safe_item; exact Hi|].
  apply safe_app; [apply safe_item; exact Hi|]. destruct (Hr d j (or_introl eq_refl)) as [Hd Hj]. apply safe_cons.
  - destruct Hd as [->|[->| ->]]; (split; [reflexivity|discriminate]).
  - apply IH; [exact Hj|]. intros d' j' Hin. apply Hr. right; exact Hin.
Qed.

(** A voteline as written: the quantity, a colon, the preferences. *)
Definition voteline_text (qty : str) (i : item) (r : list (N * item)) : str := qty ++ 58%N :: show_prefs i r.

Lemma vote_of_text qty i r : numeral qty -> item_ok i -> (forall d j, In (d, j) r -> delimiter d /\ item_ok j) ->
  one_line (voteline_text qty i r) /\
  vote_of (voteline_text qty i r) =
  Some (bind (py_int qty) (fun q => bind (parse_prefstr (show_prefs i r)) (fun pk =>
    Ok (Voteline q (fst pk) None (Some (rstrip (show_prefs i r))) None None, snd pk)))).
Proof.
  intros Hq Hi Hr. assert (Hs : safe (voteline_text qty i r)).
  { apply safe_app; [apply safe_digits; apply Hq|]. apply safe_cons; [split; [reflexivity|discriminate]|]. apply safe_prefs; assumption. }
  split; [apply safe_one_line; exact Hs|]. unfold vote_of. rewrite before_hash_id by (apply safe_no_hash; exact Hs).
  rewrite (proj2 (vote_parts_spec (voteline_text qty i r) qty (show_prefs i r))) by (split; [reflexivity|exact Hq]).
  rewrite comment_of_none by (apply safe_no_hash; exact Hs). reflexivity.
Qed.

Lemma dset_new {V} k (v : V) d : ~ In k (dkeys d) -> dset k v d = d ++ [(k, v)].
Proof.
  induction d as [|[k' v'] d IH]; intro H; cbn; [reflexivity|]. cbn in H. destruct (str_eqb_spec k k') as [->|]; [destruct H; left; reflexivity|].
  rewrite IH; [reflexivity|tauto].
Qed.
Lemma merge_fresh ks : forall t : dict str, NoDup (map fst t ++ ks) -> merge_cands ks t = t ++ map (fun k => (k, k)) ks.
Proof.
  induction ks as [|k ks IH]; intros t H; cbn [merge_cands fold_left map]; [rewrite app_nil_r; reflexivity|].
  change (fold_left _ ks ?t0) with (merge_cands ks t0).
  assert (Hk : ~ In k (dkeys t)).
  { intro Hin. exact (NoDup_app_disjoint _ _ H k Hin (or_introl eq_refl)). }
  assert (Em : dmem k t = false) by (unfold dmem; rewrite (proj2 (dget_None k t) Hk); reflexivity).
  rewrite Em. rewrite (dset_new k k t Hk). rewrite IH.
  - rewrite <- app_assoc. reflexivity.
  - rewrite map_app. cbn [map fst]. rewrite <- app_assoc. exact H.
Qed.

Lemma read_alone qty i r : numeral qty -> item_ok i -> (forall d j, In (d, j) r -> delimiter d /\ item_ok j) ->
  NoDup (map item_name (items i r)) ->
  exists q, py_int qty = Ok q /\ 0 <= q /\
  convert_abif_to_jabmod (voteline_text qty i r) false false false =
  Ok (Jabmod [(k_ballotcount, JInt q)] (map (fun n => (n, n)) (map item_name (items i r)))
    [Voteline q (match mode_of r with
      | MRate => map (fun kv => (fst kv, fill_rank (dense_rank (pref_num (snd kv)) (map num_of (items i r))) (snd kv))) (loop_result MRate 1 i r)
      | m => loop_result m 1 i r
      end) None (Some (rstrip (show_prefs i r))) None None]).
Proof.
  intros Hq Hi Hr Hn. destruct (vote_of_text qty i r Hq Hi Hr) as [Hl Hv].
  destruct (py_int_numeral qty Hq) as (n&_&Eq). exists (Z.of_N n). split; [exact Eq|]. split; [lia|].
  rewrite (convert_alone _ _ Hl Hv), Eq. cbn [bind]. rewrite (parse_show i r Hi Hr Hn). cbn [bind fst snd].
  unfold alone. cbn [v_qty]. rewrite merge_fresh by exact Hn. reflexivity.
Qed.

Lemma loop_result_ranks m r : m <> MRate -> forall k i,
  map (fun kv => (fst kv, p_rank (snd kv))) (loop_result m k i r) = map (fun cr => (fst cr, Some (snd cr))) (ranks_from k i r).
Proof.
  intro Hm. induction r as [|[d j] r IH]; intros k i; cbn [loop_result ranks_from map fst snd p_rank].
  - destruct m; [reflexivity|congruence|reflexivity].
  - rewrite IH. destruct m; [reflexivity|congruence|reflexivity].
Qed.
Lemma loop_result_ratings m r : forall k i,
  map (fun kv => (fst kv, p_rating (snd kv))) (loop_result m k i r) = map (fun j => (item_name j, stored_rating (item_written j))) (items i r).
Proof. induction r as [|[d j] r IH]; intros k i; [reflexivity|]. cbn [loop_result map fst snd p_rating]. rewrite IH. reflexivity. Qed.

(** A ranking: candidates written bare, bracketed or quoted, with or without ratings and padding,
    separated by '>' and '=' (after a first '>' or '=', a comma counts like '=').  Read by itself - see
    C29_lines_independent - it yields one voteline with the given quantity, the candidates in order,
    the rank one higher after each '>', and exactly the ratings written. *)
Theorem C33_ranking : forall qty i r, numeral qty -> item_ok i -> (forall d j, In (d, j) r -> delimiter d /\ item_ok j) ->
  NoDup (map item_name (i :: map snd r)) ->
  (forall d j r', r = (d, j) :: r' -> d <> 44%N) ->
  exists m v, convert_abif_to_jabmod (voteline_text qty i r) false false false = Ok m /\
    j_votelines m = [v] /\ py_int qty = Ok (v_qty v) /\
    cands m = map item_name (i :: map snd r) /\
    map (fun kv => (fst kv, p_rank (snd kv))) (v_prefs v) = map (fun cr => (fst cr, Some (snd cr))) (ranks_from 1 i r) /\
    map (fun kv => (fst kv, p_rating (snd kv))) (v_prefs v) = map (fun j => (item_name j, stored_rating (item_written j))) (i :: map snd r).
Proof.
  intros qty i r Hq Hi Hr Hn Hd. destruct (read_alone qty i r Hq Hi Hr Hn) as (q&Eq&_&E0). rewrite E0.
  eexists. eexists. split; [reflexivity|]. cbn [j_votelines]. split; [reflexivity|]. cbn [v_qty v_prefs]. split; [exact Eq|].
  split; [unfold cands; cbn [j_candidates]; rewrite !map_map; cbn [fst]; reflexivity|].
  assert (Hm : mode_of r <> MRate).
  { unfold mode_of. destruct r as [|[d j] r']; [discriminate|]. destruct (N.eqb_spec d 44) as [->|]; [destruct (Hd _ _ _ eq_refl eq_refl)|discriminate]. }
  destruct (mode_of r) eqn:Em; [|congruence|]; (split; [apply loop_result_ranks; congruence|apply loop_result_ratings]).
Qed.
Print Assumptions C33_ranking.

Definition b (n : string) : item := ([], Bare (u n) None, []).
Definition rank_items : list (N * item) :=
  [(62%N, ([32%N], Bracketed (u "Bob J.") (Some (u "07")), [])); (61%N, b "C"); (62%N, ([], Quoted (u "D E") (u "3"), [32%N]))].
Lemma blank_1 : blank [32%N]. Proof. split; [reflexivity|]. intros c [<-|[]]; reflexivity. Qed.
Lemma blank_0 : blank []. Proof. split; [reflexivity|]. intros c []. Qed.
Ltac written_ok := cbn [item_ok well_written b rank_items];
  repeat match goal with
  | |- _ /\ _ => split
  | |- blank [] => exact blank_0
  | |- blank [32%N] => exact blank_1
  | |- plain_name _ => split; [discriminate|]
  | |- numeral _ => split; [discriminate|reflexivity]
  | |- forall d, Some _ = Some d -> _ => let d := fresh in let H := fresh in intros d H; apply some_inj in H; subst d
  | |- forall d, None = Some d -> _ => discriminate
  | |- _ = _ => reflexivity
  end.
Example C33_nonvacuous : numeral (u "12") /\ item_ok (b "A") /\ (forall d j, In (d, j) rank_items -> delimiter d /\ item_ok j) /\
  NoDup (map item_name (b "A" :: map snd rank_items)) /\ show_prefs (b "A") rank_items = u "A> [Bob J.]/07=C>""D E""/3 " /\
  ranks_from 1 (b "A") rank_items = [(u "A", 1); (u "Bob J.", 2); (u "C", 2); (u "D E", 3)].
Proof.
  split; [split; [discriminate|reflexivity]|]. split; [written_ok|]. split.
  - intros d j Hin. cbn in Hin. destruct Hin as [H|[H|[H|[]]]]; injection H as <- <-; (split; [unfold delimiter; auto|written_ok]).
  - split; [nodup|]. split; reflexivity.
Qed.

(** ** C34 *)
Lemma num_of_number i : item_ok i -> num_of i = rating_number (item_written i).
Proof.
  destruct i as [[a w] b]. intros (_&Hw&_). unfold num_of, item_written, rating_number, pref_num. cbn [snd fst p_rating].
  destruct w as [n [d|]|n [d|]|n d]; cbn [stored_rating rating_text]; try reflexivity.
  - destruct Hw as (_&_&_&Hr). destruct (py_int_numeral d (Hr d eq_refl)) as (z&_&->). destruct (Z.eqb_spec (Z.of_N z) 0) as [->|]; reflexivity.
  - destruct Hw as (_&_&Hr). destruct (py_int_numeral d (Hr d eq_refl)) as (z&_&->). destruct (Z.eqb_spec (Z.of_N z) 0) as [->|]; reflexivity.
Qed.

Lemma loop_rate_map g r : forall k i,
  map (fun kv => (fst kv, p_rank (fill_rank (g (pref_num (snd kv))) (snd kv)))) (loop_result MRate k i r) =
  map (fun j => (item_name j, Some (g (num_of j)))) (items i r).
Proof. induction r as [|[d j] r IH]; intros k i; [reflexivity|]. cbn [loop_result map fst snd]. rewrite IH. reflexivity. Qed.

(** A comma-separated list: ranks are dense ranks by rating, highest first, no rating counting 0. *)
Theorem C34_rating_list : forall qty i d1 j1 r, numeral qty -> item_ok i ->
  (forall d j, In (d, j) ((d1, j1) :: r) -> delimiter d /\ item_ok j) ->
  NoDup (map item_name (i :: j1 :: map snd r)) -> d1 = 44%N ->
  exists m v, convert_abif_to_jabmod (voteline_text qty i ((d1, j1) :: r)) false false false = Ok m /\
    j_votelines m = [v] /\ py_int qty = Ok (v_qty v) /\
    cands m = map item_name (i :: j1 :: map snd r) /\
    map (fun kv => (fst kv, p_rank (snd kv))) (v_prefs v) =
      map (fun j => (item_name j, Some (dense_rank (rating_number (item_written j))
                                          (map (fun j => rating_number (item_written j)) (i :: j1 :: map snd r)))))
          (i :: j1 :: map snd r) /\
    map (fun kv => (fst kv, p_rating (snd kv))) (v_prefs v) =
      map (fun j => (item_name j, stored_rating (item_written j))) (i :: j1 :: map snd r).
Proof.
  intros qty i d1 j1 r Hq Hi Hr Hn Hd. destruct (read_alone qty i ((d1, j1) :: r) Hq Hi Hr Hn) as (q&Eq&_&E0). rewrite E0.
  eexists. eexists. split; [reflexivity|]. cbn [j_votelines]. split; [reflexivity|]. cbn [v_qty v_prefs]. split; [exact Eq|].
  split; [unfold cands; cbn [j_candidates]; rewrite !map_map; cbn [fst]; reflexivity|].
  assert (Em : mode_of ((d1, j1) :: r) = MRate) by (subst d1; reflexivity). rewrite Em.
  assert (Hall : forall j, In j (items i ((d1, j1) :: r)) -> item_ok j).
  { intros j Hj. cbn in Hj. destruct Hj as [<-|[<-|Hj]]; [exact Hi|apply (Hr d1 j1); left; reflexivity|].
    apply in_map_iff in Hj as ([d' j']&Ej&Hj). cbn in Ej. subst j'. apply (Hr d' j). right; exact Hj. }
  assert (En : map num_of (items i ((d1, j1) :: r)) = map (fun j => rating_number (item_written j)) (items i ((d1, j1) :: r))).
  { apply map_ext_in. intros j Hj. apply num_of_number, Hall, Hj. }
  split.
  - rewrite map_map. cbn [fst snd]. rewrite (loop_rate_map (fun z => dense_rank z (map num_of (items i ((d1, j1) :: r))))). rewrite En.
    apply map_ext_in. intros j Hj. rewrite num_of_number by (apply Hall; exact Hj). reflexivity.
  - rewrite map_map. cbn [fst snd]. change (i :: j1 :: map snd r) with (items i ((d1, j1) :: r)). rewrite <- (loop_result_ratings MRate ((d1, j1) :: r) 1 i). apply map_ext. intros [c p]. cbn [fst snd].
    match goal with |- (_, p_rating (fill_rank ?k p)) = _ => destruct (fill_rank_facts k p) as (->&_) end. reflexivity.
Qed.
Print Assumptions C34_rating_list.

(** Dense ranks order like the ratings. *)
Lemma dense_rank_lt z1 z2 l : In z2 l -> z1 < z2 -> dense_rank z2 l < dense_rank z1 l.
Proof.
  intros Hin Hlt. unfold dense_rank, distinct_values.
  assert (H : (length (z2 :: nodup Z.eq_dec (filter (fun x => (z2 <? x)%Z) l)) <= length (nodup Z.eq_dec (filter (fun x => (z1 <? x)%Z) l)))%nat).
  { apply NoDup_incl_length.
    - constructor; [|apply NoDup_nodup]. rewrite nodup_In. intro H. apply filter_In in H as [_ H]. apply Z.ltb_lt in H. lia.
    - intros x [<-|Hx]; apply nodup_In.
      + apply filter_In. split; [exact Hin|]. apply Z.ltb_lt. exact Hlt.
      + apply nodup_In in Hx. apply filter_In in Hx as [Hx Hz]. apply filter_In. split; [exact Hx|]. apply Z.ltb_lt in Hz. apply Z.ltb_lt. lia. }
  cbn [length] in H. lia.
Qed.

Theorem C34_rank_order_is_rating_order : forall l z1 z2, In z1 l -> In z2 l ->
  (dense_rank z2 l < dense_rank z1 l <-> z1 < z2) /\ (dense_rank z1 l = dense_rank z2 l <-> z1 = z2).
Proof.
  intros l z1 z2 H1 H2. destruct (Z.lt_trichotomy z1 z2) as [H|[->|H]].
  - pose proof (dense_rank_lt z1 z2 l H2 H). lia.
  - lia.
  - pose proof (dense_rank_lt z2 z1 l H1 H). lia.
Qed.
Print Assumptions C34_rank_order_is_rating_order.

Example C34_nonvacuous : exists m v, convert_abif_to_jabmod (voteline_text (u "5") ([], Bare (u "A") (Some (u "2")), [])
    [(44%N, ([], Bare (u "B") (Some (u "9")), [])); (44%N, b "C"); (44%N, ([], Bare (u "D") (Some (u "2")), []))]) false false false = Ok m /\
  j_votelines m = [v] /\ map (fun kv => (fst kv, p_rank (snd kv))) (v_prefs v) = [(A, Some 2); (B, Some 1); (C, Some 3); (D, Some 2)].
Proof. eexists. eexists. split; [vm_compute; reflexivity|]. split; reflexivity. Qed.

(** ** C36 *)
Lemma splitlines_len s : forall cur st l, In l (splitlines_aux s cur st) -> (length l <= length cur + length s)%nat.
Proof.
  induction s as [s IH] using (well_founded_induction (Wf_nat.well_founded_ltof _ (@length N))). unfold Wf_nat.ltof in IH.
  intros cur st l H. destruct s as [|c r]; cbn [splitlines_aux] in H.
  - destruct st; [|destruct H]. destruct H as [<-|[]]. rewrite rev_length. lia.
  - destruct (is_linebreak c).
    + destruct H as [<-|H]; [rewrite rev_length; lia|]. destruct r as [|c' r'].
      * destruct H.
      * destruct (N.eqb c 13 && N.eqb c' 10)%bool.
        -- apply IH in H; cbn [length] in *; lia.
        -- apply IH in H; cbn [length] in *; lia.
    + apply IH in H; cbn [length] in *; lia.
Qed.

Lemma lstrip_len s : (length (lstrip s) <= length s)%nat.
Proof. induction s as [|c s IH]; cbn; [lia|]. destruct (is_space c); cbn; lia. Qed.
Lemma before_hash_len s : (length (before_hash s) <= length s)%nat.
Proof. induction s as [|c s IH]; cbn; [lia|]. destruct (c =? 35)%N; cbn; lia. Qed.
Lemma count_delims_len s : 0 <= count_delims s <= Z.of_nat (length s).
Proof. unfold count_delims. pose proof (filter_len (fun c => one_of [62; 61; 44]%N c) s). lia. Qed.

(** Every model read from a text (of fewer than 2^63 - 1 characters) is in the domain of all the tally
    theorems C01-C27. *)
Theorem C36_parsed_is_tallyable : forall text cleanws add_ratings storecomments m,
  convert_abif_to_jabmod text cleanws add_ratings storecomments = Ok m ->
  Z.of_nat (length text) <= maxsize ->
  tallyable m /\ scorable m /\ counts_ok m /\ (cands m <> [] -> irv_election m).
Proof.
  intros text cw ar sc m H Hlen. destruct (C29_well_formed _ _ _ _ _ H) as (_&_&Hn&_&_).
  assert (HL : forall l, In l (j_votelines m) -> line_good (cands m) l /\ line_ranked maxsize l = true).
  { intros l Hl. destruct (parsed_line _ _ _ _ _ _ H Hl) as [Hg (line&v&ks&Hline&Ev&Hs&_)]. split; [exact Hg|].
    destruct Hg as (L1&L2&L3&ps&L4&L5). unfold line_ranked. apply forallb_forall. intros [c p] Hin. cbn [snd].
    destruct (L5 c p Hin) as [(z&Ez&Hz) _]. rewrite Ez. apply Z.ltb_lt.
    unfold vote_of in Ev. destruct (vote_parts (before_hash (norm cw line))) as [[ds rest]|] eqn:Evp; [|discriminate]. apply some_inj in Ev.
    apply bind_ok in Ev as [q [_ Ev]]. apply bind_ok in Ev as [pk [_ Ev]]. apply ok_inj in Ev. injection Ev as <- _.
    destruct Hs as (_&S2&_). cbn [v_prefstr] in S2. rewrite L4 in S2. apply some_inj in S2. subst ps.
    rewrite count_delims_rstrip in Hz. apply vote_parts_spec in Evp as [Evp [Hne _]].
    assert (Hb := before_hash_len (norm cw line)). rewrite Evp, app_length in Hb. cbn [length] in Hb.
    assert (Hnl : (length (norm cw line) <= length line)%nat) by (destruct cw; cbn; [apply lstrip_len|lia]).
    assert (Hsl : (length line <= length text)%nat) by (apply (splitlines_len text [] false); exact Hline).
    assert (Hd : (1 <= length ds)%nat) by (destruct ds; [congruence|cbn; lia]).
    pose proof (count_delims_len rest). lia. }
  split; [split; [exact Hn|intros l Hl; apply HL; exact Hl]|]. split; [|split].
  - split; [exact Hn|]. intros l Hl. destruct (HL l Hl) as [(L1&L2&L3&ps&L4&L5) _]. split; [split; assumption|].
    unfold line_rated. apply forallb_forall. intros [c p] Hin. cbn [snd]. destruct (p_rating p) as [r|] eqn:Er; [|reflexivity].
    destruct (L5 c p Hin) as [_ Hr]. apply Hr; exact Er.
  - intros l Hl. apply HL; exact Hl.
  - intro Hc. split; [exact Hn|]. split; [exact Hc|]. intros l Hl. destruct (HL l Hl) as [(L1&L2&L3&ps&L4&L5) _]. split; [split; assumption|].
    intros c p Hin. destruct (L5 c p Hin) as [(z&Ez&_) _]. congruence.
Qed.
Print Assumptions C36_parsed_is_tallyable.

(** ... so that every tally returns, with the exact figures. *)
Theorem C36_parsed_can_be_tallied : forall text cleanws add_ratings storecomments m,
  convert_abif_to_jabmod text cleanws add_ratings storecomments = Ok m ->
  Z.of_nat (length text) <= maxsize ->
  pairwise_count_dict m = Ok (matrix (cands m) (fun a b => if str_eqb a b then None else Some (votes_over m a b))) /\
  (exists cc, full_copecount m = Ok cc) /\
  (exists sr, enhanced_score_result m = Ok sr) /\
  ((2 <= length (cands m))%nat -> exists st, STAR_result m = Ok st) /\
  (cands m <> [] -> forall o, schedule o -> exists d report, IRV_dict_from_jabmod o m = Ok d /\ get_IRV_report d = Ok report /\
     forall i rc rm, round d i rc rm -> im_startingqty rm = im_overvoteqty rm + im_exhaustedqty rm + zsum (dvals rc)).
Proof.
  intros text cw ar sc m H Hlen. destruct (C36_parsed_is_tallyable _ _ _ _ _ H Hlen) as (Ht&Hs&Hc&Hi).
  assert (Hb := C28_ballotcount _ _ _ _ _ H).
  split; [apply C01_pairwise_exact; exact Ht|]. split; [apply C05_copecount_total; exact Ht|].
  split; [apply (C11_defined m Hs); eauto|]. split; [apply (C12_star_total m _ Hs Ht Hb)|].
  intros Hne o Ho. destruct (C16_irv_always_answers o m Ho (Hi Hne)) as (d&rep&E1&E2&_). exists d, rep. split; [exact E1|]. split; [exact E2|].
  intros i rc rm Hr. apply (C17_irv_conserves_ballots o m d i rc rm Ho (Hi Hne) E1 Hr).
Qed.
Print Assumptions C36_parsed_can_be_tallied.

Example C36_nonvacuous : exists m, convert_abif_to_jabmod demo false true false = Ok m /\ Z.of_nat (length demo) <= maxsize /\
  votes_over m A B = 32 /\ cands m <> [].
Proof. eexists. split; [vm_compute; reflexivity|]. split; [discriminate|]. split; [vm_compute; reflexivity|discriminate]. Qed.

(** ** C37 *)
(** A quoted candidate without a rating is silently lost. *)
Theorem C37_quoted_candidate_refuted : exists text m,
  text = u "3:""A"">""B""" /\ convert_abif_to_jabmod text false false false = Ok m /\
  cands m = [] /\ map v_qty (j_votelines m) = [3] /\ map v_prefs (j_votelines m) = [[]].
Proof. eexists. eexists. split; [reflexivity|]. split; [vm_compute; reflexivity|]. repeat split. Qed.
Print Assumptions C37_quoted_candidate_refuted.

(** Every candidate written bare, in brackets, or in quotes with a rating is kept, whatever the
    delimiters and even if candidates are repeated; nothing else appears. *)
Theorem C37_written_candidates_kept : forall qty i r, numeral qty -> item_ok i ->
  (forall d j, In (d, j) r -> delimiter d /\ item_ok j) ->
  exists m v, convert_abif_to_jabmod (voteline_text qty i r) false false false = Ok m /\ j_votelines m = [v] /\
    (forall c, In c (map fst (v_prefs v)) <-> In c (map item_name (i :: map snd r))) /\
    (forall c, In c (cands m) <-> In c (map item_name (i :: map snd r))).
Proof.
  intros qty i r Hq Hi Hr. destruct (vote_of_text qty i r Hq Hi Hr) as [Hl Hv].
  destruct (py_int_numeral qty Hq) as (n&_&Eq).
  assert (Hx := extract_show i r Hi Hr). assert (Hd := delims_show r i Hi Hr).
  destruct (parse_prefstr_total _ _ Hx) as [prefs Ep].
  { rewrite map_length. cbn [items length]. rewrite Hd, !map_length. lia. }
  rewrite map_map in Ep. cbn [fst] in Ep. change (map (fun x : item => item_name x) (items i r)) with (map item_name (items i r)) in Ep.
  rewrite (convert_alone _ _ Hl Hv), Eq. cbn [bind]. rewrite Ep. cbn [bind fst snd].
  eexists. eexists. split; [reflexivity|]. split; [reflexivity|]. cbn [v_prefs]. split.
  - apply (parse_prefstr_good _ _ _ Ep).
  - intro c. unfold cands, alone. cbn [j_candidates]. destruct (merge_cands_facts (map item_name (items i r)) [] (NoDup_nil _)) as (_&M2&_).
    unfold dkeys in M2. rewrite M2. cbn. tauto.
Qed.
Print Assumptions C37_written_candidates_kept.
(* non-vacuity of the hypotheses: C33_nonvacuous *)

(** ** C38 *)
Lemma enumerate_app {T} (l1 l2 : list T) : forall i, enumerate i (l1 ++ l2) = enumerate i l1 ++ enumerate (i + Z.of_nat (length l1)) l2.
Proof.
  induction l1 as [|x l1 IH]; intro i; cbn [app enumerate length]; [f_equal; lia|]. rewrite IH. do 2 f_equal. f_equal. lia.
Qed.

Definition meta_key (key : str) : str := if str_eqb key (u "ballotcount") then u "ballotcount_abif_metadata" else key.

Lemma meta_line_step cw m i quoted key pad value : key_ok quoted key -> value_ok quoted value -> forallb is_space pad = true ->
  safe (meta_line quoted key pad value) ->
  process_line cw false m (i, meta_line quoted key pad value) =
  Ok (Jabmod (dset (meta_key key) (JStr value) (j_metadata m)) (j_candidates m) (j_votelines m)).
Proof.
  intros HK HV HP HS. rewrite process_line_eq, process_comment_off by (apply safe_one_line; exact HS). cbn [bind].
  assert (Hnorm : norm cw (meta_line quoted key pad value) = meta_line quoted key pad value) by (destruct cw; reflexivity).
  rewrite Hnorm, before_hash_id by (apply safe_no_hash; exact HS).
  assert (Hm := metadata_match quoted key pad value HK HV HP).
  assert (Hv : vote_parts (meta_line quoted key pad value) = None) by reflexivity. rewrite Hv.
  unfold other_line. assert (Hc : re_match CANDLINE_REGEX (meta_line quoted key pad value) = None).
  { destruct (re_match CANDLINE_REGEX _) as [[g s']|] eqn:Ec; [|reflexivity]. apply candline_first in Ec as [x Ex]. discriminate. }
  rewrite Hc, Hm. unfold process_metadata. cbn [group Nat.eqb]. unfold meta_key. reflexivity.
Qed.

(** Lines that do not start with an opening brace leave metadata alone, but for the ballot count. *)
Lemma other_meta_keep s m k : (forall x, s <> 123%N :: x) -> dget k (j_metadata (other_line s m)) = dget k (j_metadata m).
Proof.
  intro H. unfold other_line. destruct (re_match CANDLINE_REGEX s) as [[g s']|]; [reflexivity|].
  destruct (re_match METADATA_REGEX s) as [[g s']|] eqn:Em; [|reflexivity]. apply metadata_first in Em as [x Ex]. destruct (H x Ex).
Qed.
Lemma line_meta_keep cw m i l m1 k : one_line l -> k <> k_ballotcount -> (forall x, norm cw l <> 123%N :: x) ->
  process_line cw false m (i, l) = Ok m1 -> dget k (j_metadata m1) = dget k (j_metadata m).
Proof.
  intros Hl Hk Hx H. rewrite process_line_eq, process_comment_off in H by exact Hl. cbn [bind] in H.
  destruct (vote_parts (before_hash (norm cw l))) as [[ds rest]|].
  - unfold process_prefline in H. apply bind_ok in H as [q [_ H]]. apply bind_ok in H as [bc [_ H]]. apply bind_ok in H as [z [_ H]].
    apply bind_ok in H as [[prefs keys] [_ H]]. apply ok_inj in H. subst m1. cbn [j_metadata]. apply dget_dset_other. exact Hk.
  - apply ok_inj in H. subst m1. apply other_meta_keep. intros x Ex. pose proof (before_hash_comment (norm cw l)) as E0. rewrite Ex in E0. cbn in E0.
    exact (Hx _ E0).
Qed.
Lemma fold_meta_keep cw k ls : forall i m m1, (forall l, In l ls -> one_line l) -> k <> k_ballotcount ->
  (forall l x, In l ls -> norm cw l <> 123%N :: x) ->
  foldM (process_line cw false) (enumerate i ls) m = Ok m1 -> dget k (j_metadata m1) = dget k (j_metadata m).
Proof.
  induction ls as [|l ls IH]; intros i m m1 Hl Hk Hx H; cbn [enumerate foldM] in H; [apply ok_inj in H; subst; reflexivity|].
  apply bind_ok in H as [m2 [E2 H]]. rewrite (IH _ _ _ (fun y Hy => Hl y (or_intror Hy)) Hk (fun y x Hy => Hx y x (or_intror Hy)) H).
  apply (line_meta_keep cw m i l); auto; [apply Hl; left; reflexivity|intro x; apply Hx; left; reflexivity].
Qed.

Lemma finish_meta_keep ar m m1 k : k <> k_is_ranking_to_rating \/ ar = false -> finish ar m = Ok m1 -> dget k (j_metadata m1) = dget k (j_metadata m).
Proof.
  intros Hk H. unfold finish in H. destruct (j_votelines m) as [|v vs]; [discriminate|]. apply bind_ok in H as [m2 [E2 H]]. apply ok_inj in H. subst m1.
  cbn [j_metadata]. destruct ar; [|apply ok_inj in E2; subst; reflexivity].
  unfold add_ratings_to_votelines in E2. apply bind_ok in E2 as [out [_ E2]]. apply ok_inj in E2. subst m2. cbn [j_metadata].
  destruct (existsb snd out); [|reflexivity]. apply dget_dset_other. destruct Hk as [Hk|Hk]; [exact Hk|discriminate].
Qed.

Lemma convert_lines ls cw ar sc : (forall l, In l ls -> one_line l) ->
  convert_abif_to_jabmod (unlines ls) cw ar sc = bind (foldM (process_line cw sc) (enumerate 0 ls) emptyish) (finish ar).
Proof.
  intro H. destruct ls as [|l ls]; [reflexivity|]. rewrite convert_finish by apply unlines_ne. rewrite splitlines_unlines by exact H. reflexivity.
Qed.

(** Inserting a metadata line anywhere changes nothing but the value of its key, which is the text
    written unless a later line begins with an opening brace.  A key 'ballotcount' is stored under
    another name.  Keys: word characters and white space; values: also , . ( ) - ? : ' /; unquoted ones
    do not start with white space, nor unquoted values with an apostrophe. *)
Theorem C38_metadata_line : forall lines1 lines2 quoted key pad value cleanws add_ratings,
  (forall l, In l (lines1 ++ lines2) -> one_line l) ->
  key_ok quoted key -> value_ok quoted value -> forallb is_space pad = true -> one_line (key ++ pad ++ value) ->
  match convert_abif_to_jabmod (unlines (lines1 ++ meta_line quoted key pad value :: lines2)) cleanws add_ratings false,
        convert_abif_to_jabmod (unlines (lines1 ++ lines2)) cleanws add_ratings false with
  | Ok m, Ok m' =>
      j_candidates m = j_candidates m' /\ j_votelines m = j_votelines m' /\
      (forall k, k <> meta_key key -> dget k (j_metadata m) = dget k (j_metadata m')) /\
      ((forall l x, In l lines2 -> norm cleanws l <> 123%N :: x) -> key <> u "is_ranking_to_rating" \/ add_ratings = false ->
         dget (meta_key key) (j_metadata m) = Some (JStr value))
  | Err e, Err e' => e = e'
  | _, _ => False
  end.
Proof.
  intros ls1 ls2 quoted key pad value cw ar Hl HK HV HP Hol.
  assert (Hsafe : safe (meta_line quoted key pad value)).
  { assert (Hh : forall s, (forall c, In c s -> key_char c = true \/ value_char c = true \/ is_space c = true) -> one_line s -> safe s).
    { intros s Hs Ho c Hc. split; [apply Ho; exact Hc|]. intros ->. specialize (Hs _ Hc). vm_compute in Hs. destruct Hs as [Hs|[Hs|Hs]]; discriminate. }
    destruct HK as (_&K2&_), HV as (_&V2&_). rewrite forallb_In in K2, V2, HP.
    assert (S1 : safe key) by (apply Hh; [intros c Hc; left; apply K2; exact Hc|intros c Hc; apply Hol; apply in_or_app; auto]).
    assert (S2 : safe pad) by (apply Hh; [intros c Hc; right; right; apply HP; exact Hc|intros c Hc; apply Hol; apply in_or_app; right; apply in_or_app; auto]).
    assert (S3 : safe value) by (apply Hh; [intros c Hc; right; left; apply V2; exact Hc|intros c Hc; apply Hol; apply in_or_app; right; apply in_or_app; auto]).
    assert (SC : forall c, c = 123%N \/ c = 34%N \/ c = 58%N \/ c = 125%N -> safe_char c)
      by (intros c [->|[->|[->| ->]]]; (split; [reflexivity|discriminate])).
    unfold meta_line. destruct quoted; cbn [app]; repeat first [assumption | apply safe_nil | apply safe_cons; [apply SC; auto|] | apply safe_app]. }
  assert (Hl1 : forall l, In l ls1 -> one_line l) by (intros l Hx; apply Hl; apply in_or_app; auto).
  assert (Hl2 : forall l, In l ls2 -> one_line l) by (intros l Hx; apply Hl; apply in_or_app; auto).
  rewrite !convert_lines; [|exact Hl|].
  2:{ intros l Hx. apply in_app_or in Hx as [Hx|[<-|Hx]]; auto. apply safe_one_line; exact Hsafe. }
  rewrite !enumerate_app, !foldM_app. cbn [enumerate foldM].
  destruct (foldM (process_line cw false) (enumerate 0 ls1) emptyish) as [m1|]; [|reflexivity]. cbn [bind].
  rewrite meta_line_step by assumption. cbn [bind].
  set (m2 := Jabmod (dset (meta_key key) (JStr value) (j_metadata m1)) (j_candidates m1) (j_votelines m1)).
  assert (HS : same_but (fun k => k = meta_key key) m2 m1).
  { split; [reflexivity|]. split; [reflexivity|]. intros k Hk. apply dget_dset_other. exact Hk. }
  assert (Hbc : meta_key key <> k_ballotcount) by (unfold meta_key; destruct (str_eqb_spec key (u "ballotcount")); [discriminate|assumption]).
  assert (HF := fold_same (fun k => k = meta_key key) cw ls2 (0 + Z.of_nat (length ls1) + 1) (0 + Z.of_nat (length ls1)) m2 m1 (fun e => Hbc (eq_sym e)) Hl2 HS).
  destruct (foldM (process_line cw false) (enumerate (0 + Z.of_nat (length ls1) + 1) ls2) m2) as [m3|] eqn:E3,
           (foldM (process_line cw false) (enumerate (0 + Z.of_nat (length ls1)) ls2) m1) as [m4|]; cbn in HF; try contradiction; cbn [bind]; [|exact HF].
  assert (HG := finish_same _ ar _ _ HF).
  destruct (finish ar m3) as [m5|] eqn:E5, (finish ar m4) as [m6|]; cbn in HG; try contradiction; [|exact HG].
  destruct HG as (G1&G2&G3). split; [exact G1|]. split; [exact G2|]. split; [exact G3|].
  intros Hx Hr. rewrite (finish_meta_keep ar m3 m5); [|destruct Hr as [Hr|Hr]; [left|right; exact Hr]|exact E5].
  - rewrite (fold_meta_keep _ _ _ _ _ _ Hl2 Hbc Hx E3). apply dget_dset_same.
  - unfold meta_key. destruct (str_eqb key (u "ballotcount")); [discriminate|exact Hr].
Qed.
Print Assumptions C38_metadata_line.

Example C38_nonvacuous : key_ok false (u "title") /\ value_ok false (u "A simple election, 2024 (test)") /\
  key_ok true (u "max size") /\ value_ok true (u "it's 10:30") /\
  meta_line true (u "max size") [32%N] (u "it's 10:30") = u "{""max size"": ""it's 10:30""}".
Proof.
  unfold key_ok, value_ok.
  repeat match goal with
  | |- _ /\ _ => split
  | |- _ <> _ => discriminate
  | |- false = false -> _ => intros _
  | |- true = false -> _ => discriminate
  | |- _ = _ => vm_compute; reflexivity
  end.
Qed.

(** ** C63 *)
(** Two models that agree but for the name of some tokens. *)
Definition same_but_name (tok : str) (m m' : jabmod) : Prop :=
  j_metadata m = j_metadata m' /\ j_votelines m = j_votelines m' /\
  forall c, c <> tok -> dget c (j_candidates m) = dget c (j_candidates m').

Lemma merge_dget ks : forall t c, dget c (merge_cands ks t) = match dget c t with Some v => Some v | None => if memb c ks then Some c else None end.
Proof.
  induction ks as [|k ks IH]; intros t c; cbn [merge_cands fold_left memb]; [destruct (dget c t); reflexivity|].
  change (fold_left _ ks ?t0) with (merge_cands ks t0). rewrite IH. destruct (dmem k t) eqn:Ek.
  - destruct (dget c t) eqn:Ec; [reflexivity|]. destruct (str_eqb_spec c k) as [->|n]; [|reflexivity].
    unfold dmem in Ek. rewrite Ec in Ek. discriminate.
  - rewrite dget_dset. destruct (str_eqb_spec c k) as [->|n]; [|reflexivity]. unfold dmem in Ek. destruct (dget k t); [discriminate|reflexivity].
Qed.

Lemma process_line_name tok cw m m' i i' l : one_line l -> same_but_name tok m m' ->
  rel_res (same_but_name tok) (process_line cw false m (i, l)) (process_line cw false m' (i', l)).
Proof.
  intros Hl (H1&H2&H3). rewrite !process_line_eq, !process_comment_off by assumption. cbn [bind].
  destruct (vote_parts (before_hash (norm cw l))) as [[ds rest]|].
  - unfold process_prefline. rewrite <- H1. destruct (py_int ds) as [q|]; [|reflexivity]. cbn [bind].
    destruct (dgetE k_ballotcount (j_metadata m)) as [bc|]; [|reflexivity]. cbn [bind].
    destruct (match bc with JInt z => _ | _ => _ end) as [z|]; [|reflexivity]. cbn [bind].
    destruct (parse_prefstr rest) as [[prefs keys]|]; [|reflexivity]. cbn [bind rel_res]. unfold same_but_name.
    cbn [j_metadata j_votelines j_candidates]. rewrite H2. split; [reflexivity|]. split; [reflexivity|].
    intros c Hc. rewrite !merge_dget, (H3 c Hc). reflexivity.
  - cbn [rel_res]. unfold other_line. destruct (re_match CANDLINE_REGEX _) as [[g s']|].
    { unfold process_candline, same_but_name. cbn [j_metadata j_votelines j_candidates]. split; [exact H1|]. split; [exact H2|].
      intros c Hc. rewrite !dget_dset, (H3 c Hc). reflexivity. }
    destruct (re_match METADATA_REGEX _) as [[g s']|]; [|repeat split; assumption].
    unfold process_metadata, same_but_name. cbn [j_metadata j_votelines j_candidates]. rewrite H1. auto.
Qed.

Lemma fold_name tok cw ls : forall i i' m m', (forall l, In l ls -> one_line l) -> same_but_name tok m m' ->
  rel_res (same_but_name tok) (foldM (process_line cw false) (enumerate i ls) m) (foldM (process_line cw false) (enumerate i' ls) m').
Proof.
  induction ls as [|l ls IH]; intros i i' m m' Hl H; cbn [enumerate foldM]; [exact H|].
  assert (Hp := process_line_name tok cw m m' i i' l (Hl l (or_introl eq_refl)) H).
  destruct (process_line cw false m (i, l)) as [m1|], (process_line cw false m' (i', l)) as [m1'|]; cbn in Hp; try contradiction; cbn [bind]; [|exact Hp].
  apply IH; auto. intros x Hx; apply Hl; right; exact Hx.
Qed.

Lemma line_name_keep cw m i l m1 c v : one_line l -> (forall x, norm cw l <> 61%N :: x) -> dget c (j_candidates m) = Some v ->
  process_line cw false m (i, l) = Ok m1 -> dget c (j_candidates m1) = Some v.
Proof.
  intros Hl Hx Hc H. rewrite process_line_eq, process_comment_off in H by exact Hl. cbn [bind] in H.
  destruct (vote_parts (before_hash (norm cw l))) as [[ds rest]|].
  - unfold process_prefline in H. apply bind_ok in H as [q [_ H]]. apply bind_ok in H as [bc [_ H]]. apply bind_ok in H as [z [_ H]].
    apply bind_ok in H as [[prefs keys] [_ H]]. apply ok_inj in H. subst m1. cbn [j_candidates]. rewrite merge_dget, Hc. reflexivity.
  - apply ok_inj in H. subst m1. unfold other_line. destruct (re_match CANDLINE_REGEX _) as [[g s']|] eqn:Ec.
    + apply candline_first in Ec as [x Ex]. pose proof (before_hash_comment (norm cw l)) as E0. rewrite Ex in E0. cbn in E0. destruct (Hx _ E0).
    + destruct (re_match METADATA_REGEX _) as [[g s']|]; exact Hc.
Qed.
Lemma fold_name_keep cw c v ls : forall i m m1, (forall l, In l ls -> one_line l) ->
  (forall l x, In l ls -> norm cw l <> 61%N :: x) -> dget c (j_candidates m) = Some v ->
  foldM (process_line cw false) (enumerate i ls) m = Ok m1 -> dget c (j_candidates m1) = Some v.
Proof.
  induction ls as [|l ls IH]; intros i m m1 Hl Hx Hc H; cbn [enumerate foldM] in H; [apply ok_inj in H; subst; exact Hc|].
  apply bind_ok in H as [m2 [E2 H]]. apply (IH (i + 1) m2); [intros y Hy; apply Hl; right; exact Hy|intros y x Hy; apply Hx; right; exact Hy| |exact H].
  apply (line_name_keep cw m i l m2); auto; [apply Hl; left; reflexivity|intro x; apply Hx; left; reflexivity].
Qed.

(** Inserting a candidate line anywhere gives its token that name - unless a later line begins with
    '=' - and changes no vote, no metadata and no other candidate's name.  (With add_ratings the number
    of candidates enters the ratings, see C14.) *)
Theorem C63_candidate_line : forall lines1 lines2 bracketed token name cleanws,
  (forall l, In l (lines1 ++ lines2) -> one_line l) ->
  token_ok token -> name_ok bracketed name -> one_line (token ++ name) -> ~ In 35%N (token ++ name) ->
  match convert_abif_to_jabmod (unlines (lines1 ++ cand_line bracketed token name :: lines2)) cleanws false false,
        convert_abif_to_jabmod (unlines (lines1 ++ lines2)) cleanws false false with
  | Ok m, Ok m' =>
      j_metadata m = j_metadata m' /\ j_votelines m = j_votelines m' /\
      (forall c, c <> token -> dget c (j_candidates m) = dget c (j_candidates m')) /\
      ((forall l x, In l lines2 -> norm cleanws l <> 61%N :: x) -> dget token (j_candidates m) = Some name)
  | Err e, Err e' => e = e'
  | _, _ => False
  end.
Proof.
  intros ls1 ls2 br tok name cw Hl HT HN Hol Hh.
  assert (Hsafe : safe (cand_line br tok name)).
  { assert (S1 : safe tok) by (intros c Hc; split; [apply Hol; apply in_or_app; auto|intros ->; apply Hh; apply in_or_app; auto]).
    assert (S2 : safe name) by (intros c Hc; split; [apply Hol; apply in_or_app; auto|intros ->; apply Hh; apply in_or_app; auto]).
    assert (SC : forall c, c = 61%N \/ c = 91%N \/ c = 58%N \/ c = 93%N -> safe_char c)
      by (intros c [->|[->|[->| ->]]]; (split; [reflexivity|discriminate])).
    unfold cand_line. destruct br; cbn [app]; repeat first [assumption | apply safe_nil | apply safe_cons; [apply SC; auto|] | apply safe_app]. }
  assert (Hl1 : forall l, In l ls1 -> one_line l) by (intros l Hx; apply Hl; apply in_or_app; auto).
  assert (Hl2 : forall l, In l ls2 -> one_line l) by (intros l Hx; apply Hl; apply in_or_app; auto).
  rewrite !convert_lines; [|exact Hl|].
  2:{ intros l Hx. apply in_app_or in Hx as [Hx|[<-|Hx]]; auto. apply safe_one_line; exact Hsafe. }
  rewrite !enumerate_app, !foldM_app. cbn [enumerate foldM].
  destruct (foldM (process_line cw false) (enumerate 0 ls1) emptyish) as [m1|]; [|reflexivity]. cbn [bind].
  assert (Hstep : forall i, process_line cw false m1 (i, cand_line br tok name) =
    Ok (Jabmod (j_metadata m1) (dset tok name (j_candidates m1)) (j_votelines m1))).
  { intro i. rewrite process_line_eq, process_comment_off by (apply safe_one_line; exact Hsafe). cbn [bind].
    assert (Hnorm : norm cw (cand_line br tok name) = cand_line br tok name) by (destruct cw, br; reflexivity).
    rewrite Hnorm, before_hash_id by (apply safe_no_hash; exact Hsafe).
    assert (Hv : vote_parts (cand_line br tok name) = None) by (destruct br; reflexivity). rewrite Hv.
    unfold other_line. rewrite (candline_match br tok name HT HN). reflexivity. }
  rewrite Hstep. cbn [bind]. set (m2 := Jabmod _ (dset tok name _) _).
  assert (HS : same_but_name tok m2 m1).
  { split; [reflexivity|]. split; [reflexivity|]. intros k Hk. apply dget_dset_other. exact Hk. }
  assert (HF := fold_name tok cw ls2 (0 + Z.of_nat (length ls1) + 1) (0 + Z.of_nat (length ls1)) m2 m1 Hl2 HS).
  destruct (foldM (process_line cw false) (enumerate (0 + Z.of_nat (length ls1) + 1) ls2) m2) as [m3|] eqn:E3,
           (foldM (process_line cw false) (enumerate (0 + Z.of_nat (length ls1)) ls2) m1) as [m4|]; cbn in HF; try contradiction; cbn [bind]; [|exact HF].
  destruct HF as (F1&F2&F3). unfold finish. rewrite <- F2. destruct (j_votelines m3) as [|v vs] eqn:Ev; [reflexivity|]. cbn [bind].
  cbn [j_metadata j_candidates j_votelines]. rewrite <- F2, Ev. split; [exact F1|]. split; [reflexivity|]. split; [exact F3|].
  intro Hx. refine (fold_name_keep cw tok name ls2 _ m2 m3 Hl2 Hx _ E3). apply dget_dset_same.
Qed.
Print Assumptions C63_candidate_line.

Example C63_nonvacuous : token_ok (u "bob_j.") /\ name_ok true (u "Bob ""J"" [x: y") /\ name_ok false (u "Bob: J") /\
  cand_line true (u "bob_j.") (u "Bob") = u "=bob_j.:[Bob]".
Proof. repeat split; vm_compute; discriminate || reflexivity. Qed.

(** A token written in brackets or quotes on a candidate line is not understood: the line is ignored. *)
Theorem C63_bracketed_token_refuted : exists text m,
  text = u "=[Ann B]:[Ann Bee]" ++ nl ++ u "3:[Ann B]>C" /\
  convert_abif_to_jabmod text false false false = Ok m /\ dget (u "Ann B") (j_candidates m) = Some (u "Ann B").
Proof. eexists. eexists. split; [reflexivity|]. split; [vm_compute; reflexivity|]. reflexivity. Qed.
Print Assumptions C63_bracketed_token_refuted.
