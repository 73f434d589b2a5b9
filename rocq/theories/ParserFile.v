(** * ParserFile: lemmas about whole ABIF texts *)

From Verif Require Import PyBase PyFacts Jabmod Regex RegexFacts WordTable ScoreModel ScoreFacts Spec ParserModel ParserSpec ParserFacts ParserPrefs ParserRender.
From Verif Require Import PairwiseModel PropsPairwise PropsScore.
Local Open Scope Z_scope.

(** The line as the reader sees it: leading white space removed when cleanws is on. *)
Definition norm (cw : bool) (l : str) : str := if cw then lstrip l else l.

(** Candidate and metadata lines. *)
Definition other_line (s : str) (m : jabmod) : jabmod :=
  match re_match CANDLINE_REGEX s with
  | Some (g, _) => process_candline (group 1 g) (group 2 g) m
  | None => match re_match METADATA_REGEX s with
            | Some (g, _) => process_metadata (group 1 g) (group 2 g) m
            | None => m
            end
  end.

Lemma one_line_norm cw l : one_line l -> one_line (norm cw l).
Proof. destruct cw; [apply one_line_lstrip|auto]. Qed.

Lemma In_before_hash s c : In c (before_hash s) -> In c s.
Proof. intro H. rewrite before_hash_comment. apply in_or_app. left; exact H. Qed.

Lemma process_line_eq cw sc m i full : one_line full ->
  process_line cw sc m (i, full) =
  bind (process_comment m (comment_of (norm cw full)) i sc) (fun m1 =>
    match vote_parts (before_hash (norm cw full)) with
    | Some (ds, rest) => process_prefline ds rest (comment_of (norm cw full)) m1
    | None => Ok (other_line (before_hash (norm cw full)) m1)
    end).
Proof.
  intro H. apply (one_line_norm cw) in H. unfold process_line.
  change (if cw then lstrip full else full) with (norm cw full). set (l := norm cw full) in *.
  assert (Hnl : ~ In 10%N l) by (apply one_line_no_nl; exact H).
  rewrite strip_comment_ok by exact Hnl.
  assert (Hnl' : ~ In 10%N (before_hash l)) by (intro Hi; apply Hnl; apply In_before_hash; exact Hi).
  destruct (process_comment m (comment_of l) i sc) as [m1|]; [|reflexivity]. cbn [bind].
  pose proof (vote_match_ok (before_hash l) Hnl') as Hv. unfold vote_match in Hv.
  destruct (vote_parts (before_hash l)) as [[ds rest]|] eqn:Ev.
  - destruct (vote_not_other _ _ _ Ev) as [-> ->].
    destruct (re_match VOTELINE_REGEX (before_hash l)) as [[g s']|]; [|discriminate].
    injection Hv as -> ->. reflexivity.
  - destruct (re_match VOTELINE_REGEX (before_hash l)) as [[g s']|]; [discriminate|].
    unfold other_line. destruct (re_match CANDLINE_REGEX _) as [[g s']|]; [reflexivity|].
    destruct (re_match METADATA_REGEX _) as [[g s']|]; reflexivity.
Qed.

(** The voteline (and candidates) a line stands for. *)
Definition vote_of (l : str) : option (result (voteline * list str)) :=
  match vote_parts (before_hash l) with
  | Some (ds, rest) =>
      Some (bind (py_int ds) (fun q => bind (parse_prefstr rest) (fun pk =>
        Ok (Voteline q (fst pk) (comment_of l) (Some (rstrip rest)) (voter_id (comment_of l)) None, snd pk))))
  | None => None
  end.

Definition int_count (m : jabmod) : Prop := exists z, dget k_ballotcount (j_metadata m) = Some (JInt z).

Lemma process_prefline_eq ds rest lc m z : dget k_ballotcount (j_metadata m) = Some (JInt z) ->
  process_prefline ds rest lc m =
  bind (py_int ds) (fun q => bind (parse_prefstr rest) (fun pk =>
    Ok (Jabmod (dset k_ballotcount (JInt (z + q)) (j_metadata m)) (merge_cands (snd pk) (j_candidates m))
         (j_votelines m ++ [Voteline q (fst pk) lc (Some (rstrip rest)) (voter_id lc) None])))).
Proof.
  intro H. unfold process_prefline. rewrite <- vid_match_ok. unfold vid_match.
  destruct (py_int ds) as [q|]; [|reflexivity]. cbn [bind]. unfold dgetE. rewrite H. cbn [of_option bind].
  destruct (parse_prefstr rest) as [[prefs keys]|]; reflexivity.
Qed.

(** ** The state invariant *)

Definition count_delims (s : str) : Z := Z.of_nat (length (filter (fun c => one_of [62; 61; 44]%N c) s)).

Definition line_fine (table : list str) (l : voteline) : Prop :=
  0 <= v_qty l /\ NoDup (dkeys (v_prefs l)) /\ incl (dkeys (v_prefs l)) table /\
  exists ps, v_prefstr l = Some ps /\
  (forall c p, In (c, p) (v_prefs l) ->
    (exists z, p_rank p = Some z /\ 1 <= z <= 1 + count_delims ps) /\
    forall r, p_rating p = Some r -> rating_fine r).

Definition state_fine (m : jabmod) : Prop :=
  NoDup (dkeys (j_metadata m)) /\ NoDup (cands m) /\
  dget k_ballotcount (j_metadata m) = Some (JInt (total_ballots m)) /\
  forall l, In l (j_votelines m) -> line_fine (cands m) l.

Lemma delims_le s : forall b, (length (delims b s) <= length (filter (fun c => one_of [62; 61; 44]%N c) s))%nat.
Proof.
  induction s as [|c r IH]; intro b; cbn [delims filter]; [lia|].
  assert (Eo : one_of [ch_gt; ch_comma; ch_eq] c = one_of [62; 61; 44]%N c).
  { unfold one_of, ch_gt, ch_comma, ch_eq. cbn [existsb]. rewrite !orb_false_r. destruct (c =? 62)%N, (c =? 44)%N, (c =? 61)%N; reflexivity. }
  destruct b.
  - specialize (IH (negb (c =? ch_rbr)%N)). destruct (one_of [62; 61; 44]%N c); cbn [length]; lia.
  - destruct ((c =? ch_lbr)%N && existsb (N.eqb ch_rbr) r).
    + specialize (IH true). destruct (one_of [62; 61; 44]%N c); cbn [length]; lia.
    + rewrite Eo. specialize (IH false). destruct (one_of [62; 61; 44]%N c); cbn [length]; lia.
Qed.

Lemma prefs_loop_delims mode ds n : forall cps i rank prefs prefs',
  prefs_loop mode ds n i rank cps prefs = Ok prefs' -> (i + length cps = n)%nat -> (i <= length ds)%nat -> (n - 1 <= length ds)%nat.
Proof.
  induction cps as [|[cand rating] r IH]; intros i rank prefs prefs' H Hn Hi; cbn [length prefs_loop] in *; [lia|].
  apply bind_ok in H as [[p1 rank1] [_ H]]. apply bind_ok in H as [p2 [E2 H]].
  destruct (i <? n - 1)%nat eqn:El.
  - apply bind_ok in E2 as [d [Ed _]]. unfold of_option in Ed. destruct (nth_error ds i) eqn:En; [|discriminate].
    assert (i < length ds)%nat by (apply nth_error_Some; congruence).
    apply (IH _ _ _ _ H); lia.
  - apply Nat.ltb_ge in El. lia.
Qed.

Lemma count_delims_app a b : count_delims (a ++ b) = count_delims a + count_delims b.
Proof. unfold count_delims. rewrite filter_app, app_length. lia. Qed.
Lemma count_delims_space a : forallb is_space a = true -> count_delims a = 0.
Proof.
  intro H. unfold count_delims. induction a as [|c a IH]; [reflexivity|]. cbn [forallb] in H. apply andb_prop in H as [Hc H].
  cbn [filter]. destruct (one_of [62; 61; 44]%N c) eqn:E; [|exact (IH H)].
  apply one_of_In in E. cbn in E. destruct E as [<-|[<-|[<-|[]]]]; vm_compute in Hc; discriminate.
Qed.
Lemma count_delims_rstrip s : count_delims (rstrip s) = count_delims s.
Proof.
  destruct (rstrip_prefix s) as (a&Ea&Ha). rewrite Ea at 2. rewrite count_delims_app, (count_delims_space a Ha). lia.
Qed.

(** Number of mentions against number of delimiters. *)
Lemma mentions_le s prefs keys : parse_prefstr s = Ok (prefs, keys) -> Z.of_nat (length keys) <= 1 + count_delims s.
Proof.
  intro H. destruct (parse_prefstr_shape _ _ _ H) as (cps&prefs0&Ec&->&E0&_).
  assert (Hd := prefs_loop_delims _ _ _ _ _ _ _ _ E0 eq_refl (Nat.le_0_l _)).
  rewrite map_length. unfold count_delims. unfold rank_or_rate in Hd. cbn [snd] in Hd. pose proof (delims_le s false). lia.
Qed.

Lemma merge_cands_facts keys : forall table, NoDup (dkeys table) ->
  NoDup (dkeys (merge_cands keys table)) /\
  (forall c, In c (dkeys (merge_cands keys table)) <-> In c keys \/ In c (dkeys table)) /\
  (forall c, In c (dkeys table) -> dget c (merge_cands keys table) = dget c table).
Proof.
  induction keys as [|k ks IH]; intros table Hn; unfold merge_cands; cbn [fold_left].
  - split; [exact Hn|]. split; [cbn; tauto|auto].
  - fold (merge_cands ks (if dmem k table then table else dset k k table)).
    assert (Hn' : NoDup (dkeys (if dmem k table then table else dset k k table))).
    { destruct (dmem k table); [exact Hn|]. apply NoDup_dset; exact Hn. }
    destruct (IH _ Hn') as (H1&H2&H3). split; [exact H1|]. split.
    + intro c. rewrite H2. cbn [In]. destruct (dmem k table) eqn:Ek.
      * apply dmem_In in Ek. split; [tauto|]. intros [[<-|H]|H]; auto.
      * rewrite In_dkeys_dset. intuition congruence.
    + intros c Hc. rewrite H3.
      * destruct (dmem k table) eqn:Ek; [reflexivity|]. apply dget_dset_other. intros ->. apply dmem_In in Hc. congruence.
      * destruct (dmem k table); [exact Hc|]. apply In_dkeys_dset. auto.
Qed.

Lemma line_fine_incl t t' l : incl t t' -> line_fine t l -> line_fine t' l.
Proof. intros Hi (H1&H2&H3&H4). split; [exact H1|]. split; [exact H2|]. split; [|exact H4]. intros c Hc; apply Hi, H3, Hc. Qed.

Lemma k_comments_neq : k_comments <> k_ballotcount.
Proof. discriminate. Qed.

Lemma process_comment_inv m lc i sc m1 : process_comment m lc i sc = Ok m1 ->
  j_candidates m1 = j_candidates m /\ j_votelines m1 = j_votelines m /\
  (forall k, k <> k_comments -> dget k (j_metadata m1) = dget k (j_metadata m)) /\
  (NoDup (dkeys (j_metadata m)) -> NoDup (dkeys (j_metadata m1))).
Proof.
  unfold process_comment. intro H. destruct lc as [[|c r]|]; [apply ok_inj in H; subst; auto| |apply ok_inj in H; subst; auto].
  destruct sc; [|apply ok_inj in H; subst; auto].
  destruct (dget k_comments (j_metadata m)) as [v|] eqn:E.
  - destruct v; try discriminate. apply ok_inj in H; subst; cbn [j_candidates j_votelines j_metadata].
    repeat split; auto. + intros k Hk; apply dget_dset_other; exact Hk. + apply NoDup_dset.
  - apply ok_inj in H; subst; cbn [j_candidates j_votelines j_metadata].
    repeat split; auto. + intros k Hk; apply dget_dset_other; exact Hk. + apply NoDup_dset.
Qed.

Lemma meta_key_neq k : (if str_eqb k k_ballotcount then k_ballotcount_abif else k) <> k_ballotcount.
Proof. destruct (str_eqb_spec k k_ballotcount); [discriminate|assumption]. Qed.

(** Candidate and metadata lines leave the ballots and the count alone. *)
Lemma other_line_inv s m : j_votelines (other_line s m) = j_votelines m /\
  dget k_ballotcount (j_metadata (other_line s m)) = dget k_ballotcount (j_metadata m) /\
  incl (cands m) (cands (other_line s m)) /\
  (NoDup (dkeys (j_metadata m)) -> NoDup (dkeys (j_metadata (other_line s m)))) /\
  (NoDup (cands m) -> NoDup (cands (other_line s m))).
Proof.
  unfold other_line, cands. destruct (re_match CANDLINE_REGEX s) as [[g s']|].
  { unfold process_candline. cbn. repeat split; auto.
    - intros c Hc. apply In_dkeys_dset. right; exact Hc.
    - apply NoDup_dset. }
  destruct (re_match METADATA_REGEX s) as [[g s']|]; [|repeat split; auto; apply incl_refl].
  unfold process_metadata. cbn [j_votelines j_metadata j_candidates]. repeat split; auto.
  - apply dget_dset_other. intro E. apply (meta_key_neq (group 1 g)). congruence.
  - apply incl_refl.
  - apply NoDup_dset.
Qed.

Lemma state_fine_ext m m' : j_votelines m' = j_votelines m -> incl (cands m) (cands m') ->
  dget k_ballotcount (j_metadata m') = dget k_ballotcount (j_metadata m) ->
  NoDup (dkeys (j_metadata m')) -> NoDup (cands m') -> state_fine m -> state_fine m'.
Proof.
  intros E1 Hi E2 N1 N2 (_&_&H3&H4). split; [exact N1|]. split; [exact N2|]. unfold total_ballots. rewrite E1, E2.
  split; [exact H3|]. intros l Hl. apply (line_fine_incl (cands m)); auto.
Qed.

Lemma process_line_inv cw sc m i full m' : one_line full -> state_fine m ->
  process_line cw sc m (i, full) = Ok m' ->
  state_fine m' /\ incl (cands m) (cands m') /\
  match vote_of (norm cw full) with
  | Some r => exists v keys, r = Ok (v, keys) /\ j_votelines m' = j_votelines m ++ [v] /\ incl keys (cands m')
  | None => j_votelines m' = j_votelines m
  end.
Proof.
  intros Hl Hm H. rewrite process_line_eq in H by exact Hl. apply bind_ok in H as [m1 [Ec H]].
  destruct (process_comment_inv _ _ _ _ _ Ec) as (C1&C2&C3&C4).
  assert (Hm1 : state_fine m1).
  { apply (state_fine_ext m); auto.
    - unfold cands. rewrite C1. apply incl_refl.
    - apply C3. intro Hx. symmetry in Hx. exact (k_comments_neq Hx).
    - apply C4, Hm.
    - unfold cands. rewrite C1. apply Hm. }
  assert (Hc1 : cands m1 = cands m) by (unfold cands; rewrite C1; reflexivity).
  unfold vote_of. destruct (vote_parts (before_hash (norm cw full))) as [[ds rest]|] eqn:Ev.
  - destruct Hm1 as (N1&N2&B&L). rewrite (process_prefline_eq _ _ _ _ _ B) in H.
    apply bind_ok in H as [q [Eq H]]. apply bind_ok in H as [[prefs keys] [Ep H]]. cbn [fst snd] in H. apply ok_inj in H. subst m'.
    destruct (merge_cands_facts keys (j_candidates m1)) as (M1&M2&M3); [exact N2|].
    destruct (parse_prefstr_good _ _ _ Ep) as [(G1&G2) G3].
    assert (Hinc : incl (cands m1) (dkeys (merge_cands keys (j_candidates m1)))) by (intros c Hc; apply M2; right; exact Hc).
    split; [|split].
    + split; [apply NoDup_dset; exact N1|]. split; [exact M1|]. cbn [j_metadata j_votelines cands j_candidates]. split.
      * rewrite dget_dset_same. unfold total_ballots. cbn [j_votelines]. rewrite map_app, zsum_app. cbn [map zsum v_qty]. do 2 f_equal. lia.
      * intros l Hin. unfold cands. cbn [j_candidates]. apply in_app_or in Hin as [Hin|[<-|[]]].
        -- apply (line_fine_incl (cands m1)); [exact Hinc|]. apply L; exact Hin.
        -- split; [|split; [|split]]; cbn [v_qty v_prefs v_prefstr].
           ++ apply vote_parts_spec in Ev as [_ Hnum]. exact (py_int_numeral_nonneg ds q Hnum Eq).
           ++ exact G1.
           ++ intros c Hc. apply M2. left. apply G3. exact Hc.
           ++ exists (rstrip rest). split; [reflexivity|]. intros c p Hin. destruct (G2 c p Hin) as [(z&Ez&Hz) Hr].
              split; [|intros r Er; apply (Hr r Er)]. exists z. split; [exact Ez|].
              rewrite count_delims_rstrip. pose proof (mentions_le _ _ _ Ep). lia.
    + rewrite <- Hc1. exact Hinc.
    + exists (Voteline q prefs (comment_of (norm cw full)) (Some (rstrip rest)) (voter_id (comment_of (norm cw full))) None), keys.
      rewrite Eq. cbn [bind]. rewrite Ep. cbn [bind fst snd j_votelines]. rewrite C2. repeat split.
      intros c Hc. apply M2. left; exact Hc.
  - apply ok_inj in H. subst m'. destruct (other_line_inv (before_hash (norm cw full)) m1) as (O1&O2&O3&O4&O5).
    split; [|split].
    + apply (state_fine_ext m1); auto; [apply O4, Hm1|apply O5, Hm1].
    + rewrite <- Hc1. exact O3.
    + rewrite O1. exact C2.
Qed.

(** The votelines of a list of lines, in order. *)
Fixpoint votes_of (ls : list str) : list (result (voteline * list str)) :=
  match ls with
  | [] => []
  | l :: r => match vote_of l with Some x => x :: votes_of r | None => votes_of r end
  end.

Lemma fold_lines_inv cw sc ls : forall i m m', (forall l, In l ls -> one_line l) -> state_fine m ->
  foldM (process_line cw sc) (enumerate i ls) m = Ok m' ->
  state_fine m' /\ incl (cands m) (cands m') /\
  exists vs, votes_of (map (norm cw) ls) = map Ok vs /\ j_votelines m' = j_votelines m ++ map fst vs /\
             (forall v ks, In (v, ks) vs -> incl ks (cands m')).
Proof.
  induction ls as [|l ls IH]; intros i m m' Hl Hm H; cbn [enumerate foldM map votes_of] in *.
  - apply ok_inj in H. subst. split; [exact Hm|]. split; [apply incl_refl|]. exists []. rewrite app_nil_r. repeat split; auto. intros v ks [].
  - apply bind_ok in H as [m1 [E1 H]].
    destruct (process_line_inv cw sc m i l m1 (Hl l (or_introl eq_refl)) Hm E1) as (S1&I1&V1).
    destruct (IH (i + 1) m1 m' (fun x Hx => Hl x (or_intror Hx)) S1 H) as (S2&I2&vs&EV&EL&EK).
    split; [exact S2|]. split; [intros c Hc; apply I2, I1, Hc|].
    destruct (vote_of (norm cw l)) as [r|].
    + destruct V1 as (v&keys&->&Ev&Ek). exists ((v, keys) :: vs). cbn [map fst]. rewrite EV. split; [reflexivity|]. split.
      * rewrite EL, Ev, <- app_assoc. reflexivity.
      * intros v' ks [Hv|Hv]; [injection Hv as <- <-; intros c Hc; apply I2, Ek, Hc|exact (EK v' ks Hv)].
    + exists vs. rewrite V1 in EL. auto.
Qed.

Lemma emptyish_fine : state_fine emptyish.
Proof.
  split; [repeat constructor; cbn; tauto|]. split; [constructor|]. split; [reflexivity|]. intros l [].
Qed.

(** ** What add_ratings does to a fine state *)

Lemma add_ratings_fine m : state_fine m -> exists m1, add_ratings_to_votelines m true = Ok m1 /\
  j_candidates m1 = j_candidates m /\ dget k_ballotcount (j_metadata m1) = dget k_ballotcount (j_metadata m) /\
  NoDup (dkeys (j_metadata m1)) /\
  Forall2 (fun l l' => v_qty l' = v_qty l /\ v_prefstr l' = v_prefstr l /\ v_comment l' = v_comment l /\ v_voterid l' = v_voterid l /\
     dkeys (v_prefs l') = dkeys (v_prefs l) /\ (forall c, rank_on l' c = rank_on l c) /\
     (forall c p', In (c, p') (v_prefs l') -> exists p, In (c, p) (v_prefs l) /\ p_nextdelim p' = p_nextdelim p /\
        (p_rating p' = p_rating p \/ exists z, p_rating p' = Some (RInt z)))) (j_votelines m) (j_votelines m1).
Proof.
  intros (N1&N2&B&L).
  assert (Hr : forall l, In l (j_votelines m) -> forall c p, In (c, p) (v_prefs l) -> p_rank p <> None).
  { intros l Hl c p Hin. destruct (L l Hl) as (_&_&_&ps&_&H). destruct (H c p Hin) as [(z&Ez&_) _]. congruence. }
  destruct (add_ratings_ok m Hr) as (md'&E&Hmd&_). eexists. split; [exact E|]. cbn [j_candidates j_metadata j_votelines].
  split; [reflexivity|]. split; [destruct Hmd as [->| ->]; [reflexivity|apply dget_dset_other; discriminate]|].
  split; [destruct Hmd as [->| ->]; [exact N1|apply NoDup_dset; exact N1]|].
  clear E Hmd. generalize (inmod_has_rating m) as ir, (Z.of_nat (length (j_candidates m))) as nc. intros ir nc.
  revert Hr. generalize (j_votelines m) as vls. clear. intros vls Hr.
  induction vls as [|l r IH]; cbn [map]; [constructor|constructor]; [|apply IH; intros l0 Hl0; apply Hr; right; exact Hl0].
  cbn [with_prefs v_qty v_prefstr v_comment v_voterid v_prefs]. repeat (split; [reflexivity|]). split.
  { unfold dkeys. rewrite map_map. reflexivity. }
  split; [|intros c p' Hin; apply in_map_iff in Hin as ([c0 p0]&Ek&Hin); cbn [fst snd] in Ek; injection Ek as <- <-; exists p0; split; [exact Hin|];
    unfold filled; destruct (has_real_rating p0), ir, (p_rank p0) eqn:Ep; cbn; eauto].
  - intro c. unfold rank_on. cbn [v_prefs with_prefs].
    assert (Hg : forall ps, dget c (map (fun kv : str * pref => (fst kv, filled ir nc (snd kv))) ps)
      = option_map (filled ir nc) (dget c ps)).
    { induction ps as [|[k p] ps IHp]; cbn [map dget fst snd]; [reflexivity|]. destruct (str_eqb c k); [reflexivity|exact IHp]. }
    rewrite Hg. destruct (dget c (v_prefs l)) as [p|]; [|reflexivity]. cbn [option_map].
    unfold filled. destruct (has_real_rating p), ir, (p_rank p) eqn:Ep; cbn; congruence.
Qed.

(** ** Shape of a successful parse *)

Lemma convert_shape text cw ar sc m : convert_abif_to_jabmod text cw ar sc = Ok m ->
  exists m0, foldM (process_line cw sc) (enumerate 0 (splitlines text)) emptyish = Ok m0 /\ j_votelines m0 <> [] /\
  exists m1, (if ar then add_ratings_to_votelines m0 true else Ok m0) = Ok m1 /\
  m = Jabmod (j_metadata m1) (j_candidates m1) (sort_desc v_qty (j_votelines m1)).
Proof.
  unfold convert_abif_to_jabmod. destruct text as [|c t]; [discriminate|]. intro H.
  apply bind_ok in H as [m0 [E0 H]]. exists m0. split; [exact E0|].
  destruct (j_votelines m0) as [|v vs] eqn:Ev; [discriminate|]. split; [discriminate|].
  apply bind_ok in H as [m1 [E1 H]]. apply ok_inj in H. exists m1. auto.
Qed.

Lemma convert_state text cw sc m0 : foldM (process_line cw sc) (enumerate 0 (splitlines text)) emptyish = Ok m0 ->
  state_fine m0 /\ exists vs, votes_of (map (norm cw) (splitlines text)) = map Ok vs /\ j_votelines m0 = map fst vs /\
  (forall v ks, In (v, ks) vs -> incl ks (cands m0)).
Proof.
  intro H. destruct (fold_lines_inv cw sc _ 0 emptyish m0 (splitlines_one_line text) emptyish_fine H) as (S&_&vs&E1&E2&E3).
  split; [exact S|]. exists vs. auto.
Qed.

(** ** Errors *)

Lemma parse_prefstr_err s e : parse_prefstr s = Err e -> e = TypeError \/ e = IndexError.
Proof.
  assert (Hset : forall A (x : A) l e, set_last x l = Err e -> e = IndexError).
  { intros A x l e0. unfold set_last. destruct l; congruence. }
  assert (Hx : forall st tok e, xstep st tok = Err e -> e = TypeError \/ e = IndexError).
  { intros [ret inbr inq qtok ccand] tok e0. unfold xstep. destruct (inbr || inq).
    - destruct (starts_with (N.eqb ch_lbr) tok && negb inbr); [discriminate|].
      destruct (starts_with (N.eqb ch_rbr) tok && inbr); [discriminate|].
      destruct (starts_with (N.eqb ch_dq) (lstrip tok)).
      + destruct inq; [|discriminate]. destruct (set_last (qtok, None) ret) eqn:E; cbn [bind]; [discriminate|].
        intro H. injection H as <-. right. exact (Hset _ _ _ _ E).
      + destruct tok; [|discriminate]. intro H; injection H as <-; auto.
    - destruct (re_match QUOTED_RATED tok) as [[g s']|]; [discriminate|].
      destruct (re_match QUOTED tok) as [[g s']|]; [discriminate|].
      destruct (starts_with (fun c => negb (is_delim c)) (lstrip tok)); [|destruct (starts_with (N.eqb ch_lbr) tok); discriminate].
      destruct (split_rating tok) as [[b d]|] eqn:Es.
      + destruct (match b with [] => (ret, ccand) | _ :: _ => (ret ++ [(b, None)], b) end) as [ret1 ccand1].
        destruct (py_int_numeral d (split_rating_numeral _ _ _ Es)) as (z&_&->). cbn [bind].
        destruct (set_last (ccand1, Some (RInt (Z.of_N z))) ret1) eqn:E; cbn [bind]; [discriminate|].
        intro H. injection H as <-. right. exact (Hset _ _ _ _ E).
      + destruct tok; discriminate. }
  assert (Hrun : forall toks st e, foldM (fun st tok => xstep st (strip tok)) toks st = Err e -> e = TypeError \/ e = IndexError).
  { induction toks as [|t toks IH]; intros st e0 H; cbn [foldM] in H; [discriminate|].
    destruct (xstep st (strip t)) eqn:E; cbn [bind] in H; [exact (IH _ _ H)|]. injection H as <-. exact (Hx _ _ _ E). }
  assert (Hloop : forall mode ds n cps i rank prefs e, prefs_loop mode ds n i rank cps prefs = Err e -> e = IndexError).
  { intros mode ds n. induction cps as [|[c r] cps IH]; intros i rank prefs e0 H; cbn [prefs_loop] in H; [discriminate|].
    destruct mode; cbn [bind] in H.
    - destruct (i <? n - 1)%nat; [|exact (IH _ _ _ _ H)]. destruct (nth_error ds i) as [d|]; cbn [of_option bind] in H; [|congruence].
      destruct (d =? ch_gt)%N; cbn [bind] in H; exact (IH _ _ _ _ H).
    - destruct (i <? n - 1)%nat; [|exact (IH _ _ _ _ H)]. destruct (nth_error ds i) as [d|]; cbn [of_option bind] in H; [|congruence]. exact (IH _ _ _ _ H).
    - destruct (i <? n - 1)%nat; [|exact (IH _ _ _ _ H)]. destruct (nth_error ds i) as [d|]; cbn [of_option bind] in H; [|congruence]. exact (IH _ _ _ _ H). }
  intro H. unfold parse_prefstr in H. destruct (rank_or_rate s) as [mode ds].
  destruct (extract_candprefs s) as [cps|] eqn:Ex; cbn [bind] in H.
  2:{ injection H as <-. unfold extract_candprefs in Ex. destruct (foldM _ _ _) eqn:E; cbn [bind] in Ex; [discriminate|].
      injection Ex as <-. exact (Hrun _ _ _ E). }
  destruct (prefs_loop mode ds (length cps) 0 1 cps []) as [prefs0|] eqn:E0; cbn [bind] in H.
  2:{ injection H as <-. right. exact (Hloop _ _ _ _ _ _ _ _ E0). }
  destruct (prefs_loop_inv _ _ _ _ _ _ _ _ E0) as (Hn&He&Hk); [lia|exact (extract_ratings _ _ Ex)|constructor|intros c p []|].
  assert (Hrd : forall c p, In (c, p) prefs0 -> pref_readable p).
  { intros c p Hin. destruct (He c p Hin) as (_&Hf&_). unfold pref_readable. destruct (p_rating p); [|exact I].
    apply rating_fine_readable. exact Hf. }
  rewrite (add_ranks_ok prefs0 Hn Hrd) in H. cbn [bind] in H.
  set (prefs1 := map _ prefs0) in H.
  assert (Hk1 : dkeys prefs1 = dkeys prefs0) by (unfold prefs1, dkeys; rewrite map_map; reflexivity).
  destruct (map fst cps) as [|c0 ks] eqn:Ek; [discriminate|].
  assert (Hin : In c0 (dkeys prefs1)) by (rewrite Hk1; apply Hk; left; left; reflexivity).
  apply dget_Some_In in Hin as [p Ep]. unfold dgetE in H. rewrite Ep in H. cbn [of_option bind] in H.
  destruct (_ && _) in H; [|discriminate].
  rewrite add_ranks_ok in H; [discriminate|rewrite Hk1; exact Hn|].
  intros c q Hq. unfold prefs1 in Hq. apply in_map_iff in Hq as ([c1 q1]&Eq&Hq). cbn [fst snd] in Eq. injection Eq as _ <-.
  specialize (Hrd c1 q1 Hq). unfold pref_readable in *. destruct (fill_rank_facts (dense_rank (pref_num q1) (map (fun kv => pref_num (snd kv)) prefs0)) q1) as (->&_).
  exact Hrd.
Qed.

Lemma process_line_err cw sc m i full e : one_line full -> state_fine m -> process_line cw sc m (i, full) = Err e ->
  (e = TypeError \/ e = IndexError) /\ vote_of (norm cw full) <> None \/ (e = AttributeError /\ sc = true).
Proof.
  intros Hl Hm H. rewrite process_line_eq in H by exact Hl.
  destruct (process_comment m (comment_of (norm cw full)) i sc) as [m1|e1] eqn:Ec; cbn [bind] in H.
  - destruct (process_comment_inv _ _ _ _ _ Ec) as (C1&C2&C3&C4).
    assert (B : dget k_ballotcount (j_metadata m1) = Some (JInt (total_ballots m))).
    { rewrite C3 by (intro Hx; symmetry in Hx; exact (k_comments_neq Hx)). apply Hm. }
    unfold vote_of. destruct (vote_parts (before_hash (norm cw full))) as [[ds rest]|] eqn:Ev; [|discriminate].
    left. split; [|discriminate]. rewrite (process_prefline_eq _ _ _ _ _ B) in H.
    apply vote_parts_spec in Ev as [_ Hnum]. destruct (py_int_numeral ds Hnum) as (z&_&Ez). rewrite Ez in H. cbn [bind] in H.
    destruct (parse_prefstr rest) eqn:Ep; cbn [bind] in H; [discriminate|]. injection H as <-. exact (parse_prefstr_err _ _ Ep).
  - injection H as <-. right. unfold process_comment in Ec. destruct (comment_of _) as [[|c r]|]; try discriminate.
    destruct sc; [|discriminate]. split; [|reflexivity]. destruct (dget k_comments (j_metadata m)) as [v|]; [|discriminate]. destruct v; congruence.
Qed.

Lemma fold_lines_err cw sc ls : forall i m e, (forall l, In l ls -> one_line l) -> state_fine m ->
  foldM (process_line cw sc) (enumerate i ls) m = Err e ->
  (e = TypeError \/ e = IndexError) /\ (exists l, In l ls /\ vote_of (norm cw l) <> None) \/ (e = AttributeError /\ sc = true).
Proof.
  induction ls as [|l ls IH]; intros i m e Hl Hm H; cbn [enumerate foldM] in H; [discriminate|].
  destruct (process_line cw sc m (i, l)) as [m1|e1] eqn:E1; cbn [bind] in H.
  - destruct (process_line_inv cw sc m i l m1 (Hl l (or_introl eq_refl)) Hm E1) as (S1&_).
    destruct (IH _ _ _ (fun x Hx => Hl x (or_intror Hx)) S1 H) as [[He (x&Hx&Hv)]|He]; [|auto].
    left. split; [exact He|]. exists x. split; [right; exact Hx|exact Hv].
  - injection H as <-. destruct (process_line_err _ _ _ _ _ _ (Hl l (or_introl eq_refl)) Hm E1) as [[He Hv]|He]; [|auto].
    left. split; [exact He|]. exists l. split; [left; reflexivity|exact Hv].
Qed.
