(** * Properties C39-C41: writing ABIF and reading it again; ranked lists (abiflib/core.py) *)

From Coq Require Import Lia Permutation Sorted.
From Verif Require Import PyBase PyFacts Jabmod Regex RegexFacts WordTable ScoreModel ScoreFacts Spec ParserModel ParserSpec ParserFacts ParserPrefs ParserRender.
From Verif Require Import PairwiseModel PairwiseFacts PropsPairwise IrvModel IrvFacts ParserFile ParserText ParserLines PropsParser TextFacts UrlText UrlFacts JsonText JsonFacts WriterModel ConsolidateFacts RoundtripFacts RoundtripFile RoundtripParsed.
Local Open Scope Z_scope.
Local Open Scope res_scope.

(** The conditions are [writable], [simple], [boxable] of RoundtripFacts, the comparison of ballots is
    [same_votes]: same quantity, same candidates, same order of preference. *)

(** A sample: a bare token, a bracketed token, an equal ranking, a zero rating, ratings and none,
    a quantity out of order, a plain metadata entry. *)
Definition rt_sample : jabmod := Jabmod [(u "title", JStr (u "Board (2024)")); (k_ballotcount, JInt 10)]
  [(A, u "Ann"); (u "Cy D.", u "Cy D."); (u "B_2", u "Bob, the 2nd")]
  [ vl 3 [(u "B_2", Pref (Some 2) (Some (RStr (u "3"))) None); (A, Pref (Some 1) (Some (RInt 5)) None); (u "Cy D.", Pref (Some 2) (Some (RInt 3)) None)];
    vl 6 [(A, Pref (Some 4) None None); (u "Cy D.", Pref (Some 2) (Some (RInt 1)) None)];
    vl 1 [] ].

Ltac simple_tok := split; [discriminate|left; vm_compute; reflexivity].
Ltac boxed_tok := split; [discriminate|right; split; [split; [discriminate|split; vm_compute; reflexivity]|split; vm_compute; reflexivity]].
Lemma one_lineb (s : str) : forallb (fun c => negb (is_linebreak c)) s = true -> one_line s.
Proof. intros H c Hc. rewrite forallb_forall in H. apply negb_true_iff, H, Hc. Qed.
Lemma name_chars (n : str) : forallb (fun c => negb (is_linebreak c) && negb (N.eqb c 35) && negb (N.eqb c 93)) n = true ->
  forall c, In c n -> is_linebreak c = false /\ c <> 35%N /\ c <> 93%N.
Proof.
  intros H c Hc. rewrite forallb_forall in H. specialize (H c Hc). rewrite !andb_true_iff, !negb_true_iff, !N.eqb_neq in H. tauto.
Qed.
Example rt_sample_writable : writable rt_sample.
Proof.
  split; [discriminate|]. split; [|split; [nodup|split]].
  - intros v Hv. simpl in Hv. destruct Hv as [<-|[<-|[<-|[]]]].
    + split; [vm_compute; discriminate|]. split; [nodup|]. split.
      * intros c p [E|[E|[E|[]]]]; injection E as <- <-.
        -- split; [simple_tok|]. split; [discriminate|]. intros r Er. apply some_inj in Er. subst r. split; [discriminate|reflexivity].
        -- split; [simple_tok|]. split; [discriminate|]. intros r Er. apply some_inj in Er. subst r. cbn. lia.
        -- split; [boxed_tok|]. split; [discriminate|]. intros r Er. apply some_inj in Er. subst r. cbn. lia.
      * intros _ c c' p p' k k' H1 H2 E1 E2.
        destruct H1 as [H1|[H1|[H1|[]]]], H2 as [H2|[H2|[H2|[]]]]; injection H1 as <- <-; injection H2 as <- <-;
          apply some_inj in E1, E2; subst k k'; vm_compute; split; intro; congruence.
    + split; [vm_compute; discriminate|]. split; [nodup|]. split.
      * intros c p [E|[E|[]]]; injection E as <- <-.
        -- split; [simple_tok|]. split; [discriminate|]. intros r Er. discriminate.
        -- split; [boxed_tok|]. split; [discriminate|]. intros r Er. apply some_inj in Er. subst r. cbn. lia.
      * intro H. exfalso. exact (H A _ (or_introl eq_refl) eq_refl).
    + split; [vm_compute; discriminate|]. split; [nodup|]. split; [intros c p []|intros _ c c' p p' k k' []].
  - intros t n Hin. simpl in Hin. destruct Hin as [E|[E|[E|[]]]]; injection E as <- <-.
    + split; [left; vm_compute; reflexivity|]. apply name_chars; vm_compute; reflexivity.
    + split; [right; split; [split; [discriminate|split; vm_compute; reflexivity]|split; vm_compute; reflexivity]|]. apply name_chars; vm_compute; reflexivity.
    + split; [left; vm_compute; reflexivity|]. apply name_chars; vm_compute; reflexivity.
  - intros k j Hin. simpl in Hin. destruct Hin as [E|[E|[]]]; injection E as <- <-; apply one_lineb; vm_compute; reflexivity.
Qed.

(** ** C39 *)
Lemma Forall2_compose {X Y Z0} (P : X -> Y -> Prop) (Q : Y -> Z0 -> Prop) (R : X -> Z0 -> Prop) l1 l2 l3 :
  (forall x y z, P x y -> Q y z -> R x z) -> Forall2 P l1 l2 -> Forall2 Q l2 l3 -> Forall2 R l1 l3.
Proof.
  intros H F. revert l3. induction F as [|x y l1 l2 Hp F IH]; intros l3 G; inversion G; subst; constructor; eauto.
Qed.
Lemma Forall2_mono {X Y} (P Q : X -> Y -> Prop) l1 l2 : (forall x y, P x y -> Q x y) -> Forall2 P l1 l2 -> Forall2 Q l1 l2.
Proof. intros H F. induction F; constructor; auto. Qed.
Lemma Forall2_filter {X Y} (P : X -> Y -> Prop) f g l1 l2 : (forall x y, P x y -> f x = g y) -> Forall2 P l1 l2 -> Forall2 P (filter f l1) (filter g l2).
Proof. intros H F. induction F as [|x y l1 l2 Hp F IH]; [constructor|]. cbn [filter]. rewrite (H x y Hp). destruct (g y); [constructor; assumption|exact IH]. Qed.
Lemma Forall2_sum {X Y} (P : X -> Y -> Prop) f g l1 l2 : (forall x y, P x y -> f x = g y) -> Forall2 P l1 l2 -> zsum (map f l1) = zsum (map g l2).
Proof. intros H F. induction F as [|x y l1 l2 Hp F IH]; [reflexivity|]. cbn [map]. unfold zsum in *. cbn [fold_right]. rewrite (H x y Hp), IH. reflexivity. Qed.
Lemma Forall2_In {X Y} (P : X -> Y -> Prop) l1 l2 : Forall2 P l1 l2 ->
  (forall x, In x l1 -> exists y, In y l2 /\ P x y) /\ (forall y, In y l2 -> exists x, In x l1 /\ P x y).
Proof.
  intro F. induction F as [|x y l1 l2 Hp F [I1 I2]]; [split; intros ? []|]. split.
  - intros a [<-|Ha]; [exists y; split; [left; reflexivity|exact Hp]|]. destruct (I1 a Ha) as (b&Hb&Hab). exists b. split; [right; exact Hb|exact Hab].
  - intros a [<-|Ha]; [exists x; split; [left; reflexivity|exact Hp]|]. destruct (I2 a Ha) as (b&Hb&Hab). exists b. split; [right; exact Hb|exact Hab].
Qed.

Lemma same_ballot_lists v w : same_ballot v w -> forall c, lists w c = lists v c.
Proof.
  intros (_&_&_&_&Hk&_) c. unfold lists. destruct (dget c (v_prefs v)) as [p|] eqn:Ev.
  - assert (Hc : In c (dkeys (v_prefs w))) by (rewrite Hk; apply (in_map fst _ (c, p)), dget_In, Ev).
    apply dget_Some_In in Hc as [q ->]. reflexivity.
  - apply dget_None in Ev. rewrite (proj2 (dget_None c (v_prefs w))); [reflexivity|]. rewrite Hk. exact Ev.
Qed.
Lemma same_ballot_votes v w x : same_votes v w -> same_ballot w x -> same_votes v x.
Proof.
  intros (H1&H2&H3) B. pose proof (same_ballot_lists w x B) as L. destruct B as (B1&_&_&_&_&B2&_). split; [congruence|]. split.
  - intro c. rewrite L. apply H2.
  - intros a b. rewrite <- H3. unfold prefers. rewrite !B2. reflexivity.
Qed.

(** Writing succeeds and reading the text again succeeds, whatever the options cleanws and add_ratings.
    The votelines read are those written, sorted by decreasing quantity and in their old order within
    each quantity.  The candidates: those of the table whose token is simple keep their name; a candidate
    mentioned on a voteline only, or whose token needs brackets, gets its token as name; nobody else. *)
Theorem C39_abif_roundtrip : forall m cleanws add_ratings, writable m ->
  exists text m', convert_jabmod_to_abif m = Ok text /\ convert_abif_to_jabmod text cleanws add_ratings false = Ok m' /\
    StronglySorted (fun v w => v_qty w <= v_qty v) (j_votelines m') /\
    (forall q, Forall2 same_votes (filter (fun v => v_qty v =? q) (j_votelines m)) (filter (fun v => v_qty v =? q) (j_votelines m'))) /\
    (forall t n, simple t = true -> dget t (j_candidates m) = Some n -> dget t (j_candidates m') = Some n) /\
    (forall t, simple t = false \/ dget t (j_candidates m) = None ->
       (exists v, In v (j_votelines m) /\ lists v t = true) -> dget t (j_candidates m') = Some t) /\
    (forall t, simple t = false \/ dget t (j_candidates m) = None ->
       (forall v, In v (j_votelines m) -> lists v t = false) -> dget t (j_candidates m') = None).
Proof.
  intros m cw ar H. destruct (file_roundtrip m cw ar H) as (text&m'&ws&m0&E1&E2&F1&(ls&El&F2&_)&Ec&_).
  exists text, m'. split; [exact E1|]. split; [exact E2|]. rewrite El, Ec.
  split; [apply sort_desc_sorted|]. split; [|].
  - intro q. rewrite sort_desc_stable. apply Forall2_filter; [intros v w (Hq&_); rewrite Hq; reflexivity|].
    refine (Forall2_compose read_as same_ballot same_votes _ _ _ _ F1 F2). intros v w x (Hs&_) B. exact (same_ballot_votes v w x Hs B).
  - assert (Hmem : forall t, memb t (flat_map (fun w => dkeys (v_prefs w)) ws) = true <-> exists v, In v (j_votelines m) /\ lists v t = true).
    { intro t. rewrite memb_In, in_flat_map. destruct (Forall2_In _ _ _ F1) as [I1 I2]. split.
      - intros (w&Hw&Ht). destruct (I2 w Hw) as (v&Hv&(_&Hl&_)&_). exists v. split; [exact Hv|]. rewrite <- Hl. unfold lists.
        apply dget_Some_In in Ht as [p ->]. reflexivity.
      - intros (v&Hv&Ht). destruct (I1 v Hv) as (w&Hw&(_&Hl&_)&_). exists w. split; [exact Hw|]. rewrite <- Hl in Ht. unfold lists in Ht.
        destruct (dget t (v_prefs w)) as [p|] eqn:Ep; [|discriminate]. apply (in_map fst _ (t, p)), dget_In, Ep. }
    assert (Hf : forall t, dget t (filter (fun tn => simple (fst tn)) (j_candidates m)) = if simple t then dget t (j_candidates m) else None).
    { clear Ec. intro t. induction (j_candidates m) as [|[k n] r IH]; [cbn; destruct (simple t); reflexivity|]. cbn [filter fst dget]. destruct (simple k) eqn:Ek.
      - cbn [dget]. destruct (str_eqb_spec t k) as [->|]; [rewrite Ek; reflexivity|exact IH].
      - destruct (str_eqb_spec t k) as [->|]; [rewrite IH, Ek; reflexivity|exact IH]. }
    split; [|split].
    + intros t n Hs Ht. rewrite merge_new, Hf, Hs, Ht. reflexivity.
    + intros t Hs Ht. rewrite merge_new, Hf. rewrite (proj2 (Hmem t) Ht).
      destruct (simple t); [destruct Hs as [Hs|Hs]; [discriminate|rewrite Hs; reflexivity]|reflexivity].
    + intros t Hs Ht. rewrite merge_new, Hf.
      replace (memb t (flat_map (fun w => dkeys (v_prefs w)) ws)) with false.
      * destruct (simple t); [destruct Hs as [Hs|Hs]; [discriminate|rewrite Hs; reflexivity]|reflexivity].
      * destruct (memb t _) eqn:Em; [|reflexivity]. destruct (proj1 (Hmem t) Em) as (v&Hv&Hl). rewrite (Ht v Hv) in Hl. discriminate.
Qed.
Print Assumptions C39_abif_roundtrip.

(** Without add_ratings the effective ratings are the same as well (0 and no rating are the same). *)
Theorem C39_ratings : forall m cleanws text m', writable m ->
  convert_jabmod_to_abif m = Ok text -> convert_abif_to_jabmod text cleanws false false = Ok m' ->
  forall q, Forall2 (fun v w => forall c, rating_on w c = rating_on v c)
              (filter (fun v => v_qty v =? q) (j_votelines m)) (filter (fun v => v_qty v =? q) (j_votelines m')).
Proof.
  intros m cw text m' H T1 T2 q. destruct (file_roundtrip m cw false H) as (text'&m''&ws&m0&E1&E2&F1&(ls&El&_&Els)&_).
  rewrite T1 in E1. apply ok_inj in E1. subst text'. rewrite T2 in E2. apply ok_inj in E2. subst m''.
  rewrite El, Els by reflexivity. rewrite sort_desc_stable.
  eapply Forall2_mono; [|apply (Forall2_filter read_as); [intros v w ((Hq&_)&_); rewrite Hq; reflexivity|exact F1]].
  intros v w (_&Hr&_). exact Hr.
Qed.
Print Assumptions C39_ratings.

(** The candidate table is the same, entry by entry and in the same order, when all tokens are simple and
    the votelines mention nobody else. *)
Theorem C39_same_table : forall m cleanws add_ratings text m', writable m ->
  (forall c, In c (cands m) -> simple c = true) ->
  (forall v c, In v (j_votelines m) -> lists v c = true -> In c (cands m)) ->
  convert_jabmod_to_abif m = Ok text -> convert_abif_to_jabmod text cleanws add_ratings false = Ok m' ->
  j_candidates m' = j_candidates m.
Proof.
  intros m cw ar text m' H Hs Hc T1 T2. destruct (file_roundtrip m cw ar H) as (text'&m''&ws&m0&E1&E2&F1&_&Ec&_).
  rewrite T1 in E1. apply ok_inj in E1. subst text'. rewrite T2 in E2. apply ok_inj in E2. subst m''.
  rewrite Ec. replace (filter (fun tn => simple (fst tn)) (j_candidates m)) with (j_candidates m).
  - assert (G : forall ks (t : dict str), (forall k, In k ks -> In k (dkeys t)) -> merge_cands ks t = t).
    { induction ks as [|k ks IH]; intros t Hk; [reflexivity|].
      change (merge_cands (k :: ks) t) with (merge_cands ks (if dmem k t then t else dset k k t)).
      rewrite (proj2 (dmem_In k t)) by (apply Hk; left; reflexivity). apply IH. intros x Hx. apply Hk. right; exact Hx. }
    apply G. intros k Hk. apply in_flat_map in Hk as (w&Hw&Hk). destruct (Forall2_In _ _ _ F1) as [_ I2]. destruct (I2 w Hw) as (v&Hv&(_&Hl&_)&_).
    apply (Hc v k Hv). rewrite <- Hl. unfold lists. apply dget_Some_In in Hk as [p ->]. reflexivity.
  - symmetry. apply filter_all. intros [k n] Hin. cbn [fst]. apply Hs. apply (in_map fst _ (k, n)), Hin.
Qed.
Print Assumptions C39_same_table.

(** Every total of ballots is the same: for any set of ballots described by candidates and preferences. *)
Theorem C39_same_counts : forall m cleanws add_ratings text m', writable m ->
  convert_jabmod_to_abif m = Ok text -> convert_abif_to_jabmod text cleanws add_ratings false = Ok m' ->
  total_ballots m' = total_ballots m /\ (forall a b, votes_over m' a b = votes_over m a b) /\
  (forall c, ballots_where (fun v => lists v c) (j_votelines m') = ballots_where (fun v => lists v c) (j_votelines m)).
Proof.
  intros m cw ar text m' H T1 T2. destruct (file_roundtrip m cw ar H) as (text'&m''&ws&m0&E1&E2&F1&(ls&El&F2&_)&_).
  rewrite T1 in E1. apply ok_inj in E1. subst text'. rewrite T2 in E2. apply ok_inj in E2. subst m''.
  assert (F : Forall2 same_votes (j_votelines m) ls).
  { refine (Forall2_compose read_as same_ballot same_votes _ _ _ _ F1 F2). intros v w x (Hs&_) B. exact (same_ballot_votes v w x Hs B). }
  assert (P : Permutation (j_votelines m') ls) by (rewrite El; apply sort_desc_perm).
  split; [|split].
  - unfold total_ballots. rewrite (zsum_perm _ _ (Permutation_map v_qty P)). symmetry. refine (Forall2_sum _ _ _ _ _ _ F). intros v w (->&_). reflexivity.
  - intros a b. unfold votes_over. rewrite (ballots_where_perm _ _ _ P). symmetry. unfold ballots_where. refine (Forall2_sum _ _ _ _ _ _ F).
    intros v w (->&_&->). reflexivity.
  - intro c. rewrite (ballots_where_perm _ _ _ P). symmetry. unfold ballots_where. refine (Forall2_sum _ _ _ _ _ _ F).
    intros v w (->&->&_). reflexivity.
Qed.
Print Assumptions C39_same_counts.

(** What is read back can be tallied. *)
Lemma read_tallyable m cw ar text m' : writable m -> (forall v, In v (j_votelines m) -> Z.of_nat (length (v_prefs v)) < maxsize) ->
  convert_jabmod_to_abif m = Ok text -> convert_abif_to_jabmod text cw ar false = Ok m' -> NoDup (cands m') -> tallyable m'.
Proof.
  intros H Hs T1 T2 Hn. destruct (file_roundtrip m cw ar H) as (text'&m''&ws&m0&E1&E2&F1&(ls&El&F2&_)&_).
  rewrite T1 in E1. apply ok_inj in E1. subst text'. rewrite T2 in E2. apply ok_inj in E2. subst m''.
  split; [exact Hn|]. intros l Hl. rewrite El in Hl. apply (Permutation_in _ (sort_desc_perm _ _)) in Hl.
  destruct (proj2 (Forall2_In _ _ _ F2) l Hl) as (w&Hw&B). destruct (proj2 (Forall2_In _ _ _ F1) w Hw) as (v&Hv&R).
  destruct R as (_&_&HP&Hr&_). pose proof (same_ballot_lists w l B) as HL. destruct B as (_&_&_&_&Bk&Br&_). apply forallb_forall. intros [c p] Hcp. cbn [snd].
  assert (Hc : lists w c = true).
  { unfold lists. assert (Hin : In c (dkeys (v_prefs w))) by (rewrite <- Bk; apply (in_map fst _ (c, p)), Hcp). apply dget_Some_In in Hin as [q ->]. reflexivity. }
  destruct (Hr c Hc) as (r&Er&Hb). assert (Hnd : NoDup (dkeys (v_prefs l))).
  { rewrite Bk. eapply Permutation_NoDup; [apply Permutation_sym, HP|]. destruct H as (_&Hw'&_). apply (Hw' v Hv). }
  assert (E : p_rank p = Some r).
  { rewrite <- Er, <- Br. unfold rank_on. rewrite (dget_In_nodup c p _ Hnd Hcp). reflexivity. }
  rewrite E. apply Z.ltb_lt. specialize (Hs v Hv).
  assert (L : length (v_prefs w) = length (v_prefs v)).
  { rewrite <- (map_length fst (v_prefs w)), <- (map_length fst (v_prefs v)). apply Permutation_length, HP. }
  rewrite L in Hb. lia.
Qed.

(** The same pairwise matrix, and the same score totals. *)
Theorem C39_same_pairwise : forall m cleanws add_ratings text m', writable m -> tallyable m ->
  (forall c, In c (cands m) -> simple c = true) ->
  (forall v c, In v (j_votelines m) -> lists v c = true -> In c (cands m)) ->
  (forall v, In v (j_votelines m) -> Z.of_nat (length (v_prefs v)) < maxsize) ->
  convert_jabmod_to_abif m = Ok text -> convert_abif_to_jabmod text cleanws add_ratings false = Ok m' ->
  pairwise_count_dict m' = pairwise_count_dict m.
Proof.
  intros m cw ar text m' H Ht Hs Hc Hz T1 T2. pose proof (C39_same_table m cw ar text m' H Hs Hc T1 T2) as Ec.
  destruct (C39_same_counts m cw ar text m' H T1 T2) as (_&Hv&_). apply tally_ext; [|exact Ht|exact Ec|exact Hv].
  apply (read_tallyable m cw ar text); auto. unfold cands. rewrite Ec. apply Ht.
Qed.
Print Assumptions C39_same_pairwise.

Theorem C39_same_scores : forall m cleanws text m', writable m ->
  (forall c, In c (cands m) -> simple c = true) ->
  (forall v c, In v (j_votelines m) -> lists v c = true -> In c (cands m)) ->
  convert_jabmod_to_abif m = Ok text -> convert_abif_to_jabmod text cleanws false false = Ok m' ->
  exists res, basic_score_result m' = Ok res /\ basic_score_result m = Ok res.
Proof.
  intros m cw text m' H Hs Hc T1 T2. pose proof (C39_same_table m cw false text m' H Hs Hc T1 T2) as Ec.
  destruct (file_roundtrip m cw false H) as (text'&m''&ws&m0&E1&E2&F1&(ls&El&_&Els)&_).
  rewrite T1 in E1. apply ok_inj in E1. subst text'. rewrite T2 in E2. apply ok_inj in E2. subst m''.
  specialize (Els eq_refl). subst ls. pose proof H as (_&Hw&Hn&_).
  assert (Hm : scorable m).
  { split; [exact Hn|]. intros v Hv. destruct (Hw v Hv) as (_&Hd&Hp&_). split; [split; [exact Hd|]|].
    - intros c Hcin. apply (Hc v c Hv). unfold lists. apply dget_Some_In in Hcin as [p ->]. reflexivity.
    - apply forallb_forall. intros [c p] Hin. cbn [snd]. destruct (Hp c p Hin) as (_&_&Hr). destruct (p_rating p) as [r|] eqn:Er; [|reflexivity].
      unfold readable. rewrite (rated_int p r Er (Hr r eq_refl)). reflexivity. }
  assert (Hm' : scorable m').
  { split; [unfold cands; rewrite Ec; exact Hn|]. intros w Hin. rewrite El in Hin. apply (Permutation_in _ (sort_desc_perm _ _)) in Hin.
    destruct (proj2 (Forall2_In _ _ _ F1) w Hin) as (v&Hv&R). destruct (Hw v Hv) as (_&Hd&_). destruct R as ((_&Hl&_)&_&HP&_&_&_&Hr). split; [split|exact Hr].
    - eapply Permutation_NoDup; [apply Permutation_sym, HP|exact Hd].
    - intros c Hcin. unfold cands. rewrite Ec. apply (Hc v c Hv). rewrite <- Hl. unfold lists. apply dget_Some_In in Hcin as [p ->]. reflexivity. }
  assert (P : Permutation (j_votelines m') ws) by (rewrite El; apply sort_desc_perm).
  rewrite (basic_score_ok m Hm), (basic_score_ok m' Hm'). eexists. split; [reflexivity|]. f_equal. unfold cands. rewrite Ec. apply dmap_ext. intros c _. f_equal.
  - unfold cand_name. rewrite Ec. reflexivity.
  - unfold total_score. rewrite (zsum_perm _ _ (Permutation_map _ P)). refine (Forall2_sum _ _ _ _ _ _ F1).
    intros v w ((->&_)&->&_). reflexivity.
  - unfold supporters. rewrite (ballots_where_perm _ _ _ P). unfold ballots_where. refine (Forall2_sum _ _ _ _ _ _ F1).
    intros v w ((->&_)&->&_). reflexivity.
Qed.
Print Assumptions C39_same_scores.

(** Metadata entries of word characters and common punctuation are read back as written. *)
Theorem C39_metadata : forall m cleanws text m', writable m ->
  (forall k j, In (k, j) (j_metadata m) -> plain_entry (k, j)) -> NoDup (map fst (j_metadata m)) ->
  convert_jabmod_to_abif m = Ok text -> convert_abif_to_jabmod text cleanws false false = Ok m' ->
  forall k j, k <> k_ballotcount -> dget k (j_metadata m) = Some j -> dget k (j_metadata m') = Some j.
Proof.
  intros m cw text m' H Hp Hn T1 T2 k j Hk Hj. destruct (file_roundtrip m cw false H) as (text'&m''&ws&m0&E1&E2&_&_&_&Hmd&Em0).
  rewrite T1 in E1. apply ok_inj in E1. subst text'. rewrite T2 in E2. apply ok_inj in E2. subst m''.
  rewrite Hmd by (reflexivity || exact Hk). rewrite Em0.
  assert (Hk2 : k <> k_ballotcount_abif).
  { intros ->. pose proof (Hp _ _ (dget_In _ _ _ Hj)) as P. unfold plain_entry in P. cbn [fst] in P. destruct P as [(P&_)|(_&_&_&_&P&_)]; [discriminate P|congruence]. }
  rewrite plain_fold; [rewrite Hj; reflexivity| |exact Hn|exact Hk|exact Hk2]. intros [k1 j1] Hin. exact (Hp k1 j1 Hin).
Qed.
Print Assumptions C39_metadata.

Example C39_nonvacuous : exists text m', convert_jabmod_to_abif rt_sample = Ok text /\ convert_abif_to_jabmod text false false false = Ok m' /\
  text = unlines [u "#------- metadata -------"; u "{title: ""Board (2024)""}"; u "{ballotcount: 10}"; u "#------ candlines ------";
                  u "=A:[Ann]"; u "=[Cy D.]:[Cy D.]"; u "=B_2:[Bob, the 2nd]"; u "#------- votelines ------";
                  u "3:A/5>B_2/3=[Cy D.]/3"; u "6:[Cy D.]/1>A"; u "1:"] /\
  map v_qty (j_votelines m') = [6; 3; 1] /\ dget (u "title") (j_metadata m') = Some (JStr (u "Board (2024)")) /\
  j_candidates m' = [(A, u "Ann"); (u "B_2", u "Bob, the 2nd"); (u "Cy D.", u "Cy D.")].
Proof. eexists. eexists. split; [vm_compute; reflexivity|]. split; [vm_compute; reflexivity|]. repeat split; vm_compute; reflexivity. Qed.

(** ** C40 *)
(** Reading a text, writing the model and reading again, with default options. *)
Definition reread (text : str) (m m2 : jabmod) : Prop :=
  exists text2, convert_abif_to_jabmod text false false false = Ok m /\ convert_jabmod_to_abif m = Ok text2 /\
    convert_abif_to_jabmod text2 false false false = Ok m2.

(** A ballot whose candidates all have ratings stored has them agree with the ranks. *)
Definition ratings_agree (v : voteline) : Prop :=
  (forall c p, In (c, p) (v_prefs v) -> p_rating p <> None) ->
  forall c c' p p' k k', In (c, p) (v_prefs v) -> In (c', p') (v_prefs v) -> p_rank p = Some k -> p_rank p' = Some k' ->
    (k < k' <-> rating_on v c' < rating_on v c).

(** Whatever text was read: if its tokens can be written (nonempty; letters, digits and _ . - ~, or no white space
    at the ends, none of # [ ] > = comma or a double quote, no line boundary) and no fully rated ballot has ratings against its ranks,
    then writing the model and reading it again succeeds with the same ballots, the same number of voters
    for every candidate over every other; and when all tokens are simple the same candidate table and the same pairwise matrix. *)
Theorem C40_parsed_roundtrip : forall text cleanws storecomments m cleanws2, convert_abif_to_jabmod text cleanws false storecomments = Ok m ->
  (forall t, In t (cands m) -> writable_token t) -> (forall v, In v (j_votelines m) -> ratings_agree v) ->
  exists text2 m2, convert_jabmod_to_abif m = Ok text2 /\ convert_abif_to_jabmod text2 cleanws2 false false = Ok m2 /\
    Forall2 same_votes (j_votelines m) (j_votelines m2) /\
    Forall2 (fun v w => forall c, rating_on w c = rating_on v c) (j_votelines m) (j_votelines m2) /\
    total_ballots m2 = total_ballots m /\
    (forall a b, votes_over m2 a b = votes_over m a b) /\
    ((forall t, In t (cands m) -> simple t = true) -> j_candidates m2 = j_candidates m /\
       (Z.of_nat (length text) <= maxsize -> pairwise_count_dict m2 = pairwise_count_dict m)).
Proof.
  intros text cw sc m cw2 H Ht Hr. pose proof (parsed_writable text cw sc m H Ht Hr) as Hw.
  assert (Hinc : forall v c, In v (j_votelines m) -> lists v c = true -> In c (cands m)).
  { intros v c Hv Hl. destruct (convert_shape _ _ _ _ _ H) as (m0&E0&_&m1&E1&->). apply ok_inj in E1. subst m1.
    destruct (convert_state _ _ _ _ E0) as ((_&_&_&L)&_). cbn [j_votelines] in Hv. apply (Permutation_in _ (sort_desc_perm _ _)) in Hv.
    destruct (L v Hv) as (_&_&Hi&_). apply Hi. unfold lists in Hl. destruct (dget c (v_prefs v)) as [p|] eqn:Ep; [|discriminate].
    exact (in_map fst _ _ (dget_In _ _ _ Ep)). }
  assert (Hsort : StronglySorted (fun x y => v_qty y <= v_qty x) (j_votelines m)).
  { destruct (convert_shape _ _ _ _ _ H) as (m0&_&_&m1&_&->). apply sort_desc_sorted. }
  destruct (file_roundtrip m cw2 false Hw) as (text2&m2&ws&m0&E1&E2&F1&(ls&El&_&Els)&_).
  specialize (Els eq_refl). subst ls. exists text2, m2. split; [exact E1|]. split; [exact E2|].
  assert (Es : j_votelines m2 = ws).
  { rewrite El. unfold sort_desc. apply sort_by_id. clear -F1 Hsort. revert Hsort.
    induction F1 as [|v w l1 l2 ((Hq&_)&_) F IH]; intro S; [constructor|]. inversion S as [|? ? S' F']; subst. constructor; [exact (IH S')|].
    rewrite Forall_forall in F' |- *. intros y Hy. destruct (proj2 (Forall2_In _ _ _ F) y Hy) as (x&Hx&((Hqx&_)&_)). specialize (F' x Hx).
    apply Z.leb_le. lia. }
  rewrite Es. destruct (C39_same_counts m cw2 false text2 m2 Hw E1 E2) as (C1&C2&_).
  split; [refine (Forall2_mono _ _ _ _ _ F1); intros v w (Hs&_); exact Hs|].
  split; [refine (Forall2_mono _ _ _ _ _ F1); intros v w (_&Hs&_); exact Hs|].
  split; [exact C1|]. split; [exact C2|]. intro Hs. split; [exact (C39_same_table m cw2 false text2 m2 Hw Hs Hinc E1 E2)|].
  intro Hlen. apply (C39_same_pairwise m cw2 false text2); auto.
  - exact (proj1 (C36_parsed_is_tallyable _ _ _ _ _ H Hlen)).
  - intros v Hv. destruct (parsed_line _ _ _ _ _ _ H Hv) as [_ (line&v1&ks&Hline&Ev&Hs1&_)].
    unfold vote_of in Ev. destruct (vote_parts (before_hash (norm cw line))) as [[ds rest]|] eqn:Evp; [|discriminate]. apply some_inj in Ev.
    apply bind_ok in Ev as [q [_ Ev]]. apply bind_ok in Ev as [[ps keys] [Ep Ev]]. apply ok_inj in Ev. injection Ev as <- <-. cbn [fst snd] in *.
    destruct Hs1 as (_&_&_&_&S5&_). cbn [v_prefs] in S5.
    destruct (parse_prefstr_good _ _ _ Ep) as [(G1&_) G3]. pose proof (mentions_le _ _ _ Ep) as Hm.
    assert (Hl1 : (length (dkeys ps) <= length keys)%nat) by (apply NoDup_incl_length; [exact G1|intros c Hc; apply G3; exact Hc]).
    rewrite <- S5 in Hl1. unfold dkeys in Hl1. rewrite map_length in Hl1.
    apply vote_parts_spec in Evp as [Evp [Hne _]].
    assert (Hb := before_hash_len (norm cw line)). rewrite Evp, app_length in Hb. cbn [length] in Hb.
    assert (Hnl : (length (norm cw line) <= length line)%nat) by (destruct cw; cbn; [apply lstrip_len|lia]).
    assert (Hsl : (length line <= length text)%nat) by (apply (splitlines_len text [] false); exact Hline).
    assert (Hd : (1 <= length ds)%nat) by (destruct ds; [congruence|cbn; lia]).
    pose proof (count_delims_len rest). lia.
Qed.
Print Assumptions C40_parsed_roundtrip.

(** Such a text: bracketed, rated and equal-ranked candidates, names, comments, a candidate nobody ranks. *)
Example C40_nonvacuous : exists text m, convert_abif_to_jabmod text false false false = Ok m /\ (forall t, In t (cands m) -> writable_token t) /\
  (forall v, In v (j_votelines m) -> ratings_agree v) /\ length (j_votelines m) = 3%nat /\ cands m = [A; u "Cy D."; B; D].
Proof.
  exists (unlines [u "=A:[Ann A]  # first"; u "3:A/5>[Cy D.]/2=B/2"; u "10:B,D"; u "2:[Cy D.]/7>A"]). eexists. split; [vm_compute; reflexivity|].
  split; [|split; [|split; vm_compute; reflexivity]].
  - intros t Hin. cbn in Hin. destruct Hin as [<-|[<-|[<-|[<-|[]]]]]; [simple_tok|boxed_tok|simple_tok|simple_tok].
  - intros v Hin. cbn in Hin. destruct Hin as [<-|[<-|[<-|[]]]].
    + intro H. exfalso. exact (H B _ (or_introl eq_refl) eq_refl).
    + intros _ c c' p p' k k' H1 H2 E1 E2. cbn in H1, H2.
      destruct H1 as [H1|[H1|[H1|[]]]], H2 as [H2|[H2|[H2|[]]]]; injection H1 as <- <-; injection H2 as <- <-;
          apply some_inj in E1, E2; subst k k'; vm_compute; split; intro; congruence.
    + intro H. exfalso. exact (H A _ (or_intror (or_introl eq_refl)) eq_refl).
Qed.
(** Ratings against the ranking turn the ballot round. *)
Theorem C40_order_refuted : exists text m m2 a b, reread text m m2 /\ votes_over m a b = 1 /\ votes_over m2 a b = 0 /\ votes_over m2 b a = 1.
Proof.
  exists (u "1:A/1>B/5"). eexists. eexists. exists A, B. split; [unfold reread; eexists; split; [vm_compute; reflexivity|]; split; [vm_compute; reflexivity|vm_compute; reflexivity]|].
  repeat split; vm_compute; reflexivity.
Qed.
Print Assumptions C40_order_refuted.
(** The name of a candidate whose token needs brackets is lost, with a candidate nobody voted for the
    candidate is lost. *)
Theorem C40_name_refuted : exists text m m2 t, reread text m m2 /\ dget t (j_candidates m) = Some (u "Susan") /\ dget t (j_candidates m2) = Some t.
Proof.
  exists (u "=S" ++ [233%N] ++ u ":[Susan]" ++ [10%N] ++ u "1:[S" ++ [233%N] ++ u "]>B"). eexists. eexists. exists (u "S" ++ [233%N]).
  split; [unfold reread; eexists; split; [vm_compute; reflexivity|]; split; [vm_compute; reflexivity|vm_compute; reflexivity]|]. split; vm_compute; reflexivity.
Qed.
Print Assumptions C40_name_refuted.
Theorem C40_candidate_lost_refuted : exists text m m2 t, reread text m m2 /\ In t (cands m) /\ ~ In t (cands m2).
Proof.
  exists (u "=S" ++ [233%N] ++ u ":[Susan]" ++ [10%N] ++ u "1:A>B"). eexists. eexists. exists (u "S" ++ [233%N]).
  split; [unfold reread; eexists; split; [vm_compute; reflexivity|]; split; [vm_compute; reflexivity|vm_compute; reflexivity]|]. split; [left; vm_compute; reflexivity|].
  vm_compute. intuition discriminate.
Qed.
Print Assumptions C40_candidate_lost_refuted.
(** A token containing a comma and a space (as other readers make them) changes. *)
Theorem C40_comma_refuted : exists m text m2 t, convert_jabmod_to_abif m = Ok text /\ convert_abif_to_jabmod text false false false = Ok m2 /\
  In t (cands m) /\ votes_over m t B = 1 /\ ~ In t (cands m2).
Proof.
  exists (Jabmod [] [(u "Bois, W", u "Bois, W"); (B, B)] [vl 1 [(u "Bois, W", ranked 1); (B, ranked 2)]]). eexists. eexists. exists (u "Bois, W").
  split; [vm_compute; reflexivity|]. split; [vm_compute; reflexivity|]. split; [left; reflexivity|]. split; [reflexivity|]. vm_compute. intuition discriminate.
Qed.
Print Assumptions C40_comma_refuted.

(** ** C41 *)
Lemma sort_by_rank_ok prefs : (forall c p, In (c, p) prefs -> p_rank p <> None) ->
  sort_by_rank prefs = Ok (sort_asc rank_key prefs).
Proof.
  intro H. unfold sort_by_rank.
  assert (E : mapM (fun kv => let* r := of_option KeyError (p_rank (snd kv)) in Ok (r, kv)) prefs = Ok (map (fun kv => (rank_key kv, kv)) prefs)).
  { induction prefs as [|[c p] l IH]; [reflexivity|]. cbn [mapM map]. unfold rank_key at 1. cbn [snd]. destruct (p_rank p) as [r|] eqn:Er.
    - cbn [of_option bind]. rewrite IH by (intros; eapply H; right; eauto). reflexivity.
    - exfalso. exact (H c p (or_introl eq_refl) Er). }
  rewrite E. cbn [bind]. f_equal. unfold sort_asc.
  rewrite <- (sort_by_map (fun kv : str * pref => (rank_key kv, kv)) (fun x y => rank_key x <=? rank_key y)) by reflexivity.
  rewrite map_map, map_id. reflexivity.
Qed.

Definition rank_of (v : voteline) (c : str) : Z := match rank_on v c with Some r => r | None => 0 end.

(** With ranks (the first candidate stored has a rank other than 0): all candidates once, best rank first,
    equal ranks in the stored order. *)
Theorem C41_by_rank : forall v c0 p0 rest, v_prefs v = (c0, p0) :: rest -> NoDup (map fst (v_prefs v)) ->
  (forall c p, In (c, p) (v_prefs v) -> p_rank p <> None) -> p_rank p0 <> Some 0 ->
  exists l, ranklist v = Ok l /\ Permutation l (map fst (v_prefs v)) /\
    StronglySorted (fun a b => rank_of v a <= rank_of v b) l /\
    forall z, filter (fun c => rank_of v c =? z) l = filter (fun c => rank_of v c =? z) (map fst (v_prefs v)).
Proof.
  intros v c0 p0 rest Ev Hn Hr H0.
  assert (E : ranklist v = Ok (map fst (sort_asc rank_key (v_prefs v)))).
  { unfold ranklist. rewrite Ev at 1. assert (Hp : p_rank p0 <> None) by (apply (Hr c0); rewrite Ev; left; reflexivity).
    destruct (p_rank p0) as [r|] eqn:Er; [|congruence]. replace (r =? 0) with false by (symmetry; apply Z.eqb_neq; congruence). cbn [negb].
    rewrite sort_by_rank_ok by exact Hr. reflexivity. }
  exists (map fst (sort_asc rank_key (v_prefs v))). split; [exact E|]. clear E Ev.
  assert (K : forall kv, In kv (v_prefs v) -> rank_of v (fst kv) = rank_key kv).
  { intros [c p] Hin. unfold rank_of, rank_on, rank_key. cbn [fst snd]. rewrite (dget_In_nodup c p _ Hn Hin). reflexivity. }
  split; [apply Permutation_map, sort_by_perm|]. split.
  - apply (SS_map fst (fun a b => rank_of v a <= rank_of v b)). eapply SS_weaken; [|apply sort_asc_sorted].
    intros x y Hx Hy Hxy. apply sort_by_In in Hx, Hy. rewrite !K by assumption. exact Hxy.
  - intro z.
    assert (G : forall l, (forall x, In x l -> In x (v_prefs v)) -> filter (fun c => rank_of v c =? z) (map fst l) = map fst (filter (fun kv => rank_key kv =? z) l)).
    { induction l as [|x l IH]; intro Hl; [reflexivity|]. cbn [map filter]. rewrite K by (apply Hl; left; reflexivity).
      rewrite IH by (intros; apply Hl; right; assumption). destruct (rank_key x =? z); reflexivity. }
    rewrite G by (intros x Hx; exact (proj1 (sort_by_In _ x _) Hx)). rewrite sort_asc_stable, G by auto. reflexivity.
Qed.
Print Assumptions C41_by_rank.

Lemma all_int_ok prefs : (forall c p, In (c, p) prefs -> exists z, p_rating p = Some (RInt z)) ->
  all_int_ratings prefs = Some (map (fun kv => (match p_rating (snd kv) with Some (RInt z) => z | _ => 0 end, fst kv)) prefs).
Proof.
  induction prefs as [|[c p] l IH]; intro H; [reflexivity|]. cbn [all_int_ratings fold_right map fst snd].
  destruct (H c p (or_introl eq_refl)) as [z ->]. change (fold_right _ (Some []) l) with (all_int_ratings l). rewrite IH by (intros; eapply H; right; eauto). reflexivity.
Qed.

(** Without ranks, with integer ratings: highest rating first, equal ratings in the stored order. *)
Theorem C41_by_rating : forall v c0 p0 rest, v_prefs v = (c0, p0) :: rest -> NoDup (map fst (v_prefs v)) ->
  (forall c p, In (c, p) (v_prefs v) -> exists z, p_rating p = Some (RInt z)) ->
  (p_rank p0 = None \/ p_rank p0 = Some 0) -> p_rating p0 <> Some (RInt 0) ->
  exists l, ranklist v = Ok l /\ Permutation l (map fst (v_prefs v)) /\
    StronglySorted (fun a b => rating_on v b <= rating_on v a) l /\
    forall z, filter (fun c => rating_on v c =? z) l = filter (fun c => rating_on v c =? z) (map fst (v_prefs v)).
Proof.
  intros v c0 p0 rest Ev Hn Hr Hk H0.
  assert (E : ranklist v = Ok (map snd (sort_desc fst (map (fun kv => (match p_rating (snd kv) with Some (RInt z) => z | _ => 0 end, fst kv)) (v_prefs v))))).
  { unfold ranklist. rewrite Ev at 1. destruct (Hr c0 p0) as [z0 E0]; [rewrite Ev; left; reflexivity|]. rewrite E0 in *.
    replace (match p_rank p0 with Some r => negb (r =? 0) | None => false end) with false by (destruct Hk as [-> | ->]; reflexivity).
    cbn [rating_truthy]. replace (negb (z0 =? 0)) with true by (symmetry; apply negb_true_iff, Z.eqb_neq; congruence).
    replace (existsb _ (v_prefs v)) with false.
    - rewrite (all_int_ok _ Hr). reflexivity.
    - symmetry. apply existsb_false. intros [c p] Hin. cbn [snd]. destruct (Hr c p Hin) as [z ->]. reflexivity. }
  rewrite E. clear E. set (f := fun kv : str * pref => (match p_rating (snd kv) with Some (RInt z) => z | _ => 0 end, fst kv)).
  exists (map snd (sort_desc fst (map f (v_prefs v)))). split; [reflexivity|].
  assert (K : forall zc, In zc (map f (v_prefs v)) -> rating_on v (snd zc) = fst zc).
  { intros zc Hin. apply in_map_iff in Hin as ([c p]&<-&Hin). unfold rating_on, f. cbn [fst snd]. rewrite (dget_In_nodup c p _ Hn Hin).
    destruct (Hr c p Hin) as [z ->]. reflexivity. }
  assert (Em : map snd (map f (v_prefs v)) = map fst (v_prefs v)) by (rewrite map_map; reflexivity).
  split; [rewrite <- Em; apply Permutation_map, sort_desc_perm|]. split.
  - apply (SS_map snd (fun a b => rating_on v b <= rating_on v a)). eapply SS_weaken; [|apply sort_desc_sorted].
    intros x y Hx Hy Hxy. apply sort_by_In in Hx, Hy. rewrite !K by assumption. exact Hxy.
  - intro z.
    assert (G : forall l, (forall x, In x l -> In x (map f (v_prefs v))) -> filter (fun c => rating_on v c =? z) (map snd l) = map snd (filter (fun kv => fst kv =? z) l)).
    { induction l as [|x l IH]; intro Hl; [reflexivity|]. cbn [map filter]. rewrite K by (apply Hl; left; reflexivity).
      rewrite IH by (intros; apply Hl; right; assumption). destruct (fst x =? z); reflexivity. }
    rewrite G by (intros x Hx; exact (proj1 (sort_by_In _ x _) Hx)). rewrite sort_desc_stable, <- G by auto. rewrite Em. reflexivity.
Qed.
Print Assumptions C41_by_rating.

(** Otherwise the stored order; an empty line is an IndexError. *)
Theorem C41_stored_order : forall v c0 p0 rest, v_prefs v = (c0, p0) :: rest ->
  (p_rank p0 = None \/ p_rank p0 = Some 0) -> (forall r, p_rating p0 = Some r -> r = RInt 0 \/ r = RStr []) ->
  ranklist v = Ok (map fst (v_prefs v)).
Proof.
  intros v c0 p0 rest Ev Hk Hr. unfold ranklist. rewrite Ev.
  replace (match p_rank p0 with Some r => negb (r =? 0) | None => false end) with false by (destruct Hk as [-> | ->]; reflexivity).
  destruct (p_rating p0) as [r|]; [|reflexivity]. destruct (Hr r eq_refl) as [-> | ->]; reflexivity.
Qed.
Print Assumptions C41_stored_order.
Theorem C41_empty : forall v, v_prefs v = [] -> ranklist v = Err IndexError.
Proof. intros v E. unfold ranklist. rewrite E. reflexivity. Qed.
Print Assumptions C41_empty.

(** String ratings (as the parser of widget JSON or a jabmod file may hold) are sorted as text: 9 before 10. *)
Theorem C41_string_ratings_refuted : exists v l, ranklist v = Ok l /\ rating_on v A = 10 /\ rating_on v B = 9 /\ l = [B; A].
Proof.
  exists (vl 1 [(A, Pref None (Some (RStr (u "10"))) None); (B, Pref None (Some (RStr (u "9"))) None)]). eexists.
  split; [vm_compute; reflexivity|]. repeat split; vm_compute; reflexivity.
Qed.
Print Assumptions C41_string_ratings_refuted.
Theorem C41_mixed_ratings : forall c1 c2 z s q, z <> 0 ->
  ranklist (vl q [(c1, Pref None (Some (RInt z)) None); (c2, Pref None (Some (RStr s)) None)]) = Err TypeError.
Proof. intros c1 c2 z s q H. unfold ranklist. cbn [v_prefs vl p_rank p_rating rating_truthy]. rewrite (proj2 (Z.eqb_neq z 0) H). reflexivity. Qed.
Print Assumptions C41_mixed_ratings.

Example C41_nonvacuous : ranklist (vl 1 [(C, ranked 2); (A, ranked 1); (D, ranked 2); (B, ranked 3)]) = Ok [A; C; D; B] /\
  ranklist (vl 1 [(C, Pref None (Some (RInt 3)) None); (A, Pref None (Some (RInt 9)) None); (D, Pref None (Some (RInt 0)) None)]) = Ok [A; C; D].
Proof. split; vm_compute; reflexivity. Qed.
