(** * PropsStable: C82 (writing ABIF settles: what was written and read once is read back as it is) *)

From Coq Require Import Lia Permutation Sorted.
From Verif Require Import PyBase PyFacts Jabmod Regex RegexFacts WordTable ScoreModel ScoreFacts Spec ParserModel ParserSpec ParserFacts ParserPrefs ParserRender.
From Verif Require Import PairwiseModel PairwiseFacts PropsPairwise IrvModel IrvFacts ParserFile ParserText ParserLines PropsParser TextFacts UrlText UrlFacts JsonText JsonFacts WriterModel ConsolidateFacts RoundtripFacts RoundtripFile RoundtripParsed PropsRoundtrip RoundtripExact.
Local Open Scope Z_scope.

(** ** C82 *)
(** Every rating is stored as a number; a rating behind a quoted name is stored as text. *)
Definition numeric_ratings (m : jabmod) : Prop := forall v c p s, In v (j_votelines m) -> In (c, p) (v_prefs v) -> p_rating p <> Some (RStr s).
(** Every metadata entry besides the ballot count: a key of word characters and spaces, a nonempty text of ASCII letters, digits, spaces
    and the signs , . ( ) - ? : ' _ and slash. *)
Definition tidy_metadata (m : jabmod) : Prop := forall k j, In (k, j) (j_metadata m) -> tidy_entry (k, j).

Lemma dict_eq {V} (d d' : dict V) : NoDup (dkeys d) -> dkeys d = dkeys d' -> (forall k, In k (dkeys d) -> dget k d = dget k d') -> d = d'.
Proof.
  revert d'. induction d as [|[k v] d IH]; intros [|[k' v'] d'] Hn E H; try discriminate; [reflexivity|]. cbn [dkeys map fst] in *. injection E as <- E.
  inversion Hn as [|? ? Hni Hn']; subst. pose proof (H k (or_introl eq_refl)) as H1. cbn [dget] in H1. rewrite str_eqb_refl in H1. apply some_inj in H1. subst v'. f_equal.
  apply IH; [exact Hn'|exact E|]. intros y Hy. pose proof (H y (or_intror Hy)) as H2. cbn [dget] in H2. destruct (str_eqb_spec y k) as [->|_]; [exfalso; exact (Hni Hy)|exact H2].
Qed.
Lemma reread_metadata m cw text m' : writable m -> tidy_metadata m -> convert_jabmod_to_abif m = Ok text -> convert_abif_to_jabmod text cw false false = Ok m' ->
  forall r, after_pass (j_metadata m) = (k_ballotcount, JInt 0) :: r -> j_metadata m' = (k_ballotcount, JInt (total_ballots m')) :: r.
Proof.
  intros H Ht T1 T2 r Er. pose proof (reread_keys m cw text m' H T1 T2) as Ek. pose proof (C28_ballotcount _ _ _ _ _ T2) as Eb.
  assert (Hn : NoDup (dkeys (j_metadata m'))) by (destruct (convert_votes _ _ _ _ _ T2) as (m0&vs&ls&_&_&_&_&_&_&_&_&Hn&_); exact Hn).
  assert (Hta : forall kj, In kj (j_metadata m) -> tidy_entry kj) by (intros [k j] Hin; exact (Ht k j Hin)).
  destruct (file_roundtrip m cw false H) as (text'&m''&ws&m0&E1&E2&_&_&_&Hmd&Em0).
  rewrite T1 in E1. apply ok_inj in E1. subst text'. rewrite T2 in E2. apply ok_inj in E2. subst m''.
  assert (E0 : j_metadata m0 = (k_ballotcount, JInt 0) :: r) by (rewrite Em0, (tidy_fold cw _ Hta); exact Er). rewrite <- Em0, E0 in Ek.
  apply dict_eq; [exact Hn|exact Ek|]. intros k _. cbn [dget]. destruct (str_eqb_spec k k_ballotcount) as [->|Nk]; [exact Eb|].
  rewrite (Hmd eq_refl k Nk), E0. cbn [dget]. destruct (str_eqb_spec k k_ballotcount); [congruence|reflexivity].
Qed.
(** The votelines of what was read, each from a line of the text. *)
Lemma parsed_vote text cw sc m l : convert_abif_to_jabmod text cw false sc = Ok m -> In l (j_votelines m) ->
  exists line ks, In line (splitlines text) /\ vote_of (norm cw line) = Some (Ok (l, ks)).
Proof.
  intros H Hin. destruct (convert_votes _ _ _ _ _ H) as (m0&vs&ls&_&_&_&Ev&El&_&Els&_). rewrite El in Hin. apply (Permutation_in _ (sort_desc_perm _ _)) in Hin.
  rewrite (Els eq_refl) in Hin. apply in_map_iff in Hin as ([l' ks]&Eq&Hin). cbn [fst] in Eq. subst l'. clear -Ev Hin. revert vs Ev Hin.
  induction (splitlines text) as [|x xs IH]; intros vs Ev Hin; cbn [map votes_of] in Ev; [destruct vs; [destruct Hin|discriminate]|].
  destruct (vote_of (norm cw x)) as [r|] eqn:Er.
  - destruct vs as [|y vs]; [discriminate|]. injection Ev as Ey Ev. destruct Hin as [->|Hin].
    + exists x, ks. split; [left; reflexivity|]. rewrite Er, Ey. reflexivity.
    + destruct (IH vs Ev Hin) as (line&ks'&Hl&Hv). exists line, ks'. split; [right; exact Hl|exact Hv].
  - destruct (IH vs Ev Hin) as (line&ks'&Hl&Hv). exists line, ks'. split; [right; exact Hl|exact Hv].
Qed.
Lemma parsed_ratings text cw sc m : convert_abif_to_jabmod text cw false sc = Ok m -> numeric_ratings m ->
  forall v, In v (j_votelines m) -> forall c p, In (c, p) (v_prefs v) -> int_rated p.
Proof.
  intros H Hr v Hv c p Hin. destruct (parsed_vote _ _ _ _ _ H Hv) as (line&ks&_&E). unfold vote_of in E.
  destruct (vote_parts _) as [[ds rest]|]; [|discriminate]. apply some_inj in E. apply bind_ok in E as (q&_&E). apply bind_ok in E as ([prefs keys]&Ep&E).
  cbn [fst snd] in E. apply ok_inj in E. injection E as <- _. cbn [v_prefs] in Hin. destruct (parse_prefstr_good _ _ _ Ep) as ((_&Hg)&_).
  destruct (Hg c p Hin) as (_&Hf). unfold int_rated. destruct (p_rating p) as [[z|s]|] eqn:Er; [|exact (Hr _ c p s Hv Hin Er)|exact I].
  destruct (Hf _ eq_refl) as (Hz&Hz'). cbn in Hz, Hz'. destruct (Z.eqb_spec z 0) as [->|]; [discriminate|lia].
Qed.
Lemma norm_vote cw v : writable_line v -> norm cw (vote_l v) = vote_l v.
Proof.
  intro Hv. destruct (line_roundtrip v Hv) as (t&_&Et&_). destruct Hv as (Hq&_). destruct (z2s_numeral (v_qty v) Hq) as [Hne Hd].
  unfold vote_l. rewrite Et. destruct (z2s (v_qty v)) as [|c r]; [congruence|]. apply norm_first. cbn [forallb] in Hd. apply andb_prop in Hd as [Hc _]. apply digit_not_space, Hc.
Qed.
Lemma filter_twice {A} (f : A -> bool) l : filter f (filter f l) = filter f l.
Proof. induction l as [|x l IH]; [reflexivity|]. cbn [filter]. destruct (f x) eqn:E; cbn [filter]; rewrite ?E, IH; reflexivity. Qed.
Lemma file_cands m cw text m' : writable m -> StronglySorted (fun x y => v_qty y <= v_qty x) (j_votelines m) ->
  convert_jabmod_to_abif m = Ok text -> convert_abif_to_jabmod text cw false false = Ok m' ->
  j_candidates m' = merge_cands (flat_map (fun w => dkeys (v_prefs w)) (j_votelines m')) (filter (fun tn => simple (fst tn)) (j_candidates m)).
Proof.
  intros H Hsort T1 T2. destruct (file_roundtrip m cw false H) as (text'&m''&ws&m0&E1&E2&F1&(ls&El&_&Els)&Ec&_).
  rewrite T1 in E1. apply ok_inj in E1. subst text'. rewrite T2 in E2. apply ok_inj in E2. subst m''. rewrite Ec. do 2 f_equal. symmetry. rewrite El, (Els eq_refl).
  unfold sort_desc. apply sort_by_id. clear -F1 Hsort. revert Hsort.
  induction F1 as [|v w l1 l2 ((Hq&_)&_) F IH]; intro S1; [constructor|]. inversion S1 as [|? ? S' F']; subst. constructor; [exact (IH S')|].
  rewrite Forall_forall in F' |- *. intros y Hy. destruct (proj2 (Forall2_In _ _ _ F) y Hy) as (x&Hx&((Hqx&_)&_)). specialize (F' x Hx). apply Z.leb_le. lia.
Qed.

(** What settles without a condition on the metadata. *)
Lemma settle_ballots m cw t1 m2 : writable m -> StronglySorted (fun x y => v_qty y <= v_qty x) (j_votelines m) -> (forall t, In t (cands m) -> writable_token t) ->
  (forall v c, In v (j_votelines m) -> In c (dkeys (v_prefs v)) -> In c (cands m)) ->
  (forall v, In v (j_votelines m) -> forall c p, In (c, p) (v_prefs v) -> int_rated p) ->
  convert_jabmod_to_abif m = Ok t1 -> convert_abif_to_jabmod t1 cw false false = Ok m2 ->
  writable m2 /\ exists t2, convert_jabmod_to_abif m2 = Ok t2 /\ forall cw3, exists m3, convert_abif_to_jabmod t2 cw3 false false = Ok m3 /\
    j_votelines m3 = j_votelines m2 /\ j_candidates m3 = j_candidates m2.
Proof.
  intros H Hsort Htok Hlist Hint T1 T2. destruct (reread_writable m cw t1 m2 H Hsort Htok T1 T2) as (H2&Htok2&_&Hint2).
  pose proof (parsed_sorted _ _ _ _ _ T2) as Hsort2. pose proof (file_exact m cw t1 m2 H Hsort T1 T2) as F1. pose proof (file_cands m cw t1 m2 H Hsort T1 T2) as C1.
  split; [exact H2|]. pose proof (written_text m2 H2) as T3. exists (unlines (file_lines m2)). split; [exact T3|]. intro cw3.
  destruct (file_roundtrip m2 cw3 false H2) as (text'&m3&_&_&E1&E2&_). rewrite T3 in E1. apply ok_inj in E1. subst text'. exists m3. split; [exact E2|].
  pose proof (file_exact m2 cw3 _ m3 H2 Hsort2 T3 E2) as F2. pose proof (file_cands m2 cw3 _ m3 H2 Hsort2 T3 E2) as C2.
  assert (V : j_votelines m3 = j_votelines m2).
  { destruct H as (_&HL&_). destruct H2 as (_&HL2&_). clear -F1 F2 HL HL2 Hint. revert F2. generalize (j_votelines m3). intro l3. revert l3.
    induction F1 as [|v w l1 l2 (R&E) F IH]; intros l3 F2; inversion F2 as [|? w3 ? l3' (R3&E3) F2']; subst; [reflexivity|]. f_equal.
    - destruct (vote_exact cw v w _ (HL v (or_introl eq_refl)) E) as (_&Eq). specialize (Eq (Hint v (or_introl eq_refl))).
      rewrite (norm_vote cw3 w (HL2 w (or_introl eq_refl))), Eq in E3. rewrite (norm_vote cw v (HL v (or_introl eq_refl))), E3 in E. apply some_inj, ok_inj in E. injection E as <-. reflexivity.
    - apply IH; [intros x Hx; apply HL; right; exact Hx|intros x Hx; apply Hint; right; exact Hx|intros x Hx; apply HL2; right; exact Hx|exact F2']. }
  split; [exact V|]. rewrite C2, V, C1. f_equal. rewrite merge_simple.
  - apply filter_twice.
  - intros k Hk Hs. apply in_flat_map in Hk as (w&Hw&Hk). destruct (proj2 (Forall2_In _ _ _ F1) w Hw) as (v&Hv&(_&_&HP&_)&_). apply (Permutation_in _ HP) in Hk.
    pose proof (Hlist v k Hv Hk) as Hi. unfold cands in Hi. apply in_map_iff in Hi as ([t n]&Et&Hi). cbn [fst] in Et. subst t.
    apply (in_map fst _ (k, n)). apply filter_In. split; [exact Hi|exact Hs].
Qed.
Lemma settle m cw t1 m2 : writable m -> StronglySorted (fun x y => v_qty y <= v_qty x) (j_votelines m) -> (forall t, In t (cands m) -> writable_token t) ->
  (forall v c, In v (j_votelines m) -> In c (dkeys (v_prefs v)) -> In c (cands m)) ->
  (forall v, In v (j_votelines m) -> forall c p, In (c, p) (v_prefs v) -> int_rated p) -> tidy (j_metadata m) -> counted (j_metadata m) ->
  convert_jabmod_to_abif m = Ok t1 -> convert_abif_to_jabmod t1 cw false false = Ok m2 ->
  exists t2, convert_jabmod_to_abif m2 = Ok t2 /\ forall cw3, convert_abif_to_jabmod t2 cw3 false false = Ok m2.
Proof.
  intros H Hsort Htok Hlist Hint Htidy Hc T1 T2. destruct (settle_ballots m cw t1 m2 H Hsort Htok Hlist Hint T1 T2) as (H2&t2&T3&G).
  exists t2. split; [exact T3|]. intro cw3. destruct (G cw3) as (m3&E2&V&C). rewrite E2. f_equal. destruct (pass_once _ Htidy Hc) as (a&r&Ea&Ha&Hr&Hn).
  pose proof (reread_metadata m cw t1 m2 H (fun k j Hin => proj2 Htidy (k, j) Hin) T1 T2 _ Ea) as M1.
  assert (Htidy2 : tidy (j_metadata m2)).
  { rewrite M1. split; [exact Hn|]. intros kj [<-|[<-|Hin]]; [left; cbn [fst snd]; eauto|exact Ha|apply (Hr _ Hin)]. }
  assert (M : j_metadata m3 = j_metadata m2).
  { assert (Ht3 : total_ballots m3 = total_ballots m2) by (unfold total_ballots; rewrite V; reflexivity).
    assert (Ea2 : after_pass (j_metadata m2) = (k_ballotcount, JInt 0) :: (k_ballotcount_abif, JStr a) :: r) by (rewrite M1; apply pass_twice; assumption).
    rewrite (reread_metadata m2 cw3 _ m3 H2 (fun k j Hin => proj2 Htidy2 (k, j) Hin) T3 E2 _ Ea2), Ht3, M1. reflexivity. }
  destruct m2, m3. cbn in V, C, M. congruence.
Qed.
Lemma tidy_after m cw t1 m2 : writable m -> tidy (j_metadata m) -> counted (j_metadata m) ->
  convert_jabmod_to_abif m = Ok t1 -> convert_abif_to_jabmod t1 cw false false = Ok m2 -> tidy (j_metadata m2).
Proof.
  intros H Htidy Hc T1 T2. destruct (pass_once _ Htidy Hc) as (a&r&Ea&Ha&Hr&Hn).
  rewrite (reread_metadata m cw t1 m2 H (fun k j Hin => proj2 Htidy (k, j) Hin) T1 T2 _ Ea).
  split; [exact Hn|]. intros kj [<-|[<-|Hin]]; [left; cbn [fst snd]; eauto|exact Ha|apply (Hr _ Hin)].
Qed.
Lemma parsed_tidy text cw sc m : convert_abif_to_jabmod text cw false sc = Ok m -> tidy_metadata m -> tidy (j_metadata m).
Proof. intros H Ht. split; [destruct (convert_votes _ _ _ _ _ H) as (m0&vs&ls&_&_&_&_&_&_&_&_&Hn&_); exact Hn|]. intros [k j] Hin. exact (Ht k j Hin). Qed.

(** Reading any text, writing ABIF and reading it back once gives an election that is written and read back exactly: the same votelines
    in the same order with the same ranks, ratings and delimiters, the same candidate table in the same order, the same metadata. *)
Theorem C82_settles : forall text cleanws storecomments m, convert_abif_to_jabmod text cleanws false storecomments = Ok m ->
  (forall t, In t (cands m) -> writable_token t) -> (forall v, In v (j_votelines m) -> ratings_agree v) -> numeric_ratings m -> tidy_metadata m ->
  forall t1 cleanws1 m2, convert_jabmod_to_abif m = Ok t1 -> convert_abif_to_jabmod t1 cleanws1 false false = Ok m2 ->
  exists t2, convert_jabmod_to_abif m2 = Ok t2 /\ forall cleanws2, convert_abif_to_jabmod t2 cleanws2 false false = Ok m2.
Proof.
  intros text cw sc m H Ht Hr Hn Hm t1 cw1 m2 T1 T2. apply (settle m cw1 t1 m2); try assumption.
  - exact (parsed_writable text cw sc m H Ht Hr).
  - exact (parsed_sorted _ _ _ _ _ H).
  - exact (parsed_listed _ _ _ _ _ H).
  - exact (parsed_ratings _ _ _ _ H Hn).
  - exact (parsed_tidy _ _ _ _ H Hm).
  - exact (parsed_counted _ _ _ _ H).
Qed.
Print Assumptions C82_settles.
(** Whatever the metadata: votelines and candidates settle. *)
Theorem C82_ballots_settle : forall text cleanws storecomments m, convert_abif_to_jabmod text cleanws false storecomments = Ok m ->
  (forall t, In t (cands m) -> writable_token t) -> (forall v, In v (j_votelines m) -> ratings_agree v) -> numeric_ratings m ->
  forall t1 cleanws1 m2, convert_jabmod_to_abif m = Ok t1 -> convert_abif_to_jabmod t1 cleanws1 false false = Ok m2 ->
  exists t2, convert_jabmod_to_abif m2 = Ok t2 /\ forall cleanws2, exists m3, convert_abif_to_jabmod t2 cleanws2 false false = Ok m3 /\
    j_votelines m3 = j_votelines m2 /\ j_candidates m3 = j_candidates m2.
Proof.
  intros text cw sc m H Ht Hr Hn t1 cw1 m2 T1 T2. apply (settle_ballots m cw1 t1 m2); try assumption.
  - exact (parsed_writable text cw sc m H Ht Hr).
  - exact (parsed_sorted _ _ _ _ _ H).
  - exact (parsed_listed _ _ _ _ _ H).
  - exact (parsed_ratings _ _ _ _ H Hn).
Qed.
Print Assumptions C82_ballots_settle.
(** Ratings behind quoted names need one pass more: the first one makes numbers of them. *)
Theorem C82_settles_later : forall text cleanws storecomments m, convert_abif_to_jabmod text cleanws false storecomments = Ok m ->
  (forall t, In t (cands m) -> writable_token t) -> (forall v, In v (j_votelines m) -> ratings_agree v) -> tidy_metadata m ->
  forall t1 cleanws1 m2, convert_jabmod_to_abif m = Ok t1 -> convert_abif_to_jabmod t1 cleanws1 false false = Ok m2 ->
  exists t2, convert_jabmod_to_abif m2 = Ok t2 /\ forall cleanws2, exists m3 t3, convert_abif_to_jabmod t2 cleanws2 false false = Ok m3 /\
    convert_jabmod_to_abif m3 = Ok t3 /\ forall cleanws3, convert_abif_to_jabmod t3 cleanws3 false false = Ok m3.
Proof.
  intros text cw sc m H Ht Hr Hm t1 cw1 m2 T1 T2. pose proof (parsed_writable text cw sc m H Ht Hr) as W. pose proof (parsed_sorted _ _ _ _ _ H) as Hs.
  destruct (reread_writable m cw1 t1 m2 W Hs Ht T1 T2) as (W2&Ht2&_&Hi2). pose proof (written_text m2 W2) as T3. eexists. split; [exact T3|]. intro cw2.
  destruct (file_roundtrip m2 cw2 false W2) as (text'&m3&_&_&E1&E2&_). rewrite T3 in E1. apply ok_inj in E1. subst text'.
  destruct (settle m2 cw2 _ m3 W2 (parsed_sorted _ _ _ _ _ T2) Ht2 (parsed_listed _ _ _ _ _ T2) Hi2
    (tidy_after m cw1 t1 m2 W (parsed_tidy _ _ _ _ H Hm) (parsed_counted _ _ _ _ H) T1 T2) (parsed_counted _ _ _ _ T2) T3 E2) as (t3&T4&G). eauto.
Qed.
Print Assumptions C82_settles_later.
(** The first reading of a written file is not the fixed point: it adds an entry to the metadata, so the second file has a line more. *)
Theorem C82_first_pass_refuted : exists text m t1 m2 t2, convert_abif_to_jabmod text false false false = Ok m /\
  convert_jabmod_to_abif m = Ok t1 /\ convert_abif_to_jabmod t1 false false false = Ok m2 /\ convert_jabmod_to_abif m2 = Ok t2 /\
  length (splitlines t2) = S (length (splitlines t1)) /\ dget k_ballotcount_abif (j_metadata m) = None /\ dget k_ballotcount_abif (j_metadata m2) = Some (JStr (u "1")).
Proof.
  exists (u "1:A>B"). eexists. eexists. eexists. eexists. split; [vm_compute; reflexivity|]. split; [vm_compute; reflexivity|]. split; [vm_compute; reflexivity|].
  split; [vm_compute; reflexivity|]. split; [vm_compute; reflexivity|]. split; vm_compute; reflexivity.
Qed.
Print Assumptions C82_first_pass_refuted.
(** A rating behind a quoted name: the votelines of the second and the third reading differ (in the text of the preferences). *)
Theorem C82_quoted_rating_refuted : exists text m t1 m2 t2 m3, convert_abif_to_jabmod text false false false = Ok m /\
  convert_jabmod_to_abif m = Ok t1 /\ convert_abif_to_jabmod t1 false false false = Ok m2 /\ convert_jabmod_to_abif m2 = Ok t2 /\ convert_abif_to_jabmod t2 false false false = Ok m3 /\
  map v_prefstr (j_votelines m2) = [Some (u "A/05")] /\ map v_prefstr (j_votelines m3) = [Some (u "A/5")].
Proof.
  exists (u "1:""A""/05"). eexists. eexists. eexists. eexists. eexists. split; [vm_compute; reflexivity|]. split; [vm_compute; reflexivity|]. split; [vm_compute; reflexivity|].
  split; [vm_compute; reflexivity|]. split; [vm_compute; reflexivity|]. split; vm_compute; reflexivity.
Qed.
Print Assumptions C82_quoted_rating_refuted.
(** A file with a bracketed name, ratings, a tie, a truncated ballot, comments, a title and a name table meets the conditions. *)
Definition settle_file : str := u "{title: ""Board (2024)""}" ++ [10%N] ++ u "=A:[Ann]" ++ [10%N] ++ u "2:B>[Cy D.]/3=A # late" ++ [10%N] ++ u "7: A/5 > [Cy D.]/3 = B/3" ++ [10%N] ++ u "1:B_2,A/1".
Example C82_nonvacuous : exists m, convert_abif_to_jabmod settle_file false false false = Ok m /\ length (cands m) = 4%nat /\
  (forall t, In t (cands m) -> writable_token t) /\ (forall v, In v (j_votelines m) -> ratings_agree v) /\ numeric_ratings m /\ tidy_metadata m.
Proof.
  eexists. split; [vm_compute; reflexivity|]. split; [vm_compute; reflexivity|]. split; [|split; [|split]].
  - intros t Hin. cbn in Hin. repeat (destruct Hin as [<-|Hin]; [simple_tok || boxed_tok|]). destruct Hin.
  - intros v Hin. cbn in Hin. destruct Hin as [<-|[<-|[<-|[]]]].
    + intros _ c c' p p' k k' H1 H2 E1 E2. cbn in H1, H2.
      destruct H1 as [H1|[H1|[H1|[]]]], H2 as [H2|[H2|[H2|[]]]]; injection H1 as <- <-; injection H2 as <- <-;
          apply some_inj in E1, E2; subst k k'; vm_compute; split; intro; congruence.
    + intro H. exfalso. exact (H B _ (or_introl eq_refl) eq_refl).
    + intro H. exfalso. exact (H (u "B_2") _ (or_introl eq_refl) eq_refl).
  - intros v c p s Hin Hc. cbn in Hin. destruct Hin as [<-|[<-|[<-|[]]]]; cbn in Hc; repeat (destruct Hc as [Hc|Hc]; [injection Hc as <- <-; discriminate|]); destruct Hc.
  - intros k j Hin. cbn in Hin. destruct Hin as [E|[E|[]]]; injection E as <- <-; [left; split; [reflexivity|eexists; reflexivity]|].
    right. cbn [fst snd]. split; [split; [discriminate|split; [vm_compute; reflexivity|intros _; vm_compute; reflexivity]]|]. split; [apply one_lineb; vm_compute; reflexivity|].
    split; [vm_compute; intuition discriminate|]. split; [discriminate|]. eexists. split; [reflexivity|]. split; [discriminate|vm_compute; reflexivity].
Qed.
