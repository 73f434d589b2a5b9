(** * ImportFacts: reading ABIF texts made of candidate lines and tier lists *)

From Coq Require Import Lia Permutation Sorted.
From Verif Require Import PyBase PyFacts Jabmod Regex RegexFacts WordTable ScoreModel Spec ParserModel ParserSpec ParserFacts ParserPrefs ParserRender.
From Verif Require Import PairwiseModel PairwiseFacts PropsPairwise ParserFile ParserText ParserLines PropsParser TextFacts ImportSpec RoundtripFile.
Local Open Scope Z_scope.

(** ** Lines to model *)
Lemma map_ok_inj {T} (a b : list T) : map (@Ok T) a = map (@Ok T) b -> a = b.
Proof. revert b. induction a as [|x a IH]; intros [|y b] E; try discriminate; [reflexivity|]. injection E as -> E. f_equal. apply IH, E. Qed.

Lemma lines_read ls cw ar ws : (forall l, In l ls -> one_line l) -> votes_of (map (norm cw) ls) = map Ok ws -> ws <> [] ->
  exists m' vs, convert_abif_to_jabmod (unlines ls) cw ar false = Ok m' /\
    j_votelines m' = sort_desc v_qty vs /\ Forall2 same_ballot (map fst ws) vs /\ (ar = false -> vs = map fst ws) /\
    j_candidates m' = j_candidates (fold_left (step cw) ls emptyish) /\
    (ar = false -> forall k, k <> k_ballotcount -> dget k (j_metadata m') = dget k (j_metadata (fold_left (step cw) ls emptyish))).
Proof.
  intros Hol Ev Hws.
  assert (Hsp : splitlines (unlines ls) = ls) by (apply splitlines_unlines; exact Hol).
  assert (Hne : unlines ls <> []).
  { destruct ls as [|l ls]; [destruct ws; [congruence|discriminate]|]. cbn. destruct l; discriminate. }
  assert (Hok : forall l r, In l ls -> vote_of (norm cw l) = Some r -> exists x, r = Ok x).
  { assert (G : forall ls xs, votes_of ls = map Ok xs -> forall l r, In l ls -> vote_of l = Some r -> exists x : voteline * list str, r = Ok x).
    { clear. induction ls as [|y ls IH]; intros xs E l r Hin Er; [destruct Hin|]. cbn [votes_of] in E. destruct Hin as [<-|Hin].
      - rewrite Er in E. destruct xs as [|x xs]; [discriminate|]. injection E as -> _. eauto.
      - destruct (vote_of y); [destruct xs as [|x xs]; [discriminate|]; injection E as _ E; exact (IH xs E l r Hin Er)|exact (IH xs E l r Hin Er)]. }
    intros l r Hin Er. refine (G _ _ Ev (norm cw l) r _ Er). apply in_map, Hin. }
  destruct (fold_lines_total cw ls 0 emptyish Hol emptyish_fine Hok) as [m1 E1].
  assert (Hconv : exists m', convert_abif_to_jabmod (unlines ls) cw ar false = Ok m').
  { rewrite convert_finish by exact Hne. rewrite Hsp, E1. cbn [bind].
    rewrite <- Hsp in E1. destruct (convert_state _ _ _ _ E1) as (Hf&vs&Ev'&Ej&_). rewrite Hsp, Ev in Ev'.
    apply map_ok_inj in Ev'. subst vs. unfold finish. destruct (j_votelines m1) as [|v0 vl0] eqn:Evl.
    - destruct ws; [congruence|discriminate].
    - destruct ar; [|cbn [bind]; eauto]. destruct (add_ratings_fine m1 Hf) as (m2&E2&_). rewrite E2. cbn. eauto. }
  destruct Hconv as [m' Hconv].
  destruct (convert_votes _ _ _ _ _ Hconv) as (m0'&vs&lsx&Hf&Ej&_&Ev'&El&F&Els&Ec&_).
  rewrite Hsp, Ev in Ev'. apply map_ok_inj in Ev'. subst vs.
  exists m', lsx. split; [exact Hconv|]. split; [exact El|]. split; [exact F|]. split; [exact Els|].
  pose proof (fold_effect cw ls 0 emptyish m1 emptyish Hol emptyish_fine (conj eq_refl (fun k Hk => eq_refl)) E1) as (A1&A2).
  change (fun (m : jabmod) (l : str) => effect (norm cw l) m) with (step cw) in A1, A2.
  rewrite convert_finish, Hsp, E1 in Hconv by exact Hne. cbn [bind] in Hconv. unfold finish in Hconv.
  assert (Hcm : j_candidates m' = j_candidates m1 /\ (ar = false -> j_metadata m' = j_metadata m1)).
  { destruct (j_votelines m1); [discriminate|]. destruct ar.
    - rewrite <- Hsp in E1. destruct (convert_state _ _ _ _ E1) as (Hf1&_). destruct (add_ratings_fine m1 Hf1) as (m2&E2&C&_). rewrite E2 in Hconv.
      cbn [bind] in Hconv. apply ok_inj in Hconv. subst m'. split; [exact C|discriminate].
    - cbn [bind] in Hconv. apply ok_inj in Hconv. subst m'. split; reflexivity. }
  destruct Hcm as (Hcm&Hmm). split; [rewrite Hcm; exact A1|]. intros Har k Hk. rewrite (Hmm Har). exact (A2 k Hk).
Qed.

(** ** Tier lists as preference texts *)
(** Every candidate with the delimiter before it. *)
Definition entries (tiers : list (list str)) : list (N * str) :=
  flat_map (fun t => match t with [] => [] | x :: xs => (62%N, x) :: map (pair 61%N) xs end) tiers.
Definition show_entries (es : list (N * str)) : str := concat (map (fun dn => fst dn :: snd dn) es).

Lemma show_tier_entries x xs : show_entries ((62%N, x) :: map (pair 61%N) xs) = 62%N :: join [61%N] (x :: xs).
Proof.
  unfold show_entries. cbn [map concat fst snd]. cbn [app]. f_equal. revert x. induction xs as [|y xs IH]; intro x; [apply app_nil_r|].
  cbn [map concat fst snd]. cbn [app]. rewrite IH. reflexivity.
Qed.
Lemma show_entries_app a b : show_entries (a ++ b) = show_entries a ++ show_entries b.
Proof. unfold show_entries. rewrite map_app, concat_app. reflexivity. Qed.
Lemma show_entries_tiers tiers : tiers <> [] -> (forall t, In t tiers -> t <> []) -> show_entries (entries tiers) = 62%N :: tiers_text tiers.
Proof.
  induction tiers as [|t ts IH]; intros Hne H; [congruence|]. clear Hne.
  destruct t as [|x xs]; [destruct (H [] (or_introl eq_refl) eq_refl)|].
  change (entries ((x :: xs) :: ts)) with (((62%N, x) :: map (pair 61%N) xs) ++ entries ts). rewrite show_entries_app, show_tier_entries.
  destruct ts as [|t2 ts]; [cbn; rewrite app_nil_r; reflexivity|].
  rewrite IH by (discriminate || (intros t Ht; apply H; right; exact Ht)). reflexivity.
Qed.
Lemma entries_names tiers : map snd (entries tiers) = concat tiers.
Proof.
  induction tiers as [|t ts IH]; [reflexivity|]. cbn [entries flat_map concat]. rewrite map_app. fold (entries ts). rewrite IH. f_equal.
  destruct t as [|x xs]; [reflexivity|]. cbn [map snd]. rewrite map_map. cbn [snd]. rewrite map_id. reflexivity.
Qed.

(** The same as items, the last one padded. *)
Fixpoint mk_items (pad : str) (es : list (N * str)) : list (N * item) :=
  match es with
  | [] => []
  | (d, n) :: r => (d, ([], Bare n None, match r with [] => pad | _ => [] end)) :: mk_items pad r
  end.
Definition show_items (l : list (N * item)) : str := concat (map (fun dj => fst dj :: show_item (snd dj)) l).
Lemma show_prefs_items r : forall i, show_prefs i r = show_item i ++ show_items r.
Proof. induction r as [|[d j] r IH]; intro i; cbn [show_prefs]; [symmetry; apply app_nil_r|]. rewrite IH. reflexivity. Qed.
Lemma show_mk pad es : es <> [] -> show_items (mk_items pad es) = show_entries es ++ pad.
Proof.
  induction es as [|[d n] r IH]; intro H; [congruence|]. cbn [mk_items]. unfold show_items, show_entries in *. cbn [map concat fst snd show_item show slash].
  destruct r as [|e r]; [cbn; rewrite !app_nil_r; reflexivity|]. rewrite IH by discriminate. cbn [app]. rewrite !app_nil_r, <- app_assoc. reflexivity.
Qed.
Lemma mk_names pad es : map (fun dj => item_name (snd dj)) (mk_items pad es) = map snd es.
Proof. induction es as [|[d n] r IH]; [reflexivity|]. cbn [mk_items map]. rewrite IH. reflexivity. Qed.

Fixpoint rk (k : Z) (es : list (N * str)) : list (str * Z) :=
  match es with
  | [] => []
  | (d, n) :: r => let k' := if N.eqb d 62 then k + 1 else k in (n, k') :: rk k' r
  end.
Lemma ranks_from_rk r : forall k i, ranks_from k i r = (item_name i, k) :: rk k (map (fun dj => (fst dj, item_name (snd dj))) r).
Proof. induction r as [|[d j] r IH]; intros k i; [reflexivity|]. cbn [ranks_from map rk fst snd]. rewrite IH. reflexivity. Qed.
Lemma mk_entries pad es : map (fun dj => (fst dj, item_name (snd dj))) (mk_items pad es) = es.
Proof. induction es as [|[d n] r IH]; [reflexivity|]. cbn [mk_items map fst snd]. rewrite IH. reflexivity. Qed.
Lemma rk_eq xs r : forall k, rk k (map (pair 61%N) xs ++ r) = map (fun x => (x, k)) xs ++ rk k r.
Proof. induction xs as [|x xs IH]; intro k; [reflexivity|]. cbn [map app rk]. cbn. rewrite IH. reflexivity. Qed.
Lemma rk_tiers tiers c : (forall t, In t tiers -> t <> []) -> forall k, dget c (rk k (entries tiers)) = tier_rank_from (k + 1) tiers c.
Proof.
  induction tiers as [|t ts IH]; intros H k; [reflexivity|]. destruct t as [|x xs]; [destruct (H [] (or_introl eq_refl) eq_refl)|].
  change (entries ((x :: xs) :: ts)) with ((62%N, x) :: (map (pair 61%N) xs ++ entries ts)). cbn [rk tier_rank_from]. change (62 =? 62)%N with true. cbv iota.
  rewrite rk_eq. change ((x, k + 1) :: map (fun x => (x, k + 1)) xs ++ rk (k + 1) (entries ts)) with (map (fun x => (x, k + 1)) (x :: xs) ++ rk (k + 1) (entries ts)).
  pose proof (IH (fun t Ht => H t (or_intror Ht)) (k + 1)) as E. generalize (x :: xs) as l. intro l. induction l as [|y l IHl]; [exact E|].
  cbn [map app dget memb]. destruct (str_eqb c y); [reflexivity|exact IHl].
Qed.

(** A token that can be written bare. *)
Definition plain_token (t : str) : Prop := well_written (Bare t None).

Lemma mk_ok pad es : blank pad -> (forall d n, In (d, n) es -> delimiter d /\ plain_token n) -> forall d j, In (d, j) (mk_items pad es) -> delimiter d /\ item_ok j.
Proof.
  intros Hp. induction es as [|[d0 n0] r IH]; intros H d j Hin; [destruct Hin|]. cbn [mk_items] in Hin. destruct Hin as [E|Hin].
  - injection E as <- <-. destruct (H d0 n0 (or_introl eq_refl)) as (H1&H2). split; [exact H1|]. cbn [item_ok].
    split; [exact blank_0|]. split; [exact H2|]. destruct r; [exact Hp|exact blank_0].
  - apply IH; [intros d' n' Hi; apply H; right; exact Hi|exact Hin].
Qed.
Lemma entries_ok tiers : (forall c, In c (concat tiers) -> plain_token c) -> forall d n, In (d, n) (entries tiers) -> delimiter d /\ plain_token n.
Proof.
  intros H d n Hin. split.
  - unfold entries in Hin. apply in_flat_map in Hin as (t&_&Hin). destruct t as [|x xs]; [destruct Hin|]. destruct Hin as [E|Hin]; [injection E as <- _; left; reflexivity|].
    apply in_map_iff in Hin as (y&E&_). injection E as <- _. right; left; reflexivity.
  - apply H. rewrite <- entries_names. exact (in_map snd _ _ Hin).
Qed.
Lemma entries_delims tiers d n : In (d, n) (entries tiers) -> d <> 44%N.
Proof.
  intro Hin. unfold entries in Hin. apply in_flat_map in Hin as (t&_&Hin). destruct t as [|x xs]; [destruct Hin|]. destruct Hin as [E|Hin]; [injection E as <- _; discriminate|].
  apply in_map_iff in Hin as (y&E&_). injection E as <- _. discriminate.
Qed.

(** A preference text of tiers, with white space after it. *)
Lemma parse_tiers tiers pad : blank pad -> (forall t, In t tiers -> t <> []) -> (forall c, In c (concat tiers) -> plain_token c) -> NoDup (concat tiers) ->
  exists prefs, parse_prefstr (tiers_text tiers ++ pad) = Ok (prefs, concat tiers) /\ dkeys prefs = concat tiers /\
    safe (tiers_text tiers ++ pad) /\ (forall c, In c (concat tiers) -> exists p, dget c prefs = Some p /\ p_rating p = None) /\
    forall v, v_prefs v = prefs -> forall c, rank_on v c = tier_rank tiers c.
Proof.
  intros Hp Ht Hc Hn. destruct tiers as [|t0 ts].
  - cbn [tiers_text map join app concat]. exists []. split; [|split; [reflexivity|split; [apply safe_blank, Hp|split; [intros c []|]]]].
    + destruct Hp as (Hp&_). unfold parse_prefstr, rank_or_rate.
      assert (Hd : forall s, forallb is_space s = true -> delims false s = [] /\ split_delims s = [s]).
      { clear. induction s as [|c s IH]; intro H; [split; reflexivity|]. cbn [forallb] in H. apply andb_prop in H as (Hs&H). destruct (IH H) as (I1&I2). cbn [delims split_delims].
        assert (N1 : N.eqb c ch_lbr = false) by (apply N.eqb_neq; intros ->; discriminate Hs).
        assert (N2 : one_of [ch_gt; ch_comma; ch_eq] c = false).
        { cbn [one_of existsb]. unfold ch_gt, ch_comma, ch_eq. rewrite !orb_false_iff, !N.eqb_neq. repeat split; intros ->; discriminate Hs. }
        assert (N3 : is_delim c = false).
        { unfold is_delim, one_of. cbn [existsb]. unfold ch_gt, ch_comma, ch_eq, ch_lbr, ch_rbr. rewrite !orb_false_iff, !N.eqb_neq. repeat split; intros ->; discriminate Hs. }
        rewrite N1. cbn [andb]. rewrite N2, N3, I1, I2. split; reflexivity. }
      destruct (Hd pad Hp) as (E1&E2). rewrite E1. cbv beta iota zeta.
      assert (Es : strip pad = []).
      { unfold strip. rewrite lstrip_blank by exact Hp. reflexivity. }
      assert (Ex : extract_candprefs pad = Ok []) by (unfold extract_candprefs; rewrite E2; cbn [foldM]; rewrite Es; reflexivity).
      rewrite Ex. reflexivity.
    + intros v Ev c. unfold rank_on. rewrite Ev. reflexivity.
  - assert (Hte : t0 :: ts <> []) by discriminate. revert Hte Ht Hc Hn. generalize (t0 :: ts) as tiers. clear t0 ts. intros tiers Hte Ht Hc Hn.
    pose proof (show_entries_tiers tiers Hte Ht) as Es. pose proof (entries_ok tiers Hc) as Ho. pose proof (rk_tiers tiers) as Hr. pose proof (entries_names tiers) as En.
    pose proof (entries_delims tiers) as Hnd.
    destruct (entries tiers) as [|[d0 n0] es] eqn:Ee; [discriminate|].
    assert (Hd0 : d0 = 62%N) by (unfold show_entries in Es; cbn in Es; injection Es as -> _; reflexivity). subst d0.
    pose proof (mk_ok pad _ Hp Ho) as Hmk.
    pose proof (show_mk pad ((62%N, n0) :: es) ltac:(discriminate)) as Esh. rewrite Es in Esh.
    pose proof (mk_names pad ((62%N, n0) :: es)) as Emn. rewrite En in Emn.
    pose proof (mk_entries pad ((62%N, n0) :: es)) as Eme.
    cbn [mk_items] in Hmk, Esh, Emn, Eme. set (i0 := ([], Bare n0 None, match es with [] => pad | _ => [] end)) in *. set (r0 := mk_items pad es) in *.
    cbn [map fst snd] in Emn, Eme. change (item_name i0 :: map (fun dj : N * item => item_name (snd dj)) r0 = concat tiers) in Emn.
    assert (Emr : map (fun dj => (fst dj, item_name (snd dj))) r0 = es) by (injection Eme; auto).
    assert (Et : tiers_text tiers ++ pad = show_prefs i0 r0).
    { rewrite show_prefs_items. unfold show_items in *. cbn [map concat fst snd app] in Esh. injection Esh as Esh. symmetry. exact Esh. }
    assert (Hi0 : item_ok i0) by (apply (Hmk 62%N i0 (or_introl eq_refl))).
    assert (Hr0 : forall d j, In (d, j) r0 -> delimiter d /\ item_ok j) by (intros d j Hin; apply Hmk; right; exact Hin).
    assert (Hitems : map item_name (items i0 r0) = concat tiers) by (unfold items; cbn [map]; rewrite map_map; exact Emn).
    assert (Hm : mode_of r0 <> MRate).
    { unfold mode_of. destruct r0 as [|[d j] r'] eqn:Er; [discriminate|]. destruct (N.eqb_spec d 44) as [->|]; [|discriminate].
      exfalso. apply (Hnd 44%N (item_name j)); [|reflexivity]. right. rewrite <- Emr. left; reflexivity. }
    pose proof (parse_show i0 r0 Hi0 Hr0) as Eparse. rewrite Hitems in Eparse. specialize (Eparse Hn).
    pose proof (loop_result_ranks (mode_of r0) r0 Hm 1 i0) as Elr. pose proof (loop_result_ratings (mode_of r0) r0 1 i0) as Elt.
    exists (loop_result (mode_of r0) 1 i0 r0). rewrite Et.
    split; [rewrite Eparse; destruct (mode_of r0); [reflexivity|congruence|reflexivity]|].
    assert (Ek : dkeys (loop_result (mode_of r0) 1 i0 r0) = concat tiers).
    { rewrite <- Hitems. transitivity (map fst (map (fun kv => (fst kv, p_rating (snd kv))) (loop_result (mode_of r0) 1 i0 r0))); [unfold dkeys; rewrite map_map; reflexivity|].
      rewrite Elt, map_map. reflexivity. }
    split; [exact Ek|]. split; [apply safe_prefs; assumption|]. split.
    + intros c Hin. rewrite <- Ek in Hin. apply dget_Some_In in Hin as [p Ep]. exists p. split; [exact Ep|].
      assert (Hin : In (c, p_rating p) (map (fun kv => (fst kv, p_rating (snd kv))) (loop_result (mode_of r0) 1 i0 r0))).
      { apply in_map_iff. exists (c, p). split; [reflexivity|]. apply dget_In, Ep. }
      rewrite Elt in Hin. apply in_map_iff in Hin as (j&E&Hin). injection E as _ <-.
      assert (Hbare : forall j, In j (items i0 r0) -> exists a n b, j = (a, Bare n None, b)).
      { clear. intros j [<-|Hin]; [unfold i0; eauto|]. apply in_map_iff in Hin as ([d j']&<-&Hin). cbn [snd]. unfold r0 in Hin. clear i0 r0. revert Hin.
        induction es as [|[d1 n1] es IH]; intro Hin; [destruct Hin|]. destruct Hin as [E|Hin]; [injection E as _ <-; eauto|exact (IH Hin)]. }
      destruct (Hbare j Hin) as (a&n&bb&->). reflexivity.
    + intros v Ev c. unfold rank_on. rewrite Ev.
      assert (L : forall l l', map (fun kv : str * pref => (fst kv, p_rank (snd kv))) l = map (fun cr : str * Z => (fst cr, Some (snd cr))) l' ->
        match dget c l with Some p => p_rank p | None => None end = dget c l').
      { clear. induction l as [|[k p] l IH]; intros [|[k' z] l'] E; try discriminate; [reflexivity|]. cbn [map fst snd] in E. injection E as -> E1 E2.
        cbn [dget]. destruct (str_eqb c k'); [exact E1|exact (IH l' E2)]. }
      rewrite (L _ _ Elr). rewrite ranks_from_rk, Emr.
      specialize (Hr c Ht 0). cbn [rk] in Hr. change (62 =? 62)%N with true in Hr. cbv iota in Hr. exact Hr.
Qed.

(** ** Vote lines *)
(** A comment: nothing, or a text starting with '#'. *)
Definition comment_ok (com : str) : Prop := com = [] \/ (starts (N.eqb 35) com = true /\ one_line com).
Record imported := Imported { i_qty : N; i_tiers : list (list str); i_pad : str; i_com : str }.
Definition imported_line (x : imported) : str := n2s (i_qty x) ++ [58%N] ++ tiers_text (i_tiers x) ++ i_pad x ++ i_com x.
Definition imported_ok (x : imported) : Prop :=
  blank (i_pad x) /\ comment_ok (i_com x) /\ (forall t, In t (i_tiers x) -> t <> []) /\
  (forall c, In c (concat (i_tiers x)) -> plain_token c) /\ NoDup (concat (i_tiers x)).

(** The voteline expected for it. *)
Definition votes_as (qty : N) (tiers : list (list str)) (w : voteline) : Prop :=
  v_qty w = Z.of_N qty /\ (forall c, rank_on w c = tier_rank tiers c) /\ dkeys (v_prefs w) = concat tiers.

Lemma before_hash_app a r : ~ In 35%N a -> comment_ok r -> before_hash (a ++ r) = a /\ comment_of (a ++ r) = match r with [] => None | _ => Some r end.
Proof.
  intros Ha Hr. induction a as [|c a IH]; cbn [app before_hash comment_of].
  - destruct Hr as [->|(Hs&_)]; [split; reflexivity|]. destruct r as [|c r]; [discriminate|]. cbn [starts] in Hs. apply N.eqb_eq in Hs. subst c. split; reflexivity.
  - destruct (N.eqb_spec c 35) as [->|n]; [destruct Ha; left; reflexivity|]. destruct IH as (I1&I2); [intro H; apply Ha; right; exact H|]. rewrite I1, I2. split; reflexivity.
Qed.

Lemma imported_read cw x : imported_ok x ->
  exists w, one_line (imported_line x) /\ vote_of (norm cw (imported_line x)) = Some (Ok (w, concat (i_tiers x))) /\
    votes_as (i_qty x) (i_tiers x) w /\ v_voterid w = voter_id (v_comment w) /\
    v_comment w = (match i_com x with [] => None | c => Some c end) /\ (forall c p, dget c (v_prefs w) = Some p -> p_rating p = None).
Proof.
  intros (Hp&Hc&Ht&Htok&Hn). destruct (parse_tiers _ _ Hp Ht Htok Hn) as (prefs&E&Ek&Hs&Hrat&Hrank).
  destruct (n2s_numeral (i_qty x)) as [Hne Hd].
  assert (Hsf : safe (n2s (i_qty x) ++ 58%N :: tiers_text (i_tiers x) ++ i_pad x)).
  { apply safe_app; [apply safe_digits, Hd|]. apply safe_cons; [split; [reflexivity|discriminate]|exact Hs]. }
  assert (El : imported_line x = (n2s (i_qty x) ++ 58%N :: tiers_text (i_tiers x) ++ i_pad x) ++ i_com x).
  { unfold imported_line. rewrite <- !app_assoc. cbn [app]. rewrite <- !app_assoc. reflexivity. }
  assert (Hnorm : norm cw (imported_line x) = imported_line x).
  { unfold imported_line. destruct (n2s (i_qty x)) as [|c r]; [congruence|]. apply norm_first. cbn [forallb] in Hd. apply andb_prop in Hd as [Hc' _]. apply digit_not_space, Hc'. }
  destruct (before_hash_app _ (i_com x) (safe_no_hash _ Hsf) Hc) as (Eb&Eco). rewrite <- El in Eb, Eco.
  exists (Voteline (Z.of_N (i_qty x)) prefs (match i_com x with [] => None | c => Some c end) (Some (rstrip (tiers_text (i_tiers x) ++ i_pad x))) (voter_id (match i_com x with [] => None | c => Some c end)) None).
  split.
  { rewrite El. intros c Hin. apply in_app_or in Hin as [Hin|Hin]; [apply (Hsf c Hin)|]. destruct Hc as [Hc|(_&Hc)]; [rewrite Hc in Hin; destruct Hin|exact (Hc c Hin)]. }
  split.
  { rewrite Hnorm. unfold vote_of. rewrite Eb.
    rewrite (proj2 (vote_parts_spec _ (n2s (i_qty x)) (tiers_text (i_tiers x) ++ i_pad x))) by (split; [reflexivity|split; assumption]).
    rewrite Eco, py_int_n2s. cbn [bind]. rewrite E. cbn [bind fst snd]. destruct (i_com x); reflexivity. }
  cbn [v_voterid v_comment v_qty v_prefs]. split; [split; [reflexivity|split; [intro c; apply Hrank; reflexivity|exact Ek]]|].
  split; [destruct (i_com x); reflexivity|]. split; [reflexivity|].
  intros c p Hg. destruct (Hrat c) as (p'&E'&Hr'). { rewrite <- Ek. apply dget_Some_In. eauto. } rewrite Hg in E'. apply some_inj in E'. subst p'. exact Hr'.
Qed.

(** ** Candidate lines *)
Definition table_entry_ok (tn : str * str) : Prop :=
  token_ok (fst tn) /\ name_ok true (snd tn) /\ safe (fst tn) /\ safe (snd tn).
Lemma candidate_effect cw tn e : table_entry_ok tn ->
  one_line (candidate_line (fst tn) (snd tn)) /\ vote_of (norm cw (candidate_line (fst tn) (snd tn))) = None /\
  j_metadata (step cw e (candidate_line (fst tn) (snd tn))) = j_metadata e /\
  j_candidates (step cw e (candidate_line (fst tn) (snd tn))) = dset (fst tn) (snd tn) (j_candidates e).
Proof.
  intros (H1&H2&H3&H4). destruct tn as [t n]. cbn [fst snd] in *.
  assert (Hs : safe (candidate_line t n)).
  { unfold candidate_line, cand_line. cbn [app]. apply safe_cons; [split; [reflexivity|discriminate]|]. apply safe_app; [exact H3|].
    apply safe_cons; [split; [reflexivity|discriminate]|]. apply safe_cons; [split; [reflexivity|discriminate]|]. apply safe_app; [exact H4|].
    apply safe_cons; [split; [reflexivity|discriminate]|apply safe_nil]. }
  split; [apply safe_one_line, Hs|].
  assert (Hnorm : norm cw (candidate_line t n) = candidate_line t n) by (apply norm_first; reflexivity). unfold step. rewrite Hnorm.
  assert (Hb : before_hash (candidate_line t n) = candidate_line t n) by (apply before_hash_id, safe_no_hash, Hs).
  assert (V : vote_of (candidate_line t n) = None) by (unfold vote_of; rewrite Hb; reflexivity).
  split; [exact V|]. unfold effect. rewrite V, Hb. cbn [j_metadata j_candidates]. unfold other_line, candidate_line.
  rewrite candline_match by assumption. split; reflexivity.
Qed.

Lemma merge_known ks : forall t : dict str, incl ks (map fst t) -> merge_cands ks t = t.
Proof.
  induction ks as [|k ks IH]; intros t H; [reflexivity|]. change (merge_cands (k :: ks) t) with (merge_cands ks (if dmem k t then t else dset k k t)).
  assert (Hk : dmem k t = true).
  { unfold dmem. assert (Hin : In k (dkeys t)) by (apply H; left; reflexivity). apply dget_Some_In in Hin as [x ->]. reflexivity. }
  rewrite Hk. apply IH. intros x Hx. apply H. right; exact Hx.
Qed.

(** ** Files *)
Definition brace (s : str) : str := 123%N :: s.
Definition centry (tn : str * str) : str := candidate_line (fst tn) (snd tn).
Definition import_lines (pre : list str) (table : list (str * str)) (xs : list imported) : list str :=
  map brace pre ++ map centry table ++ [rule_line] ++ map imported_line xs.

Lemma import_read pre table xs cw ar : (forall s, In s pre -> one_line s) -> (forall tn, In tn table -> table_entry_ok tn) -> NoDup (map fst table) ->
  (forall x, In x xs -> imported_ok x) -> xs <> [] -> (forall x, In x xs -> incl (concat (i_tiers x)) (map fst table)) ->
  exists m ws vs, convert_abif_to_jabmod (unlines (import_lines pre table xs)) cw ar false = Ok m /\
    j_candidates m = table /\ j_votelines m = sort_desc v_qty vs /\ Forall2 same_ballot ws vs /\ (ar = false -> vs = ws) /\
    Forall2 (fun x w => votes_as (i_qty x) (i_tiers x) w /\ v_comment w = (match i_com x with [] => None | c => Some c end) /\
                        v_voterid w = voter_id (v_comment w) /\ (forall c p, dget c (v_prefs w) = Some p -> p_rating p = None)) xs ws /\
    (ar = false -> forall k, k <> k_ballotcount -> dget k (j_metadata m) = dget k (j_metadata (fold_left (step cw) (map brace pre) emptyish))).
Proof.
  intros Hpre Htab Hnd Hx Hne Hincl.
  assert (G : exists ws, Forall2 (fun x w => votes_as (i_qty x) (i_tiers x) w /\ v_comment w = (match i_com x with [] => None | c => Some c end) /\
                        v_voterid w = voter_id (v_comment w) /\ (forall c p, dget c (v_prefs w) = Some p -> p_rating p = None)) xs ws /\
    Forall2 (fun x w => vote_of (norm cw (imported_line x)) = Some (Ok (w, concat (i_tiers x)))) xs ws).
  { clear Hne Hincl. induction xs as [|x xs IH]; [exists []; split; constructor|]. destruct IH as (ws&F1&F2); [intros y Hy; apply Hx; right; exact Hy|].
    destruct (imported_read cw x (Hx x (or_introl eq_refl))) as (w&_&E&H1&H2&H3&H4). exists (w :: ws). split; constructor; auto. }
  destruct G as (ws&F1&F2).
  set (pairs := combine ws (map (fun x => concat (i_tiers x)) xs)).
  assert (Hfst : map fst pairs = ws).
  { clear - F1. unfold pairs. induction F1 as [|x w xs ws _ F IH]; [reflexivity|]. cbn. f_equal. exact IH. }
  assert (Ev : votes_of (map (norm cw) (import_lines pre table xs)) = map Ok pairs).
  { unfold import_lines. rewrite !map_app, !votes_of_app.
    rewrite (votes_of_none (map (norm cw) (map brace pre))).
    2:{ intros l Hl. apply in_map_iff in Hl as (y&<-&Hy). apply in_map_iff in Hy as (s&<-&_). apply brace_effect. }
    rewrite (votes_of_none (map (norm cw) (map centry table))).
    2:{ intros l Hl. apply in_map_iff in Hl as (y&<-&Hy). apply in_map_iff in Hy as (tn&<-&Htn). apply (candidate_effect cw tn emptyish (Htab tn Htn)). }
    rewrite (votes_of_none (map (norm cw) [rule_line])). 2:{ intros l [<-|[]]. apply (head_effect cw _ emptyish). }
    cbn [app]. clear - F2. unfold pairs. induction F2 as [|x w xs ws E F IH]; [reflexivity|]. cbn [map votes_of combine]. rewrite E, IH. reflexivity. }
  assert (Hol : forall l, In l (import_lines pre table xs) -> one_line l).
  { intros l Hl. unfold import_lines in Hl. repeat (apply in_app_or in Hl as [Hl|Hl]).
    - apply in_map_iff in Hl as (s&<-&Hs). intros c [<-|Hc]; [reflexivity|exact (Hpre s Hs c Hc)].
    - apply in_map_iff in Hl as (tn&<-&Htn). apply (candidate_effect cw tn emptyish (Htab tn Htn)).
    - destruct Hl as [<-|[]]. apply printable_line. reflexivity.
    - apply in_map_iff in Hl as (x&<-&Hin). destruct (imported_read cw x (Hx x Hin)) as (w&H&_). exact H. }
  assert (Hp : pairs <> []). { intro E. apply (f_equal (map fst)) in E. rewrite Hfst in E. cbn in E. rewrite E in F1. inversion F1. congruence. }
  destruct (lines_read _ cw ar pairs Hol Ev Hp) as (m&vs&Em&Ej&F&Es&Ec&Emd). rewrite Hfst in F, Es.
  assert (Hfold : j_candidates (fold_left (step cw) (import_lines pre table xs) emptyish) = table /\
    j_metadata (fold_left (step cw) (import_lines pre table xs) emptyish) = j_metadata (fold_left (step cw) (map brace pre) emptyish)).
  { unfold import_lines. rewrite !fold_left_app. set (e0 := fold_left (step cw) (map brace pre) emptyish).
    assert (Hc0 : j_candidates e0 = []).
    { unfold e0. assert (Q : forall e, j_candidates (fold_left (step cw) (map brace pre) e) = j_candidates e).
      { clear. induction pre as [|s pre IH]; intro e; [reflexivity|]. cbn [map fold_left]. rewrite IH. apply brace_effect. }
      apply Q. }
    assert (Q : forall tab e, (forall tn, In tn tab -> table_entry_ok tn) ->
      j_candidates (fold_left (step cw) (map centry tab) e) = fold_left (fun t tn => dset (fst tn) (snd tn) t) tab (j_candidates e) /\
      j_metadata (fold_left (step cw) (map centry tab) e) = j_metadata e).
    { clear. induction tab as [|tn tab IH]; intros e H; [split; reflexivity|]. cbn [map fold_left].
      destruct (IH (step cw e (centry tn)) (fun y Hy => H y (or_intror Hy))) as (I1&I2). rewrite I1, I2. unfold centry.
      destruct (candidate_effect cw tn e (H tn (or_introl eq_refl))) as (_&_&->&->). split; reflexivity. }
    destruct (Q table e0 Htab) as (Q1&Q2). rewrite Hc0, fold_dset_fresh in Q1 by exact Hnd. cbn [app] in Q1.
    set (e1 := fold_left (step cw) (map centry table) e0) in *. cbn [fold_left].
    assert (R : forall e, j_candidates (step cw e rule_line) = j_candidates e /\ j_metadata (step cw e rule_line) = j_metadata e).
    { intro e. unfold step, rule_line. change (u "# ---------------") with (35%N :: u " ---------------"). rewrite (proj1 (head_effect cw _ e)). split; reflexivity. }
    assert (V : forall e, j_candidates e = table -> j_candidates (fold_left (step cw) (map imported_line xs) e) = table /\ j_metadata (fold_left (step cw) (map imported_line xs) e) = j_metadata e).
    { clear - F2 Hincl. induction F2 as [|x w xs ws E F IH]; intros e He; [split; [exact He|reflexivity]|]. cbn [map fold_left].
      destruct (IH (fun y Hy => Hincl y (or_intror Hy)) (step cw e (imported_line x))) as (I1&I2).
      - unfold step, effect. rewrite E. cbn [j_candidates]. rewrite He. apply merge_known, Hincl. left; reflexivity.
      - rewrite I1, I2. split; [reflexivity|]. unfold step, effect. rewrite E. reflexivity. }
    destruct (V (step cw e1 rule_line)) as (V1&V2); [rewrite (proj1 (R e1)); exact Q1|]. rewrite V1, V2, (proj2 (R e1)), Q2. split; reflexivity. }
  destruct Hfold as (Hf1&Hf2). exists m, ws, vs. split; [exact Em|]. split; [rewrite Ec; exact Hf1|]. split; [exact Ej|]. split; [exact F|]. split; [exact Es|].
  split; [exact F1|]. intros Har k Hk. rewrite (Emd Har k Hk), Hf2. reflexivity.
Qed.
