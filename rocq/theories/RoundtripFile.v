(** * RoundtripFile: whole ABIF texts written and read again *)

From Coq Require Import Lia Permutation Sorted.
From Verif Require Import PyBase PyFacts Jabmod Regex RegexFacts WordTable ScoreModel ScoreFacts Spec ParserModel ParserSpec ParserFacts ParserPrefs ParserRender.
From Verif Require Import PairwiseModel PairwiseFacts PropsPairwise ParserFile ParserText ParserLines PropsParser TextFacts UrlText UrlFacts JsonText JsonFacts WriterModel ConsolidateFacts RoundtripFacts.
Local Open Scope Z_scope.

(** ** The lines of the written text *)
Definition meta_l (kj : str * json) : str := u "{" ++ fst kj ++ u ": " ++ json_dumps (snd kj) ++ u "}".
Definition quoted (t : str) : str := if simple t then t else [91%N] ++ t ++ [93%N].
Definition cand_l (tn : str * str) : str := u "=" ++ quoted (fst tn) ++ u ":[" ++ snd tn ++ u "]".
Definition head1 : str := u "#------- metadata -------".
Definition head2 : str := u "#------ candlines ------".
Definition head3 : str := u "#------- votelines ------".
Definition vote_l (v : voteline) : str :=
  z2s (v_qty v) ++ 58%N :: match prefs_text (v_prefs v) with Ok t => t | Err _ => [] end.
Definition file_lines (m : jabmod) : list str :=
  [head1] ++ map meta_l (j_metadata m) ++ [head2] ++ map cand_l (j_candidates m) ++ [head3] ++ map vote_l (j_votelines m).

Lemma unlines_app a b : unlines (a ++ b) = unlines a ++ unlines b.
Proof. apply flat_map_app. Qed.
Lemma unlines_map {A} (f : A -> str) l : unlines (map f l) = concat (map (fun x => f x ++ [10%N]) l).
Proof. induction l as [|x l IH]; [reflexivity|]. cbn [map unlines flat_map concat]. fold (unlines (map f l)). rewrite IH. reflexivity. Qed.

Lemma quote_quoted t : simple t = true \/ boxable t -> abif_token_quote t = Ok (quoted t).
Proof.
  intro H. unfold quoted. destruct (simple t) eqn:E; [apply quote_simple, E|]. apply quote_boxed; [exact E|]. destruct H as [H|(_&_&H)]; [congruence|exact H].
Qed.

Lemma written_text m : writable m -> convert_jabmod_to_abif m = Ok (unlines (file_lines m)).
Proof.
  intros (_&Hv&_&Hc&_). unfold convert_jabmod_to_abif.
  assert (E1 : mapM cand_text (j_candidates m) = Ok (map (fun tn => cand_l tn ++ [10%N]) (j_candidates m))).
  { clear Hv. induction (j_candidates m) as [|[t n] l IH]; [reflexivity|]. cbn [mapM map]. unfold cand_text at 1. cbn [fst snd].
    rewrite quote_quoted by (apply (Hc t n); left; reflexivity). cbn [bind]. rewrite IH by (intros; apply (Hc t0 n0); right; assumption).
    cbn [bind]. unfold cand_l at 2. cbn [fst snd]. rewrite <- !app_assoc. reflexivity. }
  assert (E2 : mapM votelinestr (j_votelines m) = Ok (map (fun v => vote_l v ++ [10%N]) (j_votelines m))).
  { clear Hc E1. induction (j_votelines m) as [|v l IH]; [reflexivity|]. cbn [mapM map]. unfold votelinestr at 1.
    destruct (line_roundtrip v (Hv v (or_introl eq_refl))) as (t&prefs&Et&_). rewrite Et. cbn [bind].
    rewrite IH by (intros; apply Hv; right; assumption). cbn [bind]. unfold vote_l at 2. rewrite Et. rewrite <- !app_assoc. reflexivity. }
  rewrite E1. cbn [bind]. rewrite E2. cbn [bind]. f_equal. unfold file_lines. rewrite !unlines_app, !unlines_map.
  cbn [unlines flat_map]. rewrite !app_nil_r. rewrite <- !app_assoc.
  unfold head1, head2, head3. do 2 f_equal. unfold meta_text, meta_l. f_equal.
  f_equal. apply map_ext. intros [k j]. cbn [fst snd]. rewrite <- !app_assoc. reflexivity.
Qed.

(** ** What each line does *)
Lemma printable_line s : forallb printable s = true -> one_line s.
Proof.
  intros H c Hc. rewrite forallb_forall in H. specialize (H c Hc). unfold printable in H. apply andb_prop in H as [H1 H2]. apply N.leb_le in H1, H2.
  assert (B : (c < 256)%N) by lia.
  pose (P := fun c => negb (is_linebreak c) || (c <? 32)%N || (126 <? c)%N).
  assert (HP : P c = true) by (apply all_bytes; [vm_compute; reflexivity|exact B]). unfold P in HP.
  destruct (is_linebreak c); [|reflexivity]. cbn [negb orb] in HP. apply orb_prop in HP as [HP|HP]; apply N.ltb_lt in HP; lia.
Qed.
Lemma one_line_app a b : one_line a -> one_line b -> one_line (a ++ b).
Proof. intros Ha Hb c Hc. apply in_app_or in Hc as [Hc|Hc]; auto. Qed.
Lemma one_line_meta k j : one_line k -> one_line (meta_l (k, j)).
Proof.
  intro H. unfold meta_l. cbn [fst snd]. repeat apply one_line_app; try exact H; try (apply printable_line; reflexivity).
  apply printable_line, json_dumps_printable.
Qed.

Lemma norm_first cw c r : is_space c = false -> norm cw (c :: r) = c :: r.
Proof. intro H. destruct cw; [|reflexivity]. apply lstrip_first. intros c' r' E. injection E as <- <-. exact H. Qed.

(** What one line does to metadata (other than ballotcount) and candidates. *)
Definition effect (l : str) (m : jabmod) : jabmod :=
  match vote_of l with
  | Some (Ok (_, ks)) => Jabmod (j_metadata m) (merge_cands ks (j_candidates m)) []
  | Some (Err _) => m
  | None => let m' := other_line (before_hash l) m in Jabmod (j_metadata m') (j_candidates m') []
  end.
Definition agree (m m' : jabmod) : Prop :=
  j_candidates m = j_candidates m' /\ forall k, k <> k_ballotcount -> dget k (j_metadata m) = dget k (j_metadata m').

Lemma other_line_agree s m m' : agree m m' -> agree (other_line s m) (other_line s m').
Proof.
  intros (H1&H2). unfold other_line. destruct (re_match CANDLINE_REGEX s) as [[g s']|].
  { unfold process_candline, agree; cbn. rewrite H1. auto. }
  destruct (re_match METADATA_REGEX s) as [[g s']|]; [|split; assumption].
  unfold process_metadata, agree; cbn. split; [exact H1|]. intros k Hk.
  refine (same_but_dset (fun k => k = k_ballotcount) _ _ _ _ _ k Hk). exact H2.
Qed.

Lemma fold_effect cw ls : forall i m m' e, (forall l, In l ls -> one_line l) -> state_fine m -> agree m e ->
  foldM (process_line cw false) (enumerate i ls) m = Ok m' -> agree m' (fold_left (fun m l => effect (norm cw l) m) ls e).
Proof.
  induction ls as [|l ls IH]; intros i m m' e Hl Hm Ha H; cbn [enumerate foldM fold_left] in H |- *.
  - apply ok_inj in H. subst m'. exact Ha.
  - apply bind_ok in H as (m1&E1&H). destruct (process_line_inv _ _ _ _ _ _ (Hl l (or_introl eq_refl)) Hm E1) as (S1&_).
    refine (IH _ m1 m' _ _ S1 _ H); [intros x Hx; apply Hl; right; exact Hx|].
    rewrite process_line_eq, process_comment_off in E1 by (apply Hl; left; reflexivity). cbn [bind] in E1. unfold effect, vote_of.
    destruct (vote_parts (before_hash (norm cw l))) as [[ds rest]|].
    + destruct Hm as (_&_&B&_). rewrite (process_prefline_eq _ _ _ _ _ B) in E1. destruct (py_int ds) as [q|]; [|discriminate]. cbn [bind] in E1 |- *.
      destruct (parse_prefstr rest) as [[ps ks]|]; [|discriminate]. cbn [bind fst snd] in E1 |- *. apply ok_inj in E1. subst m1.
      destruct Ha as (A1&A2). split; cbn [j_candidates j_metadata]; [rewrite A1; reflexivity|]. intros k Hk. rewrite dget_dset_other by exact Hk. auto.
    + apply ok_inj in E1. subst m1. pose proof (other_line_agree (before_hash (norm cw l)) _ _ Ha) as (A1&A2). split; assumption.
Qed.

(** *** Heading lines *)
Lemma head_effect cw s e : effect (norm cw (35%N :: s)) e = Jabmod (j_metadata e) (j_candidates e) [] /\ vote_of (norm cw (35%N :: s)) = None.
Proof. rewrite norm_first by reflexivity. split; reflexivity. Qed.

(** *** Metadata lines *)
Lemma brace_effect cw s : vote_of (norm cw (123%N :: s)) = None /\ forall e, j_candidates (effect (norm cw (123%N :: s)) e) = j_candidates e.
Proof.
  rewrite norm_first by reflexivity.
  assert (V : vote_of (123%N :: s) = None) by reflexivity. split; [exact V|].
  intro e. unfold effect. rewrite V. cbn [j_candidates]. unfold other_line.
  destruct (re_match CANDLINE_REGEX (before_hash (123%N :: s))) as [[g s']|] eqn:E.
  { apply candline_first in E as [r E]. discriminate. }
  destruct (re_match METADATA_REGEX _) as [[g s']|]; reflexivity.
Qed.

(** *** Candidate lines *)
Lemma opt_part p s s' cs cs' : rmat (ROpt p) s cs s' cs' -> exists o, s = o ++ s' /\ (o = [] \/ exists c, o = [c] /\ p c = true).
Proof. intro H. apply rmat_opt_inv in H as (_&[->|(c&->&Hc)]); [exists []; auto|exists [c]; eauto]. Qed.
Lemma opt_no (p : N -> bool) (o : str) x : o = [] \/ (exists c, o = [c] /\ p c = true) -> p x = false -> ~ In x o.
Proof. intros [->|(c&->&Hc)] Hx; [intros []|]. intros [<-|[]]. congruence. Qed.
Lemma all_no p (o : str) x : forallb p o = true -> p x = false -> ~ In x o.
Proof. intros H Hx Hin. rewrite forallb_forall in H. rewrite (H x Hin) in Hx. discriminate. Qed.

Lemma candline_one_bracket s g s' : rmat CANDLINE_REGEX s [] s' g -> ~ In 10%N s ->
  exists a b, s = a ++ b /\ ~ In 93%N a /\ (b = [] \/ b = [93%N]).
Proof.
  intros E Hn. unfold CANDLINE_REGEX, RSeqs in E.
  rewrite rmat_seq_inv in E. destruct E as (s1&g1&E1&E). apply rmat_chr_inv in E1 as (c1&->&Hc1&->). apply N.eqb_eq in Hc1. subst c1.
  rewrite rmat_seq_inv in E. destruct E as (s2&g2&E2&E). apply rmat_star_inv in E2 as (a2&->&Ha2&->).
  rewrite rmat_seq_inv in E. destruct E as (s3&g3&E3&E). apply opt_part in E3 as (o3&->&H3).
  rewrite rmat_seq_inv in E. destruct E as (s4&g4&E4&E). apply rmat_grp_inv in E4 as (x4&g4'&_&_&E4). apply rmat_star_inv in E4 as (a4&->&Ha4&_).
  rewrite rmat_seq_inv in E. destruct E as (s5&g5&E5&E). apply opt_part in E5 as (o5&->&H5).
  rewrite rmat_seq_inv in E. destruct E as (s6&g6&E6&E). apply rmat_chr_inv in E6 as (c6&->&Hc6&->). apply N.eqb_eq in Hc6. subst c6.
  rewrite rmat_seq_inv in E. destruct E as (s7&g7&E7&E). apply opt_part in E7 as (o7&->&H7).
  rewrite rmat_seq_inv in E. destruct E as (s8&g8&E8&E). apply rmat_grp_inv in E8 as (x8&g8'&_&_&E8). apply rmat_star_inv in E8 as (a8&->&Ha8&_).
  rewrite rmat_seq_inv in E. destruct E as (s9&g9&E9&E). apply opt_part in E9 as (o9&->&H9).
  apply rmat_end_inv in E as (_&_&Hend).
  assert (s9 = []) as ->.
  { destruct Hend as [->| ->]; [reflexivity|]. exfalso. apply Hn. right. repeat (apply in_or_app; right). right. repeat (apply in_or_app; right). left; reflexivity. }
  exists (61%N :: a2 ++ o3 ++ a4 ++ o5 ++ 58%N :: o7 ++ a8), o9. split; [|split].
  - rewrite app_nil_r. rewrite <- !app_comm_cons, <- !app_assoc, <- app_comm_cons, <- !app_assoc. reflexivity.
  - intro Hin. destruct Hin as [Hin|Hin]; [discriminate|].
    apply in_app_or in Hin as [Hin|Hin]; [refine (all_no _ _ 93%N Ha2 _ Hin); reflexivity|].
    apply in_app_or in Hin as [Hin|Hin]; [refine (opt_no _ _ 93%N H3 _ Hin); reflexivity|].
    apply in_app_or in Hin as [Hin|Hin]; [refine (all_no _ _ 93%N Ha4 _ Hin); reflexivity|].
    apply in_app_or in Hin as [Hin|Hin]; [refine (opt_no _ _ 93%N H5 _ Hin); reflexivity|].
    destruct Hin as [Hin|Hin]; [discriminate|].
    apply in_app_or in Hin as [Hin|Hin]; [refine (opt_no _ _ 93%N H7 _ Hin); reflexivity|].
    refine (all_no _ _ 93%N Ha8 _ Hin); reflexivity.
  - destruct H9 as [->|(c&->&Hc)]; [auto|]. apply N.eqb_eq in Hc. subst c. auto.
Qed.

Definition cand_ok (tn : str * str) : Prop :=
  (simple (fst tn) = true \/ boxable (fst tn)) /\ (forall c, In c (snd tn) -> is_linebreak c = false /\ c <> 35%N /\ c <> 93%N).

Lemma cand_safe tn : cand_ok tn -> safe (cand_l tn).
Proof.
  intros (Ht&Hn). destruct tn as [t n]. unfold cand_l. cbn [fst snd] in *.
  apply safe_cons; [split; [reflexivity|discriminate]|]. cbn [app]. apply safe_app.
  { unfold quoted. destruct (simple t) eqn:Es.
    - intros c Hc. destruct (safe_char_cases c (simple_all t Es c Hc)) as (_&Hp&_). apply (safe_plain [c]); [cbn; rewrite Hp; reflexivity|left; reflexivity].
    - destruct Ht as [Ht|((_&Ht&_)&_)]; [congruence|]. apply safe_cons; [split; [reflexivity|discriminate]|].
      apply safe_app; [apply safe_plain, Ht|]. apply safe_cons; [split; [reflexivity|discriminate]|apply safe_nil]. }
  apply safe_cons; [split; [reflexivity|discriminate]|]. apply safe_cons; [split; [reflexivity|discriminate]|].
  apply safe_app; [intros c Hc; destruct (Hn c Hc) as (H1&H2&_); split; assumption|]. apply safe_cons; [split; [reflexivity|discriminate]|apply safe_nil].
Qed.

Lemma cand_effect cw tn e : cand_ok tn ->
  vote_of (norm cw (cand_l tn)) = None /\
  j_metadata (effect (norm cw (cand_l tn)) e) = j_metadata e /\
  j_candidates (effect (norm cw (cand_l tn)) e) = if simple (fst tn) then dset (fst tn) (snd tn) (j_candidates e) else j_candidates e.
Proof.
  intro H. pose proof (cand_safe tn H) as Hs.
  assert (E : exists r, cand_l tn = 61%N :: r) by (eexists; reflexivity). destruct E as [r E].
  assert (Hnorm : norm cw (cand_l tn) = cand_l tn) by (rewrite E; apply norm_first; reflexivity). rewrite Hnorm.
  assert (Hb : before_hash (cand_l tn) = cand_l tn) by (apply before_hash_id, safe_no_hash, Hs).
  assert (V : vote_of (cand_l tn) = None) by (unfold vote_of; rewrite Hb, E; reflexivity).
  split; [exact V|]. unfold effect. rewrite V, Hb. cbn [j_metadata j_candidates]. unfold other_line. destruct H as (Ht&Hn). destruct tn as [t n]. cbn [fst snd] in *.
  destruct (simple t) eqn:Es.
  - assert (El : cand_l (t, n) = cand_line true t n) by (unfold cand_l, cand_line, quoted; cbn [fst snd]; rewrite Es; reflexivity).
    rewrite El, candline_match.
    + split; reflexivity.
    + pose proof (simple_all t Es) as Ha. split; [|split].
      * apply forallb_forall. intros c Hc. destruct (safe_char_cases c (Ha c Hc)) as (_&_&_&_&_&_&->&_). reflexivity.
      * destruct t as [|c t]; [reflexivity|]. apply (safe_char_cases c (Ha c (or_introl eq_refl))).
      * destruct t as [|c t]; [reflexivity|]. apply (safe_char_cases c (Ha c (or_introl eq_refl))).
    + split; [|discriminate]. apply forallb_forall. intros c Hc. destruct (Hn c Hc) as (_&_&H93). cbn [existsb]. rewrite orb_false_r.
      apply negb_true_iff, N.eqb_neq. exact H93.
  - assert (En : re_match CANDLINE_REGEX (cand_l (t, n)) = None).
    { apply re_match_none. intros s' g M. apply candline_one_bracket in M as (a&b&Eab&Ha&Hb').
      2:{ apply one_line_no_nl, safe_one_line, Hs. }
      assert (El : cand_l (t, n) = (61%N :: 91%N :: t) ++ 93%N :: (58%N :: 91%N :: n) ++ [93%N]).
      { unfold cand_l, quoted. cbn [fst snd]. rewrite Es. cbn. rewrite <- !app_assoc. reflexivity. }
      rewrite El in Eab. destruct Hb' as [->| ->].
      - apply Ha. rewrite app_nil_r in Eab. rewrite <- Eab. apply in_or_app. right; left; reflexivity.
      - rewrite app_comm_cons, app_assoc in Eab. apply app_inj_tail in Eab as [<- _]. apply Ha. apply in_or_app. right; left; reflexivity. }
    rewrite En. destruct (re_match METADATA_REGEX (cand_l (t, n))) as [[g s']|] eqn:Em; [|split; reflexivity].
    apply metadata_first in Em as [r' Em]. discriminate.
Qed.

(** *** Votelines *)
Lemma vote_effect cw v : writable_line v ->
  exists w, one_line (vote_l v) /\ vote_of (norm cw (vote_l v)) = Some (Ok (w, dkeys (v_prefs w))) /\
    same_votes v w /\ (forall c, rating_on w c = rating_on v c) /\ Permutation (dkeys (v_prefs w)) (dkeys (v_prefs v)) /\
    (forall c, lists w c = true -> exists r, rank_on w c = Some r /\ 1 <= r <= Z.of_nat (length (v_prefs w))) /\
    v_comment w = None /\ v_voterid w = None /\ line_rated w = true.
Proof.
  intro Hv. destruct (line_roundtrip v Hv) as (t&prefs&Et&Hs&Hp&HP&Hw). destruct Hv as (Hq&_).
  destruct (z2s_numeral (v_qty v) Hq) as [Hne Hd].
  assert (Hl : vote_l v = z2s (v_qty v) ++ 58%N :: t) by (unfold vote_l; rewrite Et; reflexivity).
  assert (Hsf : safe (vote_l v)).
  { rewrite Hl. apply safe_app; [apply safe_digits, Hd|]. apply safe_cons; [split; [reflexivity|discriminate]|exact Hs]. }
  assert (Hnorm : norm cw (vote_l v) = vote_l v).
  { rewrite Hl. destruct (z2s (v_qty v)) as [|c r]; [congruence|]. apply norm_first. cbn [forallb] in Hd. apply andb_prop in Hd as [Hc _]. apply digit_not_space, Hc. }
  exists (Voteline (v_qty v) prefs None (Some (rstrip t)) None None). split; [apply safe_one_line, Hsf|]. split.
  { rewrite Hnorm. unfold vote_of. rewrite before_hash_id by (apply safe_no_hash, Hsf).
    rewrite (proj2 (vote_parts_spec (vote_l v) (z2s (v_qty v)) t)) by (split; [exact Hl|split; assumption]).
    rewrite comment_of_none by (apply safe_no_hash, Hsf). rewrite py_int_z2s. cbn [bind]. rewrite Hp. reflexivity. }
  destruct (Hw (Voteline (v_qty v) prefs None (Some (rstrip t)) None None) eq_refl) as (H1&H2&H3&H4&H5).
  split; [split; [reflexivity|split; assumption]|]. split; [exact H3|]. split; [exact HP|]. split; [exact H4|]. split; [reflexivity|]. split; [reflexivity|exact H5].
Qed.

(** ** The whole file *)
Lemma votes_of_app a b : votes_of (a ++ b) = votes_of a ++ votes_of b.
Proof. induction a as [|l a IH]; [reflexivity|]. cbn [app votes_of]. destruct (vote_of l); [cbn [app]; rewrite IH; reflexivity|exact IH]. Qed.
Lemma votes_of_none ls : (forall l, In l ls -> vote_of l = None) -> votes_of ls = [].
Proof.
  induction ls as [|l ls IH]; intro H; [reflexivity|]. cbn [votes_of]. rewrite (H l (or_introl eq_refl)). apply IH. intros x Hx; apply H; right; exact Hx.
Qed.

Definition read_as (v w : voteline) : Prop :=
  same_votes v w /\ (forall c, rating_on w c = rating_on v c) /\ Permutation (dkeys (v_prefs w)) (dkeys (v_prefs v)) /\
  (forall c, lists w c = true -> exists r, rank_on w c = Some r /\ 1 <= r <= Z.of_nat (length (v_prefs w))) /\
  v_comment w = None /\ v_voterid w = None /\ line_rated w = true.

Lemma file_one_line m : writable m -> forall l, In l (file_lines m) -> one_line l.
Proof.
  intros (_&Hv&_&Hc&Hm) l Hl. unfold file_lines in Hl. repeat (apply in_app_or in Hl as [Hl|Hl]).
  - destruct Hl as [<-|[]]. apply printable_line. reflexivity.
  - apply in_map_iff in Hl as ([k j]&<-&Hin). apply one_line_meta, (Hm k j Hin).
  - destruct Hl as [<-|[]]. apply printable_line. reflexivity.
  - apply in_map_iff in Hl as ([t n]&<-&Hin). apply safe_one_line, cand_safe. exact (Hc t n Hin).
  - destruct Hl as [<-|[]]. apply printable_line. reflexivity.
  - apply in_map_iff in Hl as (v&<-&Hin). destruct (vote_effect false v (Hv v Hin)) as (w&H&_). exact H.
Qed.

Lemma file_votes m cw : writable m ->
  exists ws, Forall2 read_as (j_votelines m) ws /\
    votes_of (map (norm cw) (file_lines m)) = map Ok (map (fun w => (w, dkeys (v_prefs w))) ws) /\
    Forall2 (fun v w => vote_of (norm cw (vote_l v)) = Some (Ok (w, dkeys (v_prefs w)))) (j_votelines m) ws.
Proof.
  intros (_&Hv&_&Hc&Hm).
  assert (G : exists ws, Forall2 read_as (j_votelines m) ws /\ Forall2 (fun v w => vote_of (norm cw (vote_l v)) = Some (Ok (w, dkeys (v_prefs w)))) (j_votelines m) ws).
  { clear Hc Hm. induction (j_votelines m) as [|v vs IH]; [exists []; split; constructor|].
    destruct IH as (ws&F1&F2); [intros x Hx; apply Hv; right; exact Hx|].
    destruct (vote_effect cw v (Hv v (or_introl eq_refl))) as (w&_&E&H). exists (w :: ws). split; constructor; assumption. }
  destruct G as (ws&F1&F2). exists ws. split; [exact F1|]. split; [|exact F2].
  unfold file_lines. rewrite !map_app, !votes_of_app.
  rewrite (votes_of_none (map (norm cw) [head1])), (votes_of_none (map (norm cw) [head2])), (votes_of_none (map (norm cw) [head3])).
  2-4: intros l [<-|[]]; apply (head_effect cw _ emptyish).
  rewrite (votes_of_none (map (norm cw) (map meta_l _))).
  2:{ intros l Hl. apply in_map_iff in Hl as (x&<-&Hx). apply in_map_iff in Hx as ([k j]&<-&_). apply brace_effect. }
  rewrite (votes_of_none (map (norm cw) (map cand_l _))).
  2:{ intros l Hl. apply in_map_iff in Hl as (x&<-&Hx). apply in_map_iff in Hx as ([t n]&<-&Hin). apply (cand_effect cw (t, n) emptyish). exact (Hc t n Hin). }
  cbn [app]. clear -F2. induction F2 as [|v w vs ws E F IH]; [reflexivity|]. cbn [map votes_of]. rewrite E, IH. reflexivity.
Qed.

Definition step (cw : bool) (m : jabmod) (l : str) : jabmod := effect (norm cw l) m.

Lemma metas_cands cw ms : forall e, j_candidates (fold_left (step cw) (map meta_l ms) e) = j_candidates e.
Proof.
  induction ms as [|[k j] ms IH]; intro e; [reflexivity|]. cbn [map fold_left]. rewrite IH. unfold step. apply brace_effect.
Qed.
Lemma cands_cands cw cs : (forall tn, In tn cs -> cand_ok tn) -> forall e,
  j_candidates (fold_left (step cw) (map cand_l cs) e) = fold_left (fun t tn => dset (fst tn) (snd tn) t) (filter (fun tn => simple (fst tn)) cs) (j_candidates e) /\
  j_metadata (fold_left (step cw) (map cand_l cs) e) = j_metadata e.
Proof.
  induction cs as [|tn cs IH]; intros H e; [split; reflexivity|]. cbn [map fold_left].
  destruct (IH (fun x Hx => H x (or_intror Hx)) (step cw e (cand_l tn))) as (I1&I2). rewrite I1, I2. unfold step.
  destruct (cand_effect cw tn e (H tn (or_introl eq_refl))) as (_&->&->). split; [|reflexivity]. cbn [filter]. destruct (simple (fst tn)); reflexivity.
Qed.
Lemma votes_cands cw vs : forall ws, Forall2 (fun v w => vote_of (norm cw (vote_l v)) = Some (Ok (w, dkeys (v_prefs w)))) vs ws -> forall e,
  j_candidates (fold_left (step cw) (map vote_l vs) e) = merge_cands (flat_map (fun w => dkeys (v_prefs w)) ws) (j_candidates e) /\
  j_metadata (fold_left (step cw) (map vote_l vs) e) = j_metadata e.
Proof.
  induction vs as [|v vs IH]; intros ws F e; inversion F as [|? w ? ws' E F']; subst; [split; reflexivity|]. cbn [map fold_left flat_map].
  destruct (IH ws' F' (step cw e (vote_l v))) as (I1&I2). rewrite I1, I2. unfold step, effect. rewrite E. cbn [j_candidates j_metadata].
  split; [|reflexivity]. unfold merge_cands. rewrite fold_left_app. reflexivity.
Qed.

Lemma fold_dset_fresh (l : list (str * str)) : forall t, NoDup (map fst t ++ map fst l) ->
  fold_left (fun t tn => dset (fst tn) (snd tn) t) l t = t ++ l.
Proof.
  induction l as [|[k x] l IH]; intros t H; cbn [fold_left fst snd]; [rewrite app_nil_r; reflexivity|].
  rewrite dset_new. 2:{ intro Hin. cbn [map fst] in H. exact (NoDup_app_disjoint _ _ H k Hin (or_introl eq_refl)). }
  rewrite IH; [rewrite <- app_assoc; reflexivity|]. rewrite map_app. cbn [map fst]. rewrite <- app_assoc. exact H.
Qed.

Lemma merge_new ks : forall (t : dict str) c, dget c (merge_cands ks t) = match dget c t with Some n => Some n | None => if memb c ks then Some c else None end.
Proof.
  induction ks as [|k ks IH]; intros t c; [cbn; destruct (dget c t); reflexivity|].
  change (merge_cands (k :: ks) t) with (merge_cands ks (if dmem k t then t else dset k k t)). rewrite IH. unfold dmem. cbn [memb existsb].
  destruct (dget k t) as [x|] eqn:Ek.
  - destruct (dget c t) as [y|] eqn:Ec; [reflexivity|]. destruct (str_eqb_spec c k) as [->|n]; [congruence|]. reflexivity.
  - destruct (str_eqb_spec c k) as [->|n]; [rewrite dget_dset_same, Ek; reflexivity|]. rewrite dget_dset_other by exact n. reflexivity.
Qed.

(** Everything about the text read back. *)
Lemma file_roundtrip m cw ar : writable m ->
  exists text m' ws m0,
    convert_jabmod_to_abif m = Ok text /\ convert_abif_to_jabmod text cw ar false = Ok m' /\
    Forall2 read_as (j_votelines m) ws /\
    (exists ls, j_votelines m' = sort_desc v_qty ls /\ Forall2 same_ballot ws ls /\ (ar = false -> ls = ws)) /\
    j_candidates m' = merge_cands (flat_map (fun w => dkeys (v_prefs w)) ws) (filter (fun tn => simple (fst tn)) (j_candidates m)) /\
    (ar = false -> forall k, k <> k_ballotcount -> dget k (j_metadata m') = dget k (j_metadata m0)) /\
    m0 = fold_left (step cw) (map meta_l (j_metadata m)) emptyish.
Proof.
  intro H. pose proof (written_text m H) as Ew. pose proof (file_one_line m H) as Hol. destruct (file_votes m cw H) as (ws&F1&Ev&F2).
  assert (Hsp : splitlines (unlines (file_lines m)) = file_lines m) by (apply splitlines_unlines; exact Hol).
  assert (Hne : unlines (file_lines m) <> []) by discriminate.
  assert (Hok : forall l r, In l (file_lines m) -> vote_of (norm cw l) = Some r -> exists x, r = Ok x).
  { assert (G : forall ls xs, votes_of ls = map Ok xs -> forall l r, In l ls -> vote_of l = Some r -> exists x : voteline * list str, r = Ok x).
    { induction ls as [|y ls IH]; intros xs E l r Hin Er; [destruct Hin|]. cbn [votes_of] in E. destruct Hin as [<-|Hin].
      - rewrite Er in E. destruct xs as [|x xs]; [discriminate|]. injection E as -> _. eauto.
      - destruct (vote_of y); [destruct xs as [|x xs]; [discriminate|]; injection E as _ E; exact (IH xs E l r Hin Er)|exact (IH xs E l r Hin Er)]. }
    intros l r Hin Er. refine (G _ _ Ev (norm cw l) r _ Er). apply in_map, Hin. }
  destruct (fold_lines_total cw (file_lines m) 0 emptyish Hol emptyish_fine Hok) as [m1 E1].
  assert (Hconv : exists m', convert_abif_to_jabmod (unlines (file_lines m)) cw ar false = Ok m').
  { rewrite convert_finish by exact Hne. rewrite Hsp, E1. cbn [bind].
    rewrite <- Hsp in E1. destruct (convert_state _ _ _ _ E1) as (Hf&vs&Ev'&Ej&_). rewrite Hsp, Ev in Ev'.
    assert (vs = map (fun w => (w, dkeys (v_prefs w))) ws).
    { clear -Ev'. revert vs Ev'. generalize (map (fun w => (w, dkeys (v_prefs w))) ws) as xs. induction xs as [|x xs IH]; intros [|y vs] E; try discriminate; [reflexivity|].
      injection E as -> E. f_equal. apply IH, E. }
    subst vs. unfold finish. destruct (j_votelines m1) as [|v0 vl0] eqn:Evl.
    - exfalso. destruct H as (Hnv&_). destruct F1; [congruence|discriminate].
    - destruct ar; [|cbn [bind]; eauto]. destruct (add_ratings_fine m1 Hf) as (m2&E2&_). rewrite E2. cbn. eauto. }
  destruct Hconv as [m' Hconv].
  exists (unlines (file_lines m)), m', ws, (fold_left (step cw) (map meta_l (j_metadata m)) emptyish).
  split; [exact Ew|]. split; [exact Hconv|]. split; [exact F1|].
  destruct (convert_votes _ _ _ _ _ Hconv) as (m0'&vs&ls&Hf&Ej&_&Ev'&El&F&Els&Ec&_).
  assert (vs = map (fun w => (w, dkeys (v_prefs w))) ws).
  { rewrite Hsp, Ev in Ev'. clear -Ev'. revert vs Ev'. generalize (map (fun w => (w, dkeys (v_prefs w))) ws) as xs. induction xs as [|x xs IH]; intros [|y vs] E; try discriminate; [reflexivity|].
    injection E as -> E. f_equal. apply IH, E. }
  subst vs. rewrite map_map in F, Els. cbn [fst] in F, Els. rewrite map_id in F, Els.
  split; [exists ls; auto|].
  pose proof (fold_effect cw (file_lines m) 0 emptyish m1 emptyish Hol emptyish_fine (conj eq_refl (fun k Hk => eq_refl)) E1) as (A1&A2).
  change (fun (m : jabmod) (l : str) => effect (norm cw l) m) with (step cw) in A1, A2.
  unfold file_lines in A1, A2. rewrite !fold_left_app in A1, A2. cbn [fold_left] in A1, A2.
  assert (Hhead : forall s e, j_candidates (step cw e (35%N :: s)) = j_candidates e /\ j_metadata (step cw e (35%N :: s)) = j_metadata e).
  { intros s e. unfold step. rewrite (proj1 (head_effect cw s e)). split; reflexivity. }
  destruct H as (_&_&Hnd&Hc&_).
  destruct (votes_cands cw _ _ F2 (step cw (fold_left (step cw) (map cand_l (j_candidates m)) (step cw (fold_left (step cw) (map meta_l (j_metadata m)) (step cw emptyish head1)) head2)) head3)) as (B1&B2).
  rewrite B1 in A1. 
  assert (Hcc : forall tn, In tn (j_candidates m) -> cand_ok tn) by (intros [t n] Hin; exact (Hc t n Hin)).
  destruct (cands_cands cw _ Hcc (step cw (fold_left (step cw) (map meta_l (j_metadata m)) (step cw emptyish head1)) head2)) as (C1&C2).
  unfold head1, head2, head3, u in *. cbn [map list_ascii_of_string] in *.
  rewrite (proj1 (Hhead _ _)), C1, (proj1 (Hhead _ _)), metas_cands, (proj1 (Hhead _ _)) in A1. cbn [j_candidates emptyish] in A1.
  rewrite fold_dset_fresh in A1. 2:{ cbn [map app]. clear -Hnd. unfold cands in Hnd. induction (j_candidates m) as [|[t n] l IH]; [constructor|].
    cbn [map fst] in Hnd. inversion Hnd as [|? ? Hni Hn']; subst. cbn [filter fst]. destruct (simple t); [|exact (IH Hn')]. cbn [map fst]. constructor; [|exact (IH Hn')].
    intro Hin. apply Hni. apply in_map_iff in Hin as (x&E&Hx). apply filter_In in Hx as (Hx&_). apply in_map_iff. exists x. auto. }
  cbn [app] in A1.
  rewrite convert_finish, Hsp, E1 in Hconv by exact Hne. cbn [bind] in Hconv. unfold finish in Hconv.
  assert (Hcm : j_candidates m' = j_candidates m1 /\ (ar = false -> j_metadata m' = j_metadata m1)).
  { destruct (j_votelines m1); [discriminate|]. destruct ar.
    - rewrite <- Hsp in E1. destruct (convert_state _ _ _ _ E1) as (Hf1&_). destruct (add_ratings_fine m1 Hf1) as (m2&E2&C&_). rewrite E2 in Hconv.
      cbn [bind] in Hconv. apply ok_inj in Hconv. subst m'. split; [exact C|discriminate].
    - cbn [bind] in Hconv. apply ok_inj in Hconv. subst m'. split; reflexivity. }
  destruct Hcm as (Hcm&Hmm). split; [rewrite Hcm; exact A1|]. split; [|reflexivity].
  intros Har k Hk. rewrite (Hmm Har), (A2 k Hk), B2. rewrite (proj2 (Hhead _ _)), C2, (proj2 (Hhead _ _)).
  do 3 f_equal. unfold step. rewrite (proj1 (head_effect cw _ emptyish)). reflexivity.
Qed.

(** ** Metadata *)
(** A metadata entry the reader understands as it is written: a key of word characters and spaces and a
    text of ASCII word characters, spaces and , . ( ) - ? : ' and slash; or the ballot count. *)
Definition plain_entry (kj : str * json) : Prop :=
  (fst kj = k_ballotcount /\ exists n, snd kj = JInt n) \/
  (key_ok false (fst kj) /\ one_line (fst kj) /\ ~ In 35%N (fst kj) /\ fst kj <> k_ballotcount /\ fst kj <> k_ballotcount_abif /\
   exists s, snd kj = JStr s /\ s <> [] /\ forallb (fun c => value_char c && printable c) s = true).

Lemma mixed_match key pad value : key_ok false key -> value <> [] -> forallb value_char value = true -> forallb is_space pad = true ->
  re_match METADATA_REGEX ([123%N] ++ key ++ [58%N] ++ pad ++ [34%N] ++ value ++ [34%N] ++ [125%N]) = Some ([(2%nat, value); (1%nat, key)], []).
Proof.
  intros (K1&K2&K3) V1 V2 Hp. unfold re_match, METADATA_REGEX, RSeqs. cbn [app]. specialize (K3 eq_refl).
  assert (SK : forall rest, stops is_space (key ++ rest) /\ stops (one_of quotes) (key ++ rest)).
  { intro rest. destruct key as [|c key]; [congruence|]. cbn in K3, K2 |- *. apply andb_prop in K2 as [K2 _].
    split; [exact K3|apply meta_key_quote; exact K2]. }
  apply g_seq, g_lit, g_seq, g_star0; [apply SK|]. apply g_seq, g_opt_no; [apply SK|].
  apply g_seq, g_grp_plus; [exact K1|exact K2|reflexivity|].
  apply g_seq, g_star0; [reflexivity|]. apply g_seq, g_opt_no; [reflexivity|]. apply g_seq, g_star0; [reflexivity|].
  apply g_seq, g_lit. apply g_seq, g_star; [exact Hp|reflexivity|]. apply g_seq, g_opt_yes; [reflexivity|].
  apply g_seq, g_grp_plus; [exact V1|exact V2|reflexivity|].
  apply g_seq, g_star0; [reflexivity|]. apply g_seq, g_opt_yes; [reflexivity|]. apply g_seq, g_star0; [reflexivity|].
  apply g_seq, g_lit, g_end. reflexivity.
Qed.

Lemma json_plain s : forallb (fun c => value_char c && printable c) s = true -> json_dumps (JStr s) = [34%N] ++ s ++ [34%N].
Proof.
  intro H. cbn [json_dumps]. unfold json_str. do 2 f_equal. induction s as [|c s IH]; [reflexivity|].
  cbn [forallb] in H. apply andb_prop in H as [Hc H]. cbn [flat_map]. rewrite (IH H). f_equal.
  apply andb_prop in Hc as [H1 H2]. unfold json_char. unfold printable in H2. rewrite H2. apply andb_prop in H2 as [H2 H3]. apply N.leb_le in H2.
  destruct (N.eqb_spec c 34) as [->|_]; [vm_compute in H1; discriminate|]. destruct (N.eqb_spec c 92) as [->|_]; [vm_compute in H1; discriminate|].
  destruct (N.eqb_spec c 10) as [->|_]; [lia|]. destruct (N.eqb_spec c 13) as [->|_]; [lia|]. destruct (N.eqb_spec c 9) as [->|_]; [lia|].
  destruct (N.eqb_spec c 12) as [->|_]; [lia|]. destruct (N.eqb_spec c 8) as [->|_]; [lia|]. reflexivity.
Qed.

Lemma plain_effect cw kj e : plain_entry kj -> 
  j_metadata (step cw e (meta_l kj)) =
  match snd kj with
  | JStr s => dset (fst kj) (JStr s) (j_metadata e)
  | j => dset k_ballotcount_abif (JStr (json_dumps j)) (j_metadata e)
  end.
Proof.
  intro H. unfold step. destruct kj as [k j]. cbn [fst snd] in *. change (meta_l (k, j)) with (123%N :: (k ++ u ": " ++ json_dumps j ++ u "}")).
  rewrite norm_first by reflexivity. unfold effect. assert (V : vote_of (123%N :: k ++ u ": " ++ json_dumps j ++ u "}") = None) by reflexivity.
  rewrite V. cbn [j_metadata]. unfold other_line.
  destruct (re_match CANDLINE_REGEX (before_hash (123%N :: k ++ u ": " ++ json_dumps j ++ u "}"))) as [[g s']|] eqn:E.
  { apply candline_first in E as [r E]. discriminate. } clear E V.
  unfold plain_entry in H. cbn [fst snd] in H. destruct H as [(->&n&->)|(Hk&Hl&Hh&Hn1&Hn2&s&->&Hs&Hv)]; cbn [fst snd] in *.
  - assert (E : 123%N :: k_ballotcount ++ u ": " ++ json_dumps (JInt n) ++ u "}" = meta_line false k_ballotcount [32%N] (json_dumps (JInt n))) by reflexivity.
    rewrite E. cbn [json_dumps].
    assert (Hc : forall c, In c (z2s n) -> value_char c = true /\ c <> 35%N /\ is_space c = false /\ c <> 39%N).
    { intros c Hc. pose proof (z2s_chars n) as Hz. rewrite forallb_forall in Hz. specialize (Hz c Hc).
      assert (B : (c < 256)%N) by (unfold int_char in Hz; unfold is_digit in Hz; apply orb_prop in Hz as [Hz|Hz]; [apply andb_prop in Hz as [A1 A2]; apply N.leb_le in A1, A2; lia|apply N.eqb_eq in Hz; lia]).
      pose (P := fun c => negb (int_char c) || (value_char c && negb (N.eqb c 35) && negb (is_space c) && negb (N.eqb c 39))).
      assert (HP : P c = true) by (apply all_bytes; [vm_compute; reflexivity|exact B]). unfold P in HP. rewrite Hz in HP. cbn [negb orb] in HP.
      apply andb_prop in HP as [HP H4]. apply andb_prop in HP as [HP H3]. apply andb_prop in HP as [H1 H2].
      apply negb_true_iff in H2, H3, H4. apply N.eqb_neq in H2, H4. auto. }
    rewrite before_hash_id.
    2:{ unfold meta_line. intro Hin. cbn [app] in Hin. destruct Hin as [Hin|Hin]; [discriminate|].
        apply in_app_or in Hin as [Hin|Hin]; [cbn in Hin; decompose [or] Hin; try discriminate; contradiction|].
        destruct Hin as [Hin|[Hin|Hin]]; try discriminate. apply in_app_or in Hin as [Hin|Hin]; [destruct (Hc _ Hin) as (_&F&_); congruence|].
        destruct Hin as [Hin|[]]; discriminate. }
    rewrite metadata_match; [reflexivity| | |reflexivity].
    + split; [discriminate|]. split; [vm_compute; reflexivity|]. intros _. reflexivity.
    + split; [apply z2s_ne|]. split; [apply forallb_forall; intros c Hin; apply (Hc c Hin)|]. intros _.
      destruct (z2s n) as [|c r]; [split; reflexivity|]. destruct (Hc c (or_introl eq_refl)) as (_&_&H3&H4). cbn [starts]. split; [exact H3|].
      apply N.eqb_neq. congruence.
  - rewrite (json_plain s Hv).
    assert (E : 123%N :: k ++ u ": " ++ ([34%N] ++ s ++ [34%N]) ++ u "}" = [123%N] ++ k ++ [58%N] ++ [32%N] ++ [34%N] ++ s ++ [34%N] ++ [125%N]).
    { cbn [app]. do 2 f_equal. unfold u. cbn [list_ascii_of_string map app]. rewrite <- app_assoc. reflexivity. }
    rewrite E.
    assert (Hv1 : forallb value_char s = true) by (apply forallb_forall; intros c Hc; rewrite forallb_forall in Hv; specialize (Hv c Hc); apply andb_prop in Hv as [Hv _]; exact Hv).
    rewrite before_hash_id.
    2:{ intro Hin. cbn [app] in Hin. destruct Hin as [Hin|Hin]; [discriminate|]. apply in_app_or in Hin as [Hin|Hin]; [exact (Hh Hin)|].
        destruct Hin as [Hin|[Hin|[Hin|Hin]]]; try discriminate. apply in_app_or in Hin as [Hin|Hin].
        - rewrite forallb_forall in Hv1. specialize (Hv1 _ Hin). vm_compute in Hv1. discriminate.
        - destruct Hin as [Hin|[Hin|[]]]; discriminate. }
    rewrite mixed_match by (assumption || reflexivity). unfold process_metadata. cbn [j_metadata group].
    cbn [Nat.eqb].
    destruct (str_eqb_spec k k_ballotcount) as [->|_]; [congruence|]. reflexivity.
Qed.

Lemma plain_fold cw ms : forall e, (forall kj, In kj ms -> plain_entry kj) -> NoDup (map fst ms) ->
  forall k, k <> k_ballotcount -> k <> k_ballotcount_abif ->
  dget k (j_metadata (fold_left (step cw) (map meta_l ms) e)) = match dget k ms with Some j => Some j | None => dget k (j_metadata e) end.
Proof.
  induction ms as [|[k0 j0] ms IH]; intros e H Hn k K1 K2; [reflexivity|]. cbn [map fold_left].
  cbn [map fst] in Hn. inversion Hn as [|? ? Hni Hn']; subst.
  rewrite IH by (auto; intros kj Hkj; apply H; right; exact Hkj). rewrite plain_effect by (apply H; left; reflexivity).
  cbn [fst snd dget]. pose proof (H _ (or_introl eq_refl)) as P. unfold plain_entry in P. cbn [fst snd] in P.
  destruct (str_eqb_spec k k0) as [->|n].
  - rewrite (proj2 (dget_None k0 ms) Hni). destruct P as [(->&_)|(_&_&_&_&_&s&->&_)]; [congruence|]. rewrite dget_dset_same. reflexivity.
  - destruct (dget k ms); [reflexivity|]. destruct P as [(->&z&->)|(_&_&_&_&_&s&->&_)]; rewrite dget_dset_other by assumption; reflexivity.
Qed.
