(** * RoundtripParsed: every model the reader makes is fit for writing, given plain tokens *)

From Coq Require Import Lia Permutation Sorted.
From Verif Require Import PyBase PyFacts Jabmod Regex RegexFacts WordTable ScoreModel ScoreFacts Spec ParserModel ParserSpec ParserFacts ParserPrefs ParserRender.
From Verif Require Import PairwiseModel PairwiseFacts PropsPairwise ParserFile ParserText ParserLines PropsParser TextFacts UrlText UrlFacts JsonText JsonFacts WriterModel ConsolidateFacts RoundtripFacts RoundtripFile.
Local Open Scope Z_scope.
Local Open Scope res_scope.

Definition fine_char (c : N) : Prop := is_linebreak c = false /\ c <> 35%N /\ c <> 93%N.
Definition table_fine (m : jabmod) : Prop :=
  (forall t n, In (t, n) (j_candidates m) -> n = t \/ (forall c, In c n -> fine_char c)) /\
  (forall k j, In (k, j) (j_metadata m) -> one_line k).

Lemma one_lineb' (s : str) : forallb (fun c => negb (is_linebreak c)) s = true -> one_line s.
Proof. intros H c Hc. rewrite forallb_forall in H. apply negb_true_iff, H, Hc. Qed.

Lemma candline_name s g s' : rmat CANDLINE_REGEX s [] s' g -> forall c, In c (group 2 g) -> In c s /\ c <> 93%N.
Proof.
  intros E. unfold CANDLINE_REGEX, RSeqs in E.
  rewrite rmat_seq_inv in E. destruct E as (s1&g1&E1&E). apply rmat_chr_inv in E1 as (c1&->&Hc1&->).
  rewrite rmat_seq_inv in E. destruct E as (s2&g2&E2&E). apply rmat_star_inv in E2 as (a2&->&Ha2&->).
  rewrite rmat_seq_inv in E. destruct E as (s3&g3&E3&E). apply opt_part in E3 as (o3&->&H3).
  rewrite rmat_seq_inv in E. destruct E as (s4&g4&E4&E). apply rmat_grp_inv in E4 as (x4&g4'&->&_&E4). apply rmat_star_inv in E4 as (a4&->&Ha4&_).
  rewrite rmat_seq_inv in E. destruct E as (s5&g5&E5&E). apply opt_part in E5 as (o5&->&H5).
  rewrite rmat_seq_inv in E. destruct E as (s6&g6&E6&E). apply rmat_chr_inv in E6 as (c6&->&Hc6&->).
  rewrite rmat_seq_inv in E. destruct E as (s7&g7&E7&E). apply opt_part in E7 as (o7&->&H7).
  rewrite rmat_seq_inv in E. destruct E as (s8&g8&E8&E). apply rmat_grp_inv in E8 as (x8&g8'&Ex8&Eg8&E8). apply rmat_star_inv in E8 as (a8&Ea8&Ha8&_).
  rewrite rmat_seq_inv in E. destruct E as (s9&g9&E9&E). apply rmat_opt_inv in E9 as (->&E9).
  apply rmat_end_inv in E as (_&->&_). subst s7. apply app_inv_tail in Ea8. subst x8 g8.
  intros c Hc. cbn in Hc. split.
  - right. do 3 (apply in_or_app; right). apply in_or_app; right. right. apply in_or_app; right. apply in_or_app; left. exact Hc.
  - rewrite forallb_forall in Ha8. specialize (Ha8 c Hc). apply none_of_In in Ha8. intros ->. apply Ha8. left; reflexivity.
Qed.

Lemma metadata_key s g s' : rmat METADATA_REGEX s [] s' g -> forall c, In c (group 1 g) -> In c s.
Proof.
  intros E. unfold METADATA_REGEX, RSeqs in E.
  rewrite rmat_seq_inv in E. destruct E as (s1&g1&E1&E). apply rmat_chr_inv in E1 as (c1&->&Hc1&->).
  rewrite rmat_seq_inv in E. destruct E as (s2&g2&E2&E). apply rmat_star_inv in E2 as (a2&->&Ha2&->).
  rewrite rmat_seq_inv in E. destruct E as (s3&g3&E3&E). apply opt_part in E3 as (o3&->&H3).
  rewrite rmat_seq_inv in E. destruct E as (s4&g4&E4&E). apply rmat_grp_inv in E4 as (x4&g4'&->&->&_).
  rewrite rmat_seq_inv in E. destruct E as (s5&g5&E5&E). apply rmat_star_inv in E5 as (a5&->&_&->).
  rewrite rmat_seq_inv in E. destruct E as (s6&g6&E6&E). apply rmat_opt_inv in E6 as (->&_).
  rewrite rmat_seq_inv in E. destruct E as (s7&g7&E7&E). apply rmat_star_inv in E7 as (a7&->&_&->).
  rewrite rmat_seq_inv in E. destruct E as (s8&g8&E8&E). apply rmat_chr_inv in E8 as (c8&->&_&->).
  rewrite rmat_seq_inv in E. destruct E as (s9&g9&E9&E). apply rmat_star_inv in E9 as (a9&->&_&->).
  rewrite rmat_seq_inv in E. destruct E as (s10&g10&E10&E). apply rmat_opt_inv in E10 as (->&_).
  rewrite rmat_seq_inv in E. destruct E as (s11&g11&E11&E). apply rmat_grp_inv in E11 as (x11&g11'&_&->&E11).
  apply rmat_plus_inv in E11 as (y11&_&_&_&->).
  rewrite rmat_seq_inv in E. destruct E as (s12&g12&E12&E). apply rmat_star_inv in E12 as (a12&->&_&->).
  rewrite rmat_seq_inv in E. destruct E as (s13&g13&E13&E). apply rmat_opt_inv in E13 as (->&_).
  rewrite rmat_seq_inv in E. destruct E as (s14&g14&E14&E). apply rmat_star_inv in E14 as (a14&->&_&->).
  rewrite rmat_seq_inv in E. destruct E as (s15&g15&E15&E). apply rmat_chr_inv in E15 as (c15&->&_&->).
  apply rmat_end_inv in E as (_&->&_).
  intros c Hc. cbn in Hc. right. apply in_or_app; right. apply in_or_app; right. apply in_or_app; left. exact Hc.
Qed.

Lemma In_dset {V} k (v : V) d k' v' : In (k', v') (dset k v d) -> (k' = k /\ v' = v) \/ In (k', v') d.
Proof.
  induction d as [|[k0 v0] d IH]; cbn [dset].
  - intros [E|[]]. injection E as -> ->. auto.
  - destruct (str_eqb_spec k k0) as [->|n]; intros [E|H].
    + injection E as -> ->. auto.
    + right; right; exact H.
    + right; left; exact E.
    + destruct (IH H) as [X|X]; [auto|right; right; exact X].
Qed.

Lemma merge_fine ks : forall d, (forall t n, In (t, n) d -> n = t \/ (forall c, In c n -> fine_char c)) ->
  forall t n, In (t, n) (merge_cands ks d) -> n = t \/ (forall c, In c n -> fine_char c).
Proof.
  induction ks as [|k ks IH]; intros d H; [exact H|]. unfold merge_cands. cbn [fold_left].
  apply (IH (if dmem k d then d else dset k k d)). intros t n Hin. destruct (dmem k d); [exact (H t n Hin)|].
  apply In_dset in Hin as [(->&->)|Hin]; [auto|exact (H t n Hin)].
Qed.

Lemma other_line_fine s m : one_line s -> ~ In 35%N s -> table_fine m -> table_fine (other_line s m).
Proof.
  intros H1 H2 (T1&T2). unfold other_line. destruct (re_match CANDLINE_REGEX s) as [[g s']|] eqn:E.
  - apply re_match_sound in E. pose proof (candline_name _ _ _ E) as Hn. unfold process_candline. split; cbn [j_candidates j_metadata]; [|exact T2].
    intros t n Hin. apply In_dset in Hin as [(->&->)|Hin]; [|exact (T1 t n Hin)]. right. intros c Hc. destruct (Hn c Hc) as (Hs&H93).
    split; [exact (H1 c Hs)|]. split; [intros ->; exact (H2 Hs)|exact H93].
  - destruct (re_match METADATA_REGEX s) as [[g s']|] eqn:E2; [|split; assumption].
    apply re_match_sound in E2. pose proof (metadata_key _ _ _ E2) as Hn. unfold process_metadata. split; cbn [j_candidates j_metadata]; [exact T1|].
    intros k j Hin. apply In_dset in Hin as [(->&->)|Hin]; [|exact (T2 k j Hin)].
    destruct (str_eqb (group 1 g) k_ballotcount); [apply one_lineb'; vm_compute; reflexivity|]. intros c Hc. apply H1, Hn, Hc.
Qed.

Lemma process_line_fine cw sc m i full m' : one_line full -> table_fine m -> process_line cw sc m (i, full) = Ok m' -> table_fine m'.
Proof.
  intros Hl (T1&T2) H. rewrite process_line_eq in H by exact Hl. apply bind_ok in H as [m1 [Ec H]].
  assert (Hm1 : table_fine m1).
  { destruct (process_comment_inv _ _ _ _ _ Ec) as (C1&_). split; [rewrite C1; exact T1|]. intros k j Hin.
    unfold process_comment in Ec. destruct (comment_of _) as [[|c r]|]; [apply ok_inj in Ec; subst; eauto| |apply ok_inj in Ec; subst; eauto].
    destruct sc; [|apply ok_inj in Ec; subst; eauto].
    destruct (dget k_comments (j_metadata m)) as [v|]; [destruct v; try discriminate|]; apply ok_inj in Ec; subst; cbn [j_metadata] in Hin;
      (apply In_dset in Hin as [(->&_)|Hin]; [apply one_lineb'; vm_compute; reflexivity|exact (T2 k j Hin)]). }
  clear Ec T1 T2 m. apply (one_line_norm cw) in Hl. destruct (vote_parts (before_hash (norm cw full))) as [[ds rest]|].
  - unfold process_prefline in H. apply bind_ok in H as [q [_ H]]. apply bind_ok in H as [bc [_ H]]. apply bind_ok in H as [bz [_ H]].
    apply bind_ok in H as [[prefs ks] [_ H]]. apply ok_inj in H. subst m'. destruct Hm1 as (T1&T2). split; cbn [j_candidates j_metadata].
    + apply merge_fine. exact T1.
    + intros k j Hin. apply In_dset in Hin as [(->&_)|Hin]; [apply one_lineb'; vm_compute; reflexivity|exact (T2 k j Hin)].
  - apply ok_inj in H. subst m'. apply other_line_fine; [| |exact Hm1].
    + intros c Hc. apply Hl, In_before_hash, Hc.
    + intro Hc. exact (before_hash_none _ _ Hc eq_refl).
Qed.

Lemma fold_fine cw sc ls : forall i m m', (forall l, In l ls -> one_line l) -> table_fine m ->
  foldM (process_line cw sc) (enumerate i ls) m = Ok m' -> table_fine m'.
Proof.
  induction ls as [|l ls IH]; intros i m m' Hl Hm H; cbn [enumerate foldM] in H; [apply ok_inj in H; subst; exact Hm|].
  apply bind_ok in H as [m1 [E1 H]]. refine (IH _ m1 m' (fun x Hx => Hl x (or_intror Hx)) _ H).
  exact (process_line_fine _ _ _ _ _ _ (Hl l (or_introl eq_refl)) Hm E1).
Qed.

Lemma token_fine t : simple t = true \/ boxable t -> forall c, In c t -> fine_char c.
Proof.
  intros H c Hc. assert (P : plain_char c = true).
  { destruct H as [H|((_&H&_)&_)]; [apply (safe_char_cases c (simple_all t H c Hc))|]. rewrite forallb_forall in H. exact (H c Hc). }
  unfold plain_char in P. cbn [existsb] in P. rewrite !andb_true_iff, !negb_true_iff, !orb_false_iff, !N.eqb_neq in P. split; tauto.
Qed.

(** The reader's models: all of [writable] but the tokens and the agreement of ratings with ranks. *)
Lemma parsed_writable text cw sc m : convert_abif_to_jabmod text cw false sc = Ok m ->
  (forall t, In t (cands m) -> writable_token t) ->
  (forall v, In v (j_votelines m) -> (forall c p, In (c, p) (v_prefs v) -> p_rating p <> None) ->
     forall c c' p p' k k', In (c, p) (v_prefs v) -> In (c', p') (v_prefs v) -> p_rank p = Some k -> p_rank p' = Some k' ->
       (k < k' <-> rating_on v c' < rating_on v c)) ->
  writable m.
Proof.
  intros H Ht Hr. destruct (convert_shape _ _ _ _ _ H) as (m0&E0&Hne&m1&E1&->). apply ok_inj in E1. subst m1.
  destruct (convert_state _ _ _ _ E0) as ((N1&N2&B&L)&_).
  assert (F : table_fine m0).
  { refine (fold_fine _ _ _ _ emptyish m0 (splitlines_one_line text) _ E0). split; [intros t n []|].
    intros k j [E|[]]. injection E as <- <-. apply one_lineb'; vm_compute; reflexivity. }
  cbn [j_votelines j_candidates j_metadata cands] in *.
  split; [|split; [|split; [exact N2|split]]]; cbn [j_votelines j_candidates j_metadata].
  - intro E. apply Hne. apply (f_equal (@length voteline)) in E. rewrite (Permutation_length (sort_desc_perm v_qty (j_votelines m0))) in E.
    destruct (j_votelines m0); [reflexivity|discriminate].
  - intros v Hv. pose proof (Permutation_in _ (sort_desc_perm _ _) Hv) as Hv0. destruct (L v Hv0) as (L1&L2&L3&ps&_&L4).
    split; [exact L1|]. split; [exact L2|]. split; [|exact (Hr v Hv)].
    intros c p Hin. split; [apply Ht, L3; exact (in_map fst _ _ Hin)|]. destruct (L4 c p Hin) as ((z&Ez&_)&Hf).
    split; [congruence|]. intros r Er. specialize (Hf r Er). destruct r; exact Hf.
  - intros t n Hin. destruct (Ht t (in_map fst _ _ Hin)) as (_&Hs). split; [exact Hs|].
    destruct F as (F1&_). destruct (F1 t n Hin) as [->|Hn]; [exact (token_fine t Hs)|exact Hn].
  - apply F.
Qed.
