(** * Properties C10-C15: score and STAR (abiflib/scorestar.py, core.py add-scores) *)

From Verif Require Import PyBase PyFacts Jabmod PairwiseModel Spec PairwiseFacts ScoreModel ScoreFacts PropsPairwise.
Local Open Scope Z_scope.

(** ** Samples *)
Definition rated (rk : Z) (r : ratingval) : pref := Pref (Some rk) (Some r) None.

Definition star_sample : jabmod := Jabmod [(k_ballotcount, JInt 12)]
  [(A, u "Ann"); (B, u "Bob"); (C, u "Cy"); (D, u "Di")]
  [ vl 5 [(A, rated 1 (RInt 5)); (B, rated 2 (RStr (u "3"))); (C, rated 3 (RInt 0))];
    vl 4 [(B, rated 1 (RInt 4)); (C, rated 2 (RInt 1))];
    vl 3 [(C, rated 1 (RInt 2)); (D, ranked 2)] ].

Example star_sample_scorable : scorable star_sample.
Proof.
  split; [nodup|]. intros l Hl. simpl in Hl.
  destruct Hl as [<-|[<-|[<-|[]]]]; (split; [split; [nodup|intros x Hx; simpl in *; intuition (subst; auto)]|reflexivity]).
Qed.
Example star_sample_tallyable : tallyable star_sample.
Proof. split; [nodup|]. intros l Hl. simpl in Hl. intuition (subst; reflexivity). Qed.

(** ** C10 *)
(** [scorable m]: no duplicate keys, votelines list only known candidates, ratings are integers
    (as int or decimal text).  [total_score m c] is the sum of qty * rating over the votelines and
    [supporters m c] the number of ballots rating c above 0 (ScoreFacts.v, two one-line definitions
    over [rating_on]). *)
Theorem C10_score_totals : forall m, scorable m ->
  exists res, basic_score_result m = Ok res /\ map fst res = cands m /\
  forall c, In c (cands m) -> exists si, dget c res = Some si /\
    dget c (j_candidates m) = Some (si_candname si) /\
    si_score si = zsum (map (fun l => v_qty l * rating_on l c) (j_votelines m)) /\
    si_votercount si = ballots_where (fun l => 0 <? rating_on l c) (j_votelines m).
Proof.
  intros m H. rewrite basic_score_ok by exact H. eexists. split; [reflexivity|]. split; [apply dkeys_dmap|].
  intros c Hc. rewrite dget_dmap, (proj2 (memb_In _ _) Hc). eexists. split; [reflexivity|]. simpl.
  split; [|split; reflexivity]. unfold cand_name. apply dget_Some_In in Hc as [v Hv]. rewrite Hv. reflexivity.
Qed.
Print Assumptions C10_score_totals.

Theorem C10_total_all_scores : forall m sr, scorable m -> enhanced_score_result m = Ok sr ->
  map fst (sr_scores sr) = cands m /\
  (forall c, In c (cands m) -> exists si, dget c (sr_scores sr) = Some si /\
     si_score si = total_score m c /\ si_votercount si = supporters m c) /\
  sr_total_all_scores sr = zsum (map (total_score m) (cands m)) /\
  dget k_ballotcount (j_metadata m) = Some (sr_totalvoters sr).
Proof.
  intros m sr H E0. destruct (dget k_ballotcount (j_metadata m)) as [bc|] eqn:Eb.
  - rewrite (enhanced_ok m bc H Eb) in E0. apply ok_inj in E0. subst sr. cbn [sr_scores sr_total_all_scores sr_totalvoters].
    split; [apply dkeys_dmap|]. split; [|split; reflexivity].
    intros c Hc. rewrite dget_dmap, (proj2 (memb_In _ _) Hc). eexists. split; [reflexivity|]. split; reflexivity.
  - rewrite (enhanced_err m H Eb) in E0. discriminate.
Qed.
Print Assumptions C10_total_all_scores.

(** A voteline that lists an unknown candidate is a KeyError. *)
Theorem C10_unknown_candidate : forall md cs q k p ls, NoDup (map fst cs) -> ~ In k (map fst cs) ->
  match p_rating p with Some r => readable r | None => true end = true ->
  basic_score_result (Jabmod md cs (vl q [(k, p)] :: ls)) = Err KeyError.
Proof.
  intros md cs q k p ls Hn Hk Hr. unfold basic_score_result. cbn [j_candidates j_votelines].
  rewrite (fold_dset_nodup (fun kv => ScoreInfo (snd kv) 0 0 None)) by exact Hn. cbn [app foldM v_prefs vl].
  unfold score_step at 1. cbn [fst snd]. rewrite pref_rating_int_ok by exact Hr. cbn [bind]. unfold dmodE.
  rewrite (proj2 (dget_None k _)); [reflexivity|]. unfold dkeys. rewrite map_map. exact Hk.
Qed.
Print Assumptions C10_unknown_candidate.

Example C10_nonvacuous :
  map (total_score star_sample) [A; B; C; D] = [25; 31; 10; 0] /\
  map (supporters star_sample) [A; B; C; D] = [5; 9; 7; 0].
Proof. split; reflexivity. Qed.

(** ** C11 *)
Theorem C11_ranklist : forall m sr, scorable m -> enhanced_score_result m = Ok sr ->
  Permutation (sr_ranklist sr) (cands m) /\
  StronglySorted (fun x y => total_score m y <= total_score m x) (sr_ranklist sr) /\
  (forall z, filter (fun c => total_score m c =? z) (sr_ranklist sr)
             = filter (fun c => total_score m c =? z) (cands m)) /\
  (forall c, In c (cands m) -> exists si, dget c (sr_scores sr) = Some si /\
     si_rank si = Some (dense_rank (total_score m c) (map (total_score m) (cands m)))).
Proof.
  intros m sr H E0. destruct (dget k_ballotcount (j_metadata m)) as [bc|] eqn:Eb;
    [|rewrite (enhanced_err m H Eb) in E0; discriminate].
  rewrite (enhanced_ok m bc H Eb) in E0. apply ok_inj in E0. subst sr. cbn [sr_scores sr_ranklist].
  split; [apply sort_desc_perm|]. split; [apply sort_desc_sorted|]. split; [intro z; apply sort_desc_stable|].
  intros c Hc. rewrite dget_dmap, (proj2 (memb_In _ _) Hc). eexists. split; reflexivity.
Qed.
Print Assumptions C11_ranklist.

(** The result exists exactly when metadata carries a ballotcount. *)
Theorem C11_defined : forall m, scorable m ->
  ((exists sr, enhanced_score_result m = Ok sr) <-> exists bc, dget k_ballotcount (j_metadata m) = Some bc).
Proof.
  intros m H. split.
  - intros [sr E0]. destruct (C10_total_all_scores m sr H E0) as [_ [_ [_ Hb]]]. eauto.
  - intros [bc Hb]. rewrite (enhanced_ok m bc H Hb). eauto.
Qed.
Print Assumptions C11_defined.

Example C11_nonvacuous : exists sr, enhanced_score_result star_sample = Ok sr /\
  sr_ranklist sr = [B; A; C; D] /\ map (fun kv => si_rank (snd kv)) (sr_scores sr) = [Some 2; Some 1; Some 3; Some 4].
Proof. eexists. split; [vm_compute; reflexivity|]. split; vm_compute; reflexivity. Qed.

(** ** C12 *)
Lemma star_ok m bc f1 f2 rest :
  scorable m -> tallyable m -> dget k_ballotcount (j_metadata m) = Some (JInt bc) ->
  score_order m = f1 :: f2 :: rest ->
  STAR_result m =
  Ok (StarRes (ScoreRes (dmap (cands m) (final_info m)) (score_order m) (zsum (map (total_score m) (cands m))) (JInt bc))
       [f1; f2] f1 f2 (cand_name m f1) (cand_name m f2) (votes_over m f1 f2) (votes_over m f2 f1)
       (bc - votes_over m f1 f2 - votes_over m f2 f1)
       (if votes_over m f1 f2 >? votes_over m f2 f1 then cand_name m f1
        else if votes_over m f2 f1 >? votes_over m f1 f2 then cand_name m f2
        else u "tie " ++ cand_name m f1 ++ u " and " ++ cand_name m f2)).
Proof.
  intros Hs Ht Hb Ho. unfold STAR_result. rewrite (enhanced_ok m _ Hs Hb).
  assert (P : Permutation (score_order m) (cands m)) by apply sort_desc_perm.
  assert (H1 : In f1 (cands m)) by (apply (Permutation_in _ P); rewrite Ho; left; reflexivity).
  assert (H2 : In f2 (cands m)) by (apply (Permutation_in _ P); rewrite Ho; right; left; reflexivity).
  assert (n : f1 <> f2).
  { assert (Hn : NoDup (score_order m)) by (apply (Permutation_NoDup (Permutation_sym P)); apply Hs).
    rewrite Ho in Hn. inversion Hn as [|? ? Hx _]; subst. intros ->. apply Hx; left; reflexivity. }
  unfold full_copecount. rewrite (C01_pairwise_exact m Ht). cbn [bind].
  change (fun a b : str => if str_eqb a b then None else Some (votes_over m a b)) with (offdiag (votes_over m)).
  rewrite (winlosstie_exact (cands m) (proj1 Ht)) by reflexivity. cbn [bind sr_ranklist sr_scores sr_totalvoters cc_winningvotes].
  rewrite Ho. cbn [nth_error of_option bind firstn].
  unfold dgetE. rewrite !dget_dmap, (proj2 (memb_In _ _) H1), (proj2 (memb_In _ _) H2). cbn [of_option bind].
  rewrite !mat_getE_matrix by assumption. cbn [bind json_intE]. unfold offdiag.
  rewrite (str_eqb_sym f2 f1), (proj2 (str_eqb_neq _ _) n). cbn [cellE of_option bind final_info si_candname]. reflexivity.
Qed.

(** [runner_up_order m] is the score ranking of C11. *)
Theorem C12_star_runoff : forall m bc st, scorable m -> tallyable m ->
  dget k_ballotcount (j_metadata m) = Some (JInt bc) -> STAR_result m = Ok st ->
  exists f1 f2 n1 n2,
    firstn 2 (sr_ranklist (st_base st)) = [f1; f2] /\ enhanced_score_result m = Ok (st_base st) /\
    dget f1 (j_candidates m) = Some n1 /\ dget f2 (j_candidates m) = Some n2 /\
    st_round1winners st = [f1; f2] /\ st_fin1 st = f1 /\ st_fin2 st = f2 /\
    st_fin1n st = n1 /\ st_fin2n st = n2 /\
    st_fin1votes st = votes_over m f1 f2 /\ st_fin2votes st = votes_over m f2 f1 /\
    (votes_over m f1 f2 > votes_over m f2 f1 -> st_winner st = n1) /\
    (votes_over m f2 f1 > votes_over m f1 f2 -> st_winner st = n2) /\
    (votes_over m f1 f2 = votes_over m f2 f1 -> st_winner st = u "tie " ++ n1 ++ u " and " ++ n2).
Proof.
  intros m bc st Hs Ht Hb E0.
  assert (P : Permutation (score_order m) (cands m)) by apply sort_desc_perm.
  destruct (score_order m) as [|f1 [|f2 rest]] eqn:Ho.
  1,2: exfalso; unfold STAR_result in E0; rewrite (enhanced_ok m _ Hs Hb) in E0;
    destruct (C05_copecount_total m Ht) as [cc Ec]; cbn [bind] in E0; rewrite Ec in E0; cbn [bind sr_ranklist] in E0;
    rewrite Ho in E0; cbn [nth_error of_option bind] in E0; discriminate.
  rewrite (star_ok m bc f1 f2 rest Hs Ht Hb Ho) in E0. apply ok_inj in E0. subst st.
  assert (N : forall f, In f (f1 :: f2 :: rest) -> dget f (j_candidates m) = Some (cand_name m f)).
  { intros f Hf. apply (Permutation_in _ P) in Hf. apply dget_Some_In in Hf as [v Hv]. unfold cand_name. rewrite Hv. reflexivity. }
  exists f1, f2, (cand_name m f1), (cand_name m f2).
  cbn [st_base st_round1winners st_fin1 st_fin2 st_fin1n st_fin2n st_fin1votes st_fin2votes st_winner sr_ranklist].
  split; [rewrite Ho; reflexivity|]. split; [apply enhanced_ok; assumption|].
  split; [apply N; left; reflexivity|]. split; [apply N; right; left; reflexivity|].
  repeat (split; [reflexivity|]).
  repeat split; intro Hv.
  - destruct (Z.gtb_spec (votes_over m f1 f2) (votes_over m f2 f1)); [reflexivity|lia].
  - destruct (Z.gtb_spec (votes_over m f1 f2) (votes_over m f2 f1)); [lia|].
    destruct (Z.gtb_spec (votes_over m f2 f1) (votes_over m f1 f2)); [reflexivity|lia].
  - destruct (Z.gtb_spec (votes_over m f1 f2) (votes_over m f2 f1)); [lia|].
    destruct (Z.gtb_spec (votes_over m f2 f1) (votes_over m f1 f2)); [lia|reflexivity].
Qed.
Print Assumptions C12_star_runoff.

Theorem C12_star_total : forall m bc, scorable m -> tallyable m ->
  dget k_ballotcount (j_metadata m) = Some (JInt bc) ->
  ((2 <= length (cands m))%nat -> exists st, STAR_result m = Ok st) /\
  ((length (cands m) < 2)%nat -> STAR_result m = Err IndexError).
Proof.
  intros m bc Hs Ht Hb.
  assert (P : Permutation (score_order m) (cands m)) by apply sort_desc_perm.
  rewrite <- (Permutation_length P).
  destruct (score_order m) as [|f1 [|f2 rest]] eqn:Ho; cbn [length]; split; intro Hl; try lia.
  1,2: unfold STAR_result; rewrite (enhanced_ok m _ Hs Hb);
    destruct (C05_copecount_total m Ht) as [cc Ec]; cbn [bind]; rewrite Ec; cbn [bind sr_ranklist];
    rewrite Ho; reflexivity.
  rewrite (star_ok m bc f1 f2 rest Hs Ht Hb Ho). eauto.
Qed.
Print Assumptions C12_star_total.

Example C12_nonvacuous : exists st, STAR_result star_sample = Ok st /\
  st_winner st = u "Ann" /\ st_fin1n st = u "Bob" /\ (st_fin1votes st, st_fin2votes st, st_final_abstentions st) = (4, 5, 3).
Proof. eexists. split; [vm_compute; reflexivity|]. repeat split. Qed.

(** ** C13 *)
Theorem C13_star_abstentions : forall m st, scorable m -> tallyable m ->
  dget k_ballotcount (j_metadata m) = Some (JInt (total_ballots m)) -> STAR_result m = Ok st ->
  st_final_abstentions st =
    ballots_where (fun l => negb (prefers l (st_fin1 st) (st_fin2 st)) && negb (prefers l (st_fin2 st) (st_fin1 st)))
                  (j_votelines m) /\
  ((forall l, In l (j_votelines m) -> 0 <= v_qty l) -> 0 <= st_final_abstentions st).
Proof.
  intros m st Hs Ht Hb E0.
  destruct (C12_star_runoff m _ st Hs Ht Hb E0) as (f1&f2&n1&n2&_&_&_&_&_&F1&F2&_&_&V1&V2&_).
  assert (Ea : st_final_abstentions st = total_ballots m - st_fin1votes st - st_fin2votes st).
  { clear -E0 Hs Hb. unfold STAR_result in E0. rewrite (enhanced_ok m _ Hs Hb) in E0. cbn [bind] in E0.
    apply bind_ok in E0 as [cc [_ E0]]. cbn [sr_ranklist sr_totalvoters sr_scores] in E0.
    repeat (apply bind_ok in E0 as [? [? E0]]).
    match goal with H : json_intE _ = _ |- _ => cbn in H; apply ok_inj in H; subst end.
    apply ok_inj in E0. subst st. reflexivity. }
  assert (Eq : st_final_abstentions st =
    ballots_where (fun l => negb (prefers l (st_fin1 st) (st_fin2 st)) && negb (prefers l (st_fin2 st) (st_fin1 st)))
                  (j_votelines m)).
  { rewrite Ea, V1, V2, F1, F2. pose proof (pair_accounting m f1 f2). lia. }
  split; [exact Eq|]. intro Hq. rewrite Eq. apply ballots_where_nonneg; exact Hq.
Qed.
Print Assumptions C13_star_abstentions.

Example C13_nonvacuous : total_ballots star_sample = 12.
Proof. reflexivity. Qed.

(** ** C14 *)
Definition has_real_rating (p : pref) : bool :=
  match p_rating p with Some r => rating_truthy r | None => false end.

Definition some_rating (m : jabmod) : Prop :=
  exists l c p, In l (j_votelines m) /\ In (c, p) (v_prefs l) /\ p_rating p <> None.

Lemma has_rating_iff m : inmod_has_rating m = true <-> some_rating m.
Proof.
  unfold inmod_has_rating, some_rating. rewrite existsb_exists. split.
  - intros [l [Hl H]]. apply existsb_exists in H as [[c p] [Hc H]]. simpl in H.
    exists l, c, p. destruct (p_rating p); [|discriminate]. repeat split; auto. discriminate.
  - intros (l&c&p&Hl&Hc&H). exists l. split; [exact Hl|]. apply existsb_exists. exists (c, p). split; [exact Hc|].
    simpl. destruct (p_rating p); congruence.
Qed.

(** What happens to one entry. *)
Definition filled (has : bool) (n : Z) (p : pref) : pref :=
  if has_real_rating p then p
  else if has then set_rating (RInt 0) p
  else match p_rank p with Some r => set_rating (RInt (n - r)) p | None => p end.

Lemma add_ratings_ok m :
  (forall l, In l (j_votelines m) -> forall c p, In (c, p) (v_prefs l) -> p_rank p <> None) ->
  exists md', add_ratings_to_votelines m true = Ok (Jabmod md' (j_candidates m)
    (map (fun l => with_prefs l (map (fun kv => (fst kv, filled (inmod_has_rating m) (Z.of_nat (length (j_candidates m))) (snd kv))) (v_prefs l)))
         (j_votelines m))) /\
    (md' = j_metadata m \/ md' = dset k_is_ranking_to_rating (JBool true) (j_metadata m)) /\
    (inmod_has_rating m = true -> md' = j_metadata m).
Proof.
  intro Hr. unfold add_ratings_to_votelines. set (has := inmod_has_rating m). set (n := Z.of_nat (length (j_candidates m))).
  assert (EP : forall kv, In kv (flat_map v_prefs (j_votelines m)) ->
      add_rating_pref has true n (snd kv) = Ok (filled has n (snd kv), negb (has_real_rating (snd kv)) && negb has)).
  { intros [c p] Hkv. apply in_flat_map in Hkv as [l [Hl Hkv]]. specialize (Hr l Hl c p Hkv).
    unfold add_rating_pref, filled. cbn [snd]. fold (has_real_rating p). destruct (has_real_rating p); [reflexivity|].
    destruct has; [reflexivity|]. destruct (p_rank p); [reflexivity|congruence]. }
  rewrite (mapM_ok _ (fun l =>
     (with_prefs l (map (fun kv => (fst kv, filled has n (snd kv))) (v_prefs l)),
      existsb (fun kv => negb (has_real_rating (snd kv)) && negb has) (v_prefs l)))).
  - cbn [bind]. eexists. split; [|split].
    + f_equal. f_equal. rewrite map_map. reflexivity.
    + destruct (existsb _ _); auto.
    + intro Hh. rewrite existsb_false; [reflexivity|]. intros [l b] Hl. apply in_map_iff in Hl as [l' [E0 _]].
      inversion E0. cbn [snd]. apply existsb_false. intros kv _. rewrite Hh. apply andb_false_r.
  - intros l Hl. rewrite (mapM_ok _ (fun kv => (fst kv, (filled has n (snd kv), negb (has_real_rating (snd kv)) && negb has)))).
    + cbn [bind]. f_equal. f_equal.
      * f_equal. rewrite map_map. reflexivity.
      * induction (v_prefs l) as [|kv r IH]; simpl; [reflexivity|]. rewrite IH. reflexivity.
    + intros kv Hkv. rewrite EP; [reflexivity|]. apply in_flat_map. exists l; auto.
Qed.

Theorem C14_add_ratings : forall m,
  (forall l, In l (j_votelines m) -> forall c p, In (c, p) (v_prefs l) -> p_rank p <> None) ->
  exists m', add_ratings_to_votelines m true = Ok m' /\
  j_candidates m' = j_candidates m /\
  (forall k, k <> k_is_ranking_to_rating -> dget k (j_metadata m') = dget k (j_metadata m)) /\
  Forall2 (fun l l' =>
      v_qty l' = v_qty l /\ v_comment l' = v_comment l /\ v_prefstr l' = v_prefstr l /\ v_voterid l' = v_voterid l /\ v_nameq l' = v_nameq l /\
      Forall2 (fun kv kv' =>
          fst kv' = fst kv /\ p_rank (snd kv') = p_rank (snd kv) /\ p_nextdelim (snd kv') = p_nextdelim (snd kv) /\
          (has_real_rating (snd kv) = true -> p_rating (snd kv') = p_rating (snd kv)) /\
          (has_real_rating (snd kv) = false -> some_rating m -> p_rating (snd kv') = Some (RInt 0)) /\
          (~ some_rating m -> forall r, p_rank (snd kv) = Some r ->
             p_rating (snd kv') = Some (RInt (Z.of_nat (length (j_candidates m)) - r))))
        (v_prefs l) (v_prefs l'))
    (j_votelines m) (j_votelines m').
Proof.
  intros m Hr. destruct (add_ratings_ok m Hr) as [md' [E0 [Hmd _]]]. eexists. split; [exact E0|].
  cbn [j_candidates j_metadata j_votelines]. split; [reflexivity|]. split.
  - intros k Hk. destruct Hmd as [->| ->]; [reflexivity|]. apply dget_dset_other; exact Hk.
  - assert (G : forall ls, incl ls (j_votelines m) -> Forall2 (fun l l' =>
      v_qty l' = v_qty l /\ v_comment l' = v_comment l /\ v_prefstr l' = v_prefstr l /\ v_voterid l' = v_voterid l /\ v_nameq l' = v_nameq l /\
      Forall2 (fun kv kv' =>
          fst kv' = fst kv /\ p_rank (snd kv') = p_rank (snd kv) /\ p_nextdelim (snd kv') = p_nextdelim (snd kv) /\
          (has_real_rating (snd kv) = true -> p_rating (snd kv') = p_rating (snd kv)) /\
          (has_real_rating (snd kv) = false -> some_rating m -> p_rating (snd kv') = Some (RInt 0)) /\
          (~ some_rating m -> forall r, p_rank (snd kv) = Some r ->
             p_rating (snd kv') = Some (RInt (Z.of_nat (length (j_candidates m)) - r))))
        (v_prefs l) (v_prefs l')) ls
      (map (fun l => with_prefs l (map (fun kv => (fst kv, filled (inmod_has_rating m) (Z.of_nat (length (j_candidates m))) (snd kv))) (v_prefs l))) ls)).
    { induction ls as [|l r IH]; intro Hi; cbn [map]; constructor; [|apply IH; intros x Hx; apply Hi; right; exact Hx].
      repeat (split; [reflexivity|]). cbn [with_prefs v_prefs].
      assert (Hl : In l (j_votelines m)) by (apply Hi; left; reflexivity).
      assert (Hsub : incl (v_prefs l) (v_prefs l)) by apply incl_refl. revert Hsub.
      generalize (v_prefs l) at 1 3 4. intro ps. induction ps as [|[c p] ps IHp]; intro Hsub; cbn [map]; constructor.
      - cbn [fst snd]. unfold filled.
        destruct (inmod_has_rating m) eqn:Eh.
        + assert (Hs : some_rating m) by (apply has_rating_iff; exact Eh).
          destruct (has_real_rating p) eqn:Ep; cbn [set_rating p_rank p_nextdelim p_rating]; repeat split; auto; try discriminate; tauto.
        + assert (Hs : ~ some_rating m) by (rewrite <- has_rating_iff, Eh; discriminate).
          assert (Hp : has_real_rating p = false).
          { destruct (has_real_rating p) eqn:Ep; [|reflexivity]. exfalso. apply Hs. exists l, c, p.
            split; [exact Hl|]. split; [apply Hsub; left; reflexivity|]. unfold has_real_rating in Ep.
            destruct (p_rating p); discriminate. }
          rewrite Hp. specialize (Hr l Hl c p (Hsub _ (or_introl eq_refl))).
          destruct (p_rank p) as [rk|] eqn:Er; [|congruence].
          cbn [set_rating p_rank p_nextdelim p_rating]. repeat split; auto; try discriminate; try tauto.
          intros _ r0 Hr0. inversion Hr0; reflexivity.
      - apply IHp. intros x Hx; apply Hsub; right; exact Hx. }
    apply G, incl_refl.
Qed.
Print Assumptions C14_add_ratings.

(** Applying it twice changes nothing more. *)
Theorem C14_idempotent : forall m m',
  (forall l, In l (j_votelines m) -> forall c p, In (c, p) (v_prefs l) -> p_rank p <> None) ->
  add_ratings_to_votelines m true = Ok m' -> add_ratings_to_votelines m' true = Ok m'.
Proof.
  intros m m' Hr E0. destruct (add_ratings_ok m Hr) as [md' [E1 _]]. rewrite E0 in E1. apply ok_inj in E1.
  set (f := fun l => with_prefs l (map (fun kv => (fst kv, filled (inmod_has_rating m) (Z.of_nat (length (j_candidates m))) (snd kv))) (v_prefs l))) in E1.
  assert (Hrank : forall p, p_rank (filled (inmod_has_rating m) (Z.of_nat (length (j_candidates m))) p) = p_rank p).
  { intro p. unfold filled. destruct (has_real_rating p), (inmod_has_rating m), (p_rank p) eqn:Ep; cbn; congruence. }
  assert (Hr' : forall l, In l (j_votelines m') -> forall c p, In (c, p) (v_prefs l) -> p_rank p <> None).
  { subst m'. cbn [j_votelines]. intros l Hl c p Hp. apply in_map_iff in Hl as [l0 [<- Hl0]].
    cbn [f with_prefs v_prefs] in Hp. apply in_map_iff in Hp as [[c0 p0] [Ek Hp0]]. inversion Ek; subst.
    cbn [snd]. rewrite Hrank. exact (Hr l0 Hl0 _ _ Hp0). }
  destruct (add_ratings_ok m' Hr') as [md2 [E2 [Hmd2 Hhas]]]. rewrite E2. f_equal.
  assert (Hfix : forall l c p, In l (j_votelines m') -> In (c, p) (v_prefs l) ->
            inmod_has_rating m' = true /\ filled (inmod_has_rating m') (Z.of_nat (length (j_candidates m'))) p = p).
  { intros l c p Hl Hp.
    assert (Hsome : p_rating p <> None /\ (has_real_rating p = false -> p_rating p = Some (RInt 0))).
    { subst m'. cbn [j_votelines] in Hl. apply in_map_iff in Hl as [l0 [<- Hl0]].
      cbn [f with_prefs v_prefs] in Hp. apply in_map_iff in Hp as [[c0 p0] [Ek Hp0]]. inversion Ek; subst. cbn [snd].
      pose proof (Hr l0 Hl0 _ _ Hp0) as Hrk. unfold filled.
      destruct (has_real_rating p0) eqn:Ep0.
      - split; [unfold has_real_rating in Ep0; destruct (p_rating p0); discriminate|congruence].
      - destruct (inmod_has_rating m); [cbn; split; [discriminate|reflexivity]|].
        destruct (p_rank p0) as [r0|]; [|congruence]. cbn. split; [discriminate|].
        intro Hz. f_equal. f_equal. cbn in Hz. lia. }
    assert (Hh : inmod_has_rating m' = true).
    { apply has_rating_iff. exists l, c, p. repeat split; auto. apply Hsome. }
    split; [exact Hh|]. unfold filled. rewrite Hh. destruct Hsome as [_ Hz].
    destruct (has_real_rating p); [reflexivity|]. specialize (Hz eq_refl). destruct p as [a b0 d]; cbn in *. unfold set_rating; cbn. congruence. }
  assert (EL : map (fun l => with_prefs l (map (fun kv => (fst kv, filled (inmod_has_rating m') (Z.of_nat (length (j_candidates m'))) (snd kv))) (v_prefs l))) (j_votelines m') = j_votelines m').
  { rewrite <- (map_id (j_votelines m')) at 2. apply map_ext_in. intros l Hl.
    replace (map _ (v_prefs l)) with (v_prefs l); [destruct l; reflexivity|].
    rewrite <- (map_id (v_prefs l)) at 1. apply map_ext_in. intros [c p] Hp. cbn [fst snd].
    f_equal. symmetry. apply (Hfix l c p Hl Hp). }
  rewrite EL.
  assert (EM : md2 = j_metadata m').
  { destruct (existsb (fun l => match v_prefs l with [] => false | _ => true end) (j_votelines m')) eqn:Ex.
    - apply existsb_exists in Ex as [l [Hl Hv]]. destruct (v_prefs l) as [|[c p] ps] eqn:Ev; [discriminate|].
      apply Hhas. apply (Hfix l c p Hl). rewrite Ev; left; reflexivity.
    - (* no entries at all: the flag is not set *)
      assert (Hnil : forall l, In l (j_votelines m') -> v_prefs l = []).
      { intros l Hl. destruct (v_prefs l) eqn:Ev; [reflexivity|]. exfalso.
        assert (existsb (fun l => match v_prefs l with [] => false | _ => true end) (j_votelines m') = true)
          by (apply existsb_exists; exists l; rewrite Ev; auto). congruence. }
      clear -E2 Hnil. unfold add_ratings_to_votelines in E2.
      rewrite (mapM_ok _ (fun l => (with_prefs l [], false))) in E2.
      + cbn [bind] in E2. apply ok_inj in E2. rewrite existsb_false in E2; [apply (f_equal j_metadata) in E2; symmetry; exact E2|].
        intros [a b0] Hx. apply in_map_iff in Hx as [? [Ex _]]. inversion Ex; reflexivity.
      + intros l Hl. rewrite (Hnil l Hl). reflexivity. }
  rewrite EM. destruct m'; reflexivity.
Qed.
Print Assumptions C14_idempotent.

Definition borda_sample : jabmod := Jabmod [] [(A, A); (B, B); (C, C)]
  [ vl 2 [(A, ranked 1); (B, ranked 2); (C, ranked 3)]; vl 1 [(C, ranked 1)] ].
Example C14_nonvacuous :
  (forall l, In l (j_votelines borda_sample) -> forall c p, In (c, p) (v_prefs l) -> p_rank p <> None) /\
  add_ratings_to_votelines borda_sample true =
  Ok (Jabmod [(k_is_ranking_to_rating, JBool true)] [(A, A); (B, B); (C, C)]
      [ vl 2 [(A, rated 1 (RInt 2)); (B, rated 2 (RInt 1)); (C, rated 3 (RInt 0))]; vl 1 [(C, rated 1 (RInt 2))] ]).
Proof.
  split; [|vm_compute; reflexivity]. intros l Hl c p Hp.
  assert (G : forallb (fun l => forallb (fun kv => match p_rank (snd kv) with Some _ => true | None => false end) (v_prefs l))
                (j_votelines borda_sample) = true) by reflexivity.
  rewrite forallb_forall in G. specialize (G l Hl). rewrite forallb_forall in G. specialize (G _ Hp).
  simpl in G. destruct (p_rank p); [discriminate|congruence].
Qed.

(** ** C15 *)
Lemma scaled_sum (m : jabmod) (sc : Q) l acc :
  (fold_left (fun a (kv : str * scaledinfo) => a + sc_scaled (snd kv)) (map (fun kv : str * str =>
      (fst kv, ScaledInfo (snd kv) (inject_Z (total_score m (fst kv)) * sc) (total_score m (fst kv)))) l) acc
   == acc + inject_Z (zsum (map (total_score m) (map fst l))) * sc)%Q.
Proof.
  revert acc; induction l as [|kv r IH]; intro acc; cbn [map fold_left zsum].
  - change (inject_Z 0) with 0%Q. ring.
  - rewrite IH. cbn [snd sc_scaled]. rewrite inject_Z_plus. ring.
Qed.

(** Exact rational arithmetic: the printed floats are roundings of these values. *)
Theorem C15_scaled_scores : forall m bc target res, scorable m -> tallyable m ->
  dget k_ballotcount (j_metadata m) = Some (JInt bc) -> (2 <= length (cands m))%nat ->
  zsum (map (total_score m) (cands m)) <> 0 ->
  scaled_scores m target = Ok res ->
  map fst (sc_canddict res) = cands m /\
  (forall c, In c (cands m) -> exists si, dget c (sc_canddict res) = Some si /\
     sc_score si = total_score m c /\
     (sc_scaled si == inject_Z (total_score m c) * inject_Z target / inject_Z (zsum (map (total_score m) (cands m))))%Q) /\
  (sc_scaled_total res == inject_Z target)%Q.
Proof.
  intros m bc target res Hs Ht Hb Hl Hnz E0.
  assert (P : Permutation (score_order m) (cands m)) by apply sort_desc_perm.
  destruct (score_order m) as [|f1 [|f2 rest]] eqn:Ho;
    [apply Permutation_length in P; cbn in P; lia|apply Permutation_length in P; cbn in P; lia|].
  unfold scaled_scores in E0. rewrite (star_ok m bc f1 f2 rest Hs Ht Hb Ho) in E0. cbn [bind st_base sr_total_all_scores sr_scores] in E0.
  unfold dgetE at 1 in E0. rewrite Hb in E0. cbn [of_option bind] in E0.
  destruct (Z.eqb_spec (zsum (map (total_score m) (cands m))) 0) as [|_]; [contradiction|].
  set (total := zsum (map (total_score m) (cands m))) in *.
  set (sc := (inject_Z target / inject_Z total)%Q) in *.
  rewrite (mapM_ok _ (fun kv => (fst kv, ScaledInfo (snd kv) (inject_Z (total_score m (fst kv)) * sc)%Q (total_score m (fst kv))))) in E0.
  2:{ intros [k v] Hk. cbn [fst snd]. unfold dgetE. rewrite dget_dmap.
      rewrite (proj2 (memb_In k (cands m))); [reflexivity|]. change k with (fst (k, v)). apply in_map; exact Hk. }
  cbn [bind] in E0. apply ok_inj in E0. subst res. cbn [sc_canddict sc_scaled_total].
  pose proof (proj1 Hs) as Hn.
  rewrite (fold_dset_nodup (fun kv => snd kv)) by (rewrite map_map; exact Hn). cbn [app].
  set (items := map (fun kv : str * str => (fst kv, ScaledInfo (snd kv) (inject_Z (total_score m (fst kv)) * sc)%Q (total_score m (fst kv)))) (j_candidates m)).
  assert (Ei : map (fun kv : str * scaledinfo => (fst kv, snd kv)) items = items).
  { rewrite <- (map_id items) at 2. apply map_ext. intros []; reflexivity. }
  rewrite Ei.
  assert (Ek : map fst items = cands m) by (unfold items; rewrite map_map; reflexivity).
  split; [exact Ek|]. split.
  - intros c Hc. apply dget_Some_In in Hc as [v Hv]. apply dget_In in Hv.
    eexists. split; [|split].
    + apply dget_In_nodup; [unfold dkeys; rewrite Ek; exact Hn|].
      apply in_map_iff. exists (c, v). split; [reflexivity|exact Hv].
    + reflexivity.
    + cbn [sc_scaled fst]. unfold sc, Qdiv. ring.
  - eapply Qeq_trans; [apply (scaled_sum m sc (j_candidates m) 0)|].
    change (map fst (j_candidates m)) with (cands m). fold total. unfold sc. field.
    intro Hz. apply Hnz. unfold Qeq in Hz. simpl in Hz. unfold total in Hz. lia.
Qed.
Print Assumptions C15_scaled_scores.

Theorem C15_zero_total : forall m bc target, scorable m -> tallyable m ->
  dget k_ballotcount (j_metadata m) = Some (JInt bc) -> (2 <= length (cands m))%nat ->
  zsum (map (total_score m) (cands m)) = 0 ->
  scaled_scores m target = Err ZeroDivisionError.
Proof.
  intros m bc target Hs Ht Hb Hl Hz.
  assert (P : Permutation (score_order m) (cands m)) by apply sort_desc_perm.
  destruct (score_order m) as [|f1 [|f2 rest]] eqn:Ho;
    [apply Permutation_length in P; cbn in P; lia|apply Permutation_length in P; cbn in P; lia|].
  unfold scaled_scores. rewrite (star_ok m bc f1 f2 rest Hs Ht Hb Ho). cbn [bind st_base sr_total_all_scores].
  unfold dgetE. rewrite Hb. cbn [of_option bind]. rewrite Hz. reflexivity.
Qed.
Print Assumptions C15_zero_total.

Theorem C15_defined : forall m bc target, scorable m -> tallyable m ->
  dget k_ballotcount (j_metadata m) = Some (JInt bc) -> (2 <= length (cands m))%nat ->
  zsum (map (total_score m) (cands m)) <> 0 ->
  exists res, scaled_scores m target = Ok res.
Proof.
  intros m bc target Hs Ht Hb Hl Hnz.
  assert (P : Permutation (score_order m) (cands m)) by apply sort_desc_perm.
  destruct (score_order m) as [|f1 [|f2 rest]] eqn:Ho;
    [apply Permutation_length in P; cbn in P; lia|apply Permutation_length in P; cbn in P; lia|].
  unfold scaled_scores. rewrite (star_ok m bc f1 f2 rest Hs Ht Hb Ho). cbn [bind st_base sr_total_all_scores sr_scores].
  unfold dgetE at 1. rewrite Hb. cbn [of_option bind].
  destruct (Z.eqb_spec (zsum (map (total_score m) (cands m))) 0) as [|_]; [contradiction|].
  rewrite (mapM_ok _ (fun kv => (fst kv, ScaledInfo (snd kv) (inject_Z (total_score m (fst kv)) * (inject_Z target / inject_Z (zsum (map (total_score m) (cands m)))))%Q (total_score m (fst kv))))).
  - cbn [bind]. eauto.
  - intros [k v] Hk. cbn [fst snd]. unfold dgetE. rewrite dget_dmap.
    rewrite (proj2 (memb_In k (cands m))); [reflexivity|]. change k with (fst (k, v)). apply in_map; exact Hk.
Qed.
Print Assumptions C15_defined.

Example C15_nonvacuous : zsum (map (total_score star_sample) (cands star_sample)) = 66 /\
  exists res, scaled_scores star_sample 100 = Ok res.
Proof.
  split; [reflexivity|]. apply (C15_defined star_sample 12 100); [apply star_sample_scorable|apply star_sample_tallyable|reflexivity| |].
  - simpl. lia.
  - vm_compute. discriminate.
Qed.

Print Assumptions C10_score_totals.
Print Assumptions C10_total_all_scores.
Print Assumptions C10_unknown_candidate.
Print Assumptions C11_ranklist.
Print Assumptions C11_defined.
Print Assumptions C12_star_runoff.
Print Assumptions C12_star_total.
Print Assumptions C13_star_abstentions.
Print Assumptions C14_add_ratings.
Print Assumptions C14_idempotent.
Print Assumptions C15_scaled_scores.
Print Assumptions C15_zero_total.
Print Assumptions C15_defined.
