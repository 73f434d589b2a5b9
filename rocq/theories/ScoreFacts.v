(** * ScoreFacts: lemmas about abiflib/scorestar.py *)

From Verif Require Import PyBase PyFacts Jabmod PairwiseModel Spec PairwiseFacts ScoreModel.
Local Open Scope Z_scope.

Lemma fold_dset_nodup {V W} (f : str * W -> V) (l : dict W) acc :
  NoDup (map fst acc ++ map fst l) ->
  fold_left (fun d kv => dset (fst kv) (f kv) d) l acc = acc ++ map (fun kv => (fst kv, f kv)) l.
Proof.
  revert acc; induction l as [|x r IH]; intros acc Hn; simpl; [rewrite app_nil_r; reflexivity|].
  rewrite dkeys_dset_nIn.
  - rewrite IH; rewrite <- ?app_assoc; [reflexivity|]. rewrite map_app, <- app_assoc. exact Hn.
  - intro Hi. simpl in Hn. apply NoDup_remove_2 in Hn. apply Hn. apply in_or_app; left; exact Hi.
Qed.

Definition si_add (q r : Z) (si : scoreinfo) : scoreinfo :=
  ScoreInfo (si_candname si) (si_score si + r * q)
    (if r >? 0 then si_votercount si + q else si_votercount si) (si_rank si).

Definition pref_rating (p : pref) : Z :=
  match p_rating p with
  | Some r => match rating_int r with Ok z => z | Err _ => 0 end
  | None => 0
  end.

Lemma pref_rating_int_ok p :
  match p_rating p with Some r => readable r | None => true end = true ->
  pref_rating_int p = Ok (pref_rating p).
Proof.
  unfold pref_rating_int, pref_rating, readable. destruct (p_rating p) as [r|]; [|reflexivity].
  destruct (rating_int r); [reflexivity|discriminate].
Qed.

Lemma score_line_ok cs q ps g :
  NoDup cs -> NoDup (map fst ps) -> incl (map fst ps) cs ->
  forallb (fun kv => match p_rating (snd kv) with Some r => readable r | None => true end) ps = true ->
  foldM (score_step q) ps (dmap cs g) =
  Ok (dmap cs (fun c => match dget c ps with Some p => si_add q (pref_rating p) (g c) | None => g c end)).
Proof.
  intro Hn. revert g; induction ps as [|[k p] r IH]; intros g Hp Hi Hr; simpl.
  - f_equal.
  - simpl in Hp, Hr. inversion Hp as [|? ? Hk Hp']; subst. apply andb_prop in Hr as [Hr1 Hr2].
    unfold score_step at 1. cbn [fst snd]. rewrite pref_rating_int_ok by exact Hr1. cbn [bind].
    rewrite dmodE_dmap; [|exact Hn|apply Hi; left; reflexivity]. cbn [bind].
    rewrite IH; [|exact Hp'|intros z Hz; apply Hi; right; exact Hz|exact Hr2].
    f_equal. apply dmap_ext. intros c Hc.
    rewrite (str_eqb_sym k c). destruct (str_eqb_spec c k) as [->|]; [|reflexivity].
    rewrite (proj2 (dget_None k r) Hk). reflexivity.
Qed.

Definition line_add (l : voteline) (c : str) (si : scoreinfo) : scoreinfo :=
  match dget c (v_prefs l) with Some p => si_add (v_qty l) (pref_rating p) si | None => si end.

Lemma rating_on_pref l c : rating_on l c = match dget c (v_prefs l) with Some p => pref_rating p | None => 0 end.
Proof. unfold rating_on, pref_rating. destruct (dget c (v_prefs l)); reflexivity. Qed.

Lemma line_add_eq l c si : line_add l c si = si_add (v_qty l) (rating_on l c) si.
Proof.
  unfold line_add. rewrite rating_on_pref. destruct (dget c (v_prefs l)) as [p|]; [reflexivity|].
  unfold si_add. destruct si; simpl. f_equal; lia.
Qed.

Lemma score_lines_ok cs ls g :
  NoDup cs -> (forall l, In l ls -> line_ok cs l /\ line_rated l = true) ->
  foldM (fun acc l => foldM (score_step (v_qty l)) (v_prefs l) acc) ls (dmap cs g) =
  Ok (dmap cs (fun c => ScoreInfo (si_candname (g c))
        (si_score (g c) + zsum (map (fun l => v_qty l * rating_on l c) ls))
        (si_votercount (g c) + ballots_where (fun l => 0 <? rating_on l c) ls) (si_rank (g c)))).
Proof.
  intro Hn. revert g; induction ls as [|l r IH]; intros g H; cbn [foldM].
  - f_equal. apply dmap_ext. intros c _. unfold ballots_where. simpl. destruct (g c); simpl; f_equal; lia.
  - destruct (H l (or_introl eq_refl)) as [[H1 H2] H3].
    rewrite score_line_ok by assumption. cbn [bind]. rewrite IH by (intros; apply H; right; assumption).
    f_equal. apply dmap_ext. intros c _.
    change (match dget c (v_prefs l) with Some p => si_add (v_qty l) (pref_rating p) (g c) | None => g c end)
      with (line_add l c (g c)).
    rewrite line_add_eq. unfold si_add, ballots_where. cbn [map zsum si_candname si_score si_votercount si_rank].
    f_equal; [lia|]. destruct (Z.gtb_spec (rating_on l c) 0), (Z.ltb_spec 0 (rating_on l c)); lia.
Qed.

Definition cand_name (m : jabmod) (c : str) : str :=
  match dget c (j_candidates m) with Some n => n | None => [] end.

Definition total_score (m : jabmod) (c : str) : Z :=
  zsum (map (fun l => v_qty l * rating_on l c) (j_votelines m)).
Definition supporters (m : jabmod) (c : str) : Z :=
  ballots_where (fun l => 0 <? rating_on l c) (j_votelines m).

Definition scorable (m : jabmod) : Prop :=
  NoDup (cands m) /\ forall l, In l (j_votelines m) -> line_ok (cands m) l /\ line_rated l = true.

Lemma basic_score_ok m : scorable m ->
  basic_score_result m =
  Ok (dmap (cands m) (fun c => ScoreInfo (cand_name m c) (total_score m c) (supporters m c) None)).
Proof.
  intros [Hn H]. unfold basic_score_result.
  rewrite (fold_dset_nodup (fun kv => ScoreInfo (snd kv) 0 0 None)) by exact Hn. cbn [app].
  assert (E : map (fun kv : str * str => (fst kv, ScoreInfo (snd kv) 0 0 None)) (j_candidates m)
            = dmap (cands m) (fun c => ScoreInfo (cand_name m c) 0 0 None)).
  { unfold dmap, cands. rewrite map_map. apply map_ext_in. intros [k v] Hk. simpl. unfold cand_name.
    rewrite (dget_In_nodup k v); [reflexivity|exact Hn|exact Hk]. }
  rewrite E, score_lines_ok by assumption. reflexivity.
Qed.

(** ** Dense ranks *)

Lemma distinct_incl l l' : incl l l' -> distinct_values l <= distinct_values l'.
Proof.
  intro H. unfold distinct_values. apply inj_le. apply NoDup_incl_length; [apply NoDup_nodup|].
  intros x Hx. apply nodup_In. apply H. apply nodup_In in Hx. exact Hx.
Qed.
Lemma distinct_same l l' : (forall x, In x l <-> In x l') -> distinct_values l = distinct_values l'.
Proof. intro H. apply Z.le_antisymm; apply distinct_incl; intros x Hx; apply H; exact Hx. Qed.

Lemma distinct_cons x l : distinct_values (x :: l) = if in_dec Z.eq_dec x l then distinct_values l else 1 + distinct_values l.
Proof.
  unfold distinct_values. cbn [nodup]. destruct (in_dec Z.eq_dec x l); [reflexivity|]. cbn [length]. lia.
Qed.

(** [done] is the reversed list of values already processed. *)
Lemma rank_loop_ok (f : str -> Z) cs :
  forall rl done prev rank g,
  NoDup cs -> incl rl cs -> NoDup rl ->
  (forall c, In c cs -> si_score (g c) = f c) ->
  StronglySorted (fun x y => y <= x) (map f rl) ->
  (forall x y, In x done -> In y (map f rl) -> y <= x) ->
  (match done with [] => prev = None | x :: r => prev = Some x /\ forall y, In y r -> x <= y end) ->
  rank = distinct_values done ->
  rank_loop prev rank rl (dmap cs g) =
  Ok (dmap cs (fun c => if memb c rl then
        ScoreInfo (si_candname (g c)) (si_score (g c)) (si_votercount (g c))
          (Some (dense_rank (f c) (done ++ map f rl))) else g c)).
Proof.
  induction rl as [|c r IH]; intros done prev rank g Hn Hi Hnr Hf Hs Hdr Hp Hr; simpl.
  - reflexivity.
  - assert (Hc : In c cs) by (apply Hi; left; reflexivity).
    unfold dgetE. rewrite dget_dmap, (proj2 (memb_In _ _) Hc). cbn [of_option bind].
    rewrite (Hf c Hc). rewrite dset_dmap by assumption.
    simpl in Hs. inversion Hs as [|? ? Hs' Hall]; subst. rewrite Forall_forall in Hall.
    inversion Hnr as [|? ? Hcr Hnr']; subst.
    set (rank' := match prev with None => _ | Some p => _ end).
    assert (Hrank' : rank' = distinct_values (f c :: done)).
    { unfold rank'. rewrite distinct_cons. destruct done as [|x d].
      - subst prev. destruct (in_dec Z.eq_dec (f c) []) as [[]|]; lia.
      - destruct Hp as [-> Hd]. destruct (Z.gtb_spec x (f c)).
        + destruct (in_dec Z.eq_dec (f c) (x :: d)) as [[Heq|Hin]|]; [lia| |lia].
          specialize (Hd _ Hin). lia.
        + assert (f c <= x) by (apply Hdr; left; reflexivity).
          assert (f c = x) by lia. destruct (in_dec Z.eq_dec (f c) (x :: d)) as [|Hni]; [lia|].
          exfalso; apply Hni; left; symmetry; assumption. }
    assert (Hdense : rank' = dense_rank (f c) (done ++ f c :: map f r)).
    { unfold dense_rank. rewrite Hrank'. rewrite filter_app. cbn [filter]. rewrite Z.ltb_irrefl.
      assert (Hnil : filter (fun x => f c <? x) (map f r) = []).
      { clear -Hall. induction (map f r) as [|y t IHt]; simpl; [reflexivity|].
        pose proof (Hall y (or_introl eq_refl)). destruct (f c <? y) eqn:E; [lia|].
        apply IHt. intros z Hz; apply Hall; right; exact Hz. }
      rewrite Hnil, app_nil_r.
      transitivity (distinct_values (f c :: filter (fun x => f c <? x) done)).
      - apply distinct_same. intro x. simpl. rewrite filter_In.
        split; [intros [H|H]; [auto|]|tauto].
        destruct (Z.eq_dec (f c) x); [auto|]. right. split; [exact H|].
        assert (f c <= x) by (apply Hdr; [exact H|left; reflexivity]). lia.
      - rewrite distinct_cons. destruct (in_dec Z.eq_dec _ _) as [Hin|]; [|reflexivity].
        apply filter_In in Hin as [_ Hlt]. lia. }
    rewrite (IH (f c :: done)); try assumption.
    + f_equal. apply dmap_ext. intros x Hx. rewrite (str_eqb_sym c x).
      destruct (str_eqb_spec x c) as [->|nx]; simpl.
      * rewrite (proj2 (memb_nIn _ _) Hcr). rewrite <- Hdense, <- (Hf c Hc). reflexivity.
      * destruct (memb x r); [|reflexivity]. f_equal. f_equal. unfold dense_rank. f_equal.
        apply distinct_same. intro y. rewrite !filter_In. simpl. rewrite !in_app_iff. simpl. tauto.
    + intros z Hz; apply Hi; right; exact Hz.
    + intros x Hx. destruct (str_eqb_spec c x) as [->|]; simpl; auto.
    + intros x y [<-|Hx] Hy; [auto|]. apply Hdr; [exact Hx|right; exact Hy].
    + split; [reflexivity|]. intros y Hy. apply Hdr; [exact Hy|left; reflexivity].
Qed.

Lemma sorted_map {A} (k : A -> Z) (R : Z -> Z -> Prop) l :
  StronglySorted (fun x y => R (k x) (k y)) l -> StronglySorted R (map k l).
Proof.
  induction 1 as [|x r Hr IH Hf]; simpl; constructor; auto.
  rewrite Forall_forall in *. intros y Hy. apply in_map_iff in Hy as [z [<- Hz]]. auto.
Qed.

(** The complete score result. *)
Definition final_info (m : jabmod) (c : str) : scoreinfo :=
  ScoreInfo (cand_name m c) (total_score m c) (supporters m c)
    (Some (dense_rank (total_score m c) (map (total_score m) (cands m)))).

Definition score_order (m : jabmod) : list str := sort_desc (total_score m) (cands m).

Lemma dense_rank_perm z l l' : Permutation l l' -> dense_rank z l = dense_rank z l'.
Proof.
  intro P. unfold dense_rank. f_equal. apply distinct_same. intro x. rewrite !filter_In.
  split; intros [H1 H2]; split; auto; [apply (Permutation_in _ P)|apply (Permutation_in _ (Permutation_sym P))]; exact H1.
Qed.

Lemma enhanced_ok m bc : scorable m -> dget k_ballotcount (j_metadata m) = Some bc ->
  enhanced_score_result m =
  Ok (ScoreRes (dmap (cands m) (final_info m)) (score_order m) (zsum (map (total_score m) (cands m))) bc).
Proof.
  intros H Hbc. pose proof H as [Hn _]. unfold enhanced_score_result. rewrite basic_score_ok by exact H. cbn [bind].
  rewrite dkeys_dmap.
  set (g := fun c => ScoreInfo (cand_name m c) (total_score m c) (supporters m c) None).
  assert (Ho : sort_desc (info_score (dmap (cands m) g)) (cands m) = score_order m).
  { apply sort_desc_ext. intros c Hc. unfold info_score. rewrite dget_dmap, (proj2 (memb_In _ _) Hc). reflexivity. }
  rewrite Ho. assert (P : Permutation (score_order m) (cands m)) by apply sort_desc_perm.
  rewrite (rank_loop_ok (total_score m) (cands m) (score_order m) []).
  - cbn [bind app]. unfold dgetE. rewrite Hbc. cbn [of_option bind]. f_equal. f_equal.
    + apply dmap_ext. intros c Hc.
      rewrite (proj2 (memb_In c (score_order m))) by (apply (Permutation_in _ (Permutation_sym P)); exact Hc).
      unfold final_info, g. cbn. f_equal. f_equal. apply dense_rank_perm. apply Permutation_map; exact P.
    + unfold dmap. rewrite map_map. apply zsum_map_ext. intros c Hc. cbn [snd].
      destruct (memb c (score_order m)); reflexivity.
  - exact Hn.
  - intros x Hx. apply (Permutation_in _ P); exact Hx.
  - apply (Permutation_NoDup (Permutation_sym P)); exact Hn.
  - reflexivity.
  - apply (sorted_map (total_score m) (fun x y => y <= x)). apply sort_desc_sorted.
  - intros x y [].
  - reflexivity.
  - reflexivity.
Qed.

Lemma enhanced_err m : scorable m -> dget k_ballotcount (j_metadata m) = None ->
  enhanced_score_result m = Err KeyError.
Proof.
  intros H Hbc. pose proof H as [Hn _]. unfold enhanced_score_result. rewrite basic_score_ok by exact H. cbn [bind].
  rewrite dkeys_dmap.
  set (g := fun c => ScoreInfo (cand_name m c) (total_score m c) (supporters m c) None).
  assert (Ho : sort_desc (info_score (dmap (cands m) g)) (cands m) = score_order m).
  { apply sort_desc_ext. intros c Hc. unfold info_score. rewrite dget_dmap, (proj2 (memb_In _ _) Hc). reflexivity. }
  rewrite Ho. assert (P : Permutation (score_order m) (cands m)) by apply sort_desc_perm.
  rewrite (rank_loop_ok (total_score m) (cands m) (score_order m) []).
  - cbn [bind app]. unfold dgetE. rewrite Hbc. reflexivity.
  - exact Hn.
  - intros x Hx. apply (Permutation_in _ P); exact Hx.
  - apply (Permutation_NoDup (Permutation_sym P)); exact Hn.
  - reflexivity.
  - apply (sorted_map (total_score m) (fun x y => y <= x)). apply sort_desc_sorted.
  - intros x y [].
  - reflexivity.
  - reflexivity.
Qed.
