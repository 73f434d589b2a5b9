(** * ParserPrefs: lemmas about preference texts *)

From Verif Require Import PyBase PyFacts Jabmod Regex RegexFacts WordTable ScoreModel ScoreFacts Spec ParserModel ParserSpec ParserFacts.
Local Open Scope Z_scope.

(** ** Ranks from ratings *)

(** The rating of a candidate's dict as a number, 0 if absent. *)
Definition pref_num (p : pref) : Z :=
  match p_rating p with Some r => match rating_int r with Ok z => z | Err _ => 0 end | None => 0 end.
Definition pref_readable (p : pref) : Prop := match p_rating p with Some r => readable r = true | None => True end.
Definition has_rank (p : pref) : bool := match p_rank p with Some z => negb (z =? 0) | None => false end.
Definition fill_rank (k : Z) (p : pref) : pref := if has_rank p then p else set_rank k p.

Lemma rating_or_0_ok p : pref_readable p -> rating_or_0 p = Ok (pref_num p).
Proof.
  unfold pref_readable, rating_or_0, pref_num, readable. destruct (p_rating p) as [r|]; [|reflexivity].
  destruct (rating_int r); [reflexivity|discriminate].
Qed.

Lemma assign_ranks_ok (f : str -> Z) cs rl : forall done prev g,
  NoDup cs -> incl rl cs -> NoDup rl ->
  StronglySorted (fun x y => y <= x) (map f rl) ->
  (forall x y, In x done -> In y (map f rl) -> y <= x) ->
  match done with [] => prev = None
             | x :: d => prev = Some (x, distinct_values done) /\ (forall y, In y d -> x <= y) end ->
  assign_ranks prev (map (fun c => (c, f c)) rl) (dmap cs g) =
  Ok (dmap cs (fun c => if memb c rl then fill_rank (dense_rank (f c) (done ++ map f rl)) (g c) else g c)).
Proof.
  induction rl as [|c r IH]; intros done prev g Hn Hi Hnr Hs Hdr Hp; cbn [map assign_ranks].
  - reflexivity.
  - assert (Hc : In c cs) by (apply Hi; left; reflexivity).
    cbn [map] in Hs. inversion Hs as [|? ? Hs' Hall]; subst. rewrite Forall_forall in Hall.
    inversion Hnr as [|? ? Hcr Hnr']; subst.
    set (rk := match prev with None => _ | Some _ => _ end).
    assert (Hrk : rk = Ok (distinct_values (f c :: done))).
    { unfold rk. rewrite distinct_cons. destruct done as [|x d].
      - subst prev. destruct (in_dec Z.eq_dec (f c) []) as [[]|]; reflexivity.
      - destruct Hp as [-> Hd].
        assert (Hle : f c <= x) by (apply Hdr; left; reflexivity).
        destruct (Z.ltb_spec (f c) x).
        + destruct (in_dec Z.eq_dec (f c) (x :: d)) as [[Heq|Hin]|]; [lia| |f_equal; lia].
          specialize (Hd _ Hin). lia.
        + destruct (Z.eqb_spec (f c) x) as [Ex|]; [|lia].
          destruct (in_dec Z.eq_dec (f c) (x :: d)) as [|Hni]; [reflexivity|].
          exfalso; apply Hni; left; symmetry; assumption. }
    rewrite Hrk. cbn [bind].
    rewrite dmodE_dmap by assumption. cbn [bind].
    assert (Hdense : distinct_values (f c :: done) = dense_rank (f c) (done ++ f c :: map f r)).
    { unfold dense_rank. rewrite filter_app. cbn [filter]. rewrite Z.ltb_irrefl.
      assert (Hnil : filter (fun x => f c <? x) (map f r) = []).
      { clear -Hall. induction (map f r) as [|y t IHt]; simpl; [reflexivity|].
        pose proof (Hall y (or_introl eq_refl)). destruct (f c <? y) eqn:E; [lia|].
        apply IHt. intros z Hz; apply Hall; right; exact Hz. }
      rewrite Hnil, app_nil_r.
      transitivity (distinct_values (f c :: filter (fun x => f c <? x) done)).
      - apply distinct_same. intro x. simpl. rewrite filter_In.
        split; [intros [H|H]; [auto|]|tauto].
        destruct (Z.eq_dec (f c) x); [auto|]. right. split; [exact H|].
        assert (f c <= x) by (apply Hdr; [exact H|left; reflexivity]). lia.
      - rewrite distinct_cons. destruct (in_dec Z.eq_dec _ _) as [Hin|]; [|reflexivity].
        apply filter_In in Hin as [_ Hlt]. lia. }
    rewrite (IH (f c :: done)); try assumption.
    + f_equal. apply dmap_ext. intros x Hx. rewrite (str_eqb_sym c x). cbn [memb].
      destruct (str_eqb_spec x c) as [->|nx]; cbn [orb].
      * rewrite (proj2 (memb_nIn _ _) Hcr). rewrite <- Hdense. unfold fill_rank, has_rank.
        destruct (p_rank (g c)) as [z|]; [destruct (z =? 0)|]; reflexivity.
      * destruct (memb x r); [|reflexivity]. f_equal. unfold dense_rank. f_equal.
        apply distinct_same. intro y. rewrite !filter_In. simpl. rewrite !in_app_iff. simpl. tauto.
    + intros z Hz; apply Hi; right; exact Hz.
    + intros x y [<-|Hx] Hy; [auto|]. apply Hdr; [exact Hx|right; exact Hy].
    + split; [reflexivity|]. intros y Hy. apply Hdr; [exact Hy|left; reflexivity].
Qed.

Lemma add_ranks_ok (prefs : dict pref) : NoDup (dkeys prefs) -> (forall c p, In (c, p) prefs -> pref_readable p) ->
  add_ranks_by_rating prefs =
  Ok (map (fun kv => (fst kv, fill_rank (dense_rank (pref_num (snd kv)) (map (fun kv => pref_num (snd kv)) prefs)) (snd kv))) prefs).
Proof.
  intros Hn Hr. unfold add_ranks_by_rating.
  rewrite (mapM_ok _ (fun kv => (fst kv, pref_num (snd kv)))).
  2: { intros [c p] Hin. cbn [fst snd]. rewrite rating_or_0_ok by (apply (Hr c); exact Hin). reflexivity. }
  cbn [bind].
  set (val := fun k => match dget k prefs with Some p => p | None => empty_pref end).
  assert (Hp : prefs = dmap (dkeys prefs) val) by (apply dict_as_dmap; exact Hn).
  set (cs := dkeys prefs) in *. set (f := fun c => pref_num (val c)).
  assert (E1 : map (fun kv => (fst kv, pref_num (snd kv))) prefs = map (fun c => (c, f c)) cs).
  { rewrite Hp. unfold dmap. rewrite map_map. reflexivity. }
  assert (E2 : map (fun kv => pref_num (snd kv)) prefs = map f cs).
  { rewrite Hp. unfold dmap. rewrite map_map. reflexivity. }
  unfold dict in *. rewrite E1, E2.
  assert (Es : sort_desc snd (map (fun c => (c, f c)) cs) = map (fun c => (c, f c)) (sort_desc f cs)).
  { unfold sort_desc. symmetry. apply (sort_by_map (fun c => (c, f c))). reflexivity. }
  rewrite Es. assert (P : Permutation (sort_desc f cs) cs) by apply sort_desc_perm.
  rewrite Hp at 1. rewrite (assign_ranks_ok f cs (sort_desc f cs) []).
  - f_equal. rewrite Hp at 1. unfold dmap. rewrite map_map. apply map_ext_in. intros c Hc. cbn [fst snd app].
    rewrite (proj2 (memb_In c (sort_desc f cs))) by (apply (Permutation_in _ (Permutation_sym P)); exact Hc).
    f_equal. f_equal. apply dense_rank_perm. apply Permutation_map; exact P.
  - exact Hn.
  - intros x Hx. apply (Permutation_in _ P); exact Hx.
  - apply (Permutation_NoDup (Permutation_sym P)); exact Hn.
  - apply (sorted_map f (fun x y => y <= x)). apply sort_desc_sorted.
  - intros x y [].
  - reflexivity.
Qed.

Lemma distinct_values_le l : distinct_values l <= Z.of_nat (length l).
Proof.
  unfold distinct_values. apply inj_le. induction l as [|x l IH]; cbn; [lia|].
  destruct (in_dec Z.eq_dec x l); cbn; lia.
Qed.

Lemma filter_len {A} (p : A -> bool) l : (length (filter p l) <= length l)%nat.
Proof. induction l as [|x l IH]; cbn; [lia|]. destruct (p x); cbn; lia. Qed.

Lemma dense_rank_bounds z l : In z l -> 1 <= dense_rank z l <= Z.of_nat (length l).
Proof.
  intro H. unfold dense_rank. pose proof (distinct_values_le (filter (fun x => z <? x) l)) as H0.
  assert (Hf : Z.of_nat (length (filter (fun x => z <? x) l)) < Z.of_nat (length l)).
  { clear H0. induction l as [|x l IH]; [destruct H|]. cbn [filter]. destruct (z <? x) eqn:E; cbn [length].
    - destruct H as [->|H]; [lia|]. specialize (IH H). lia.
    - pose proof (filter_len (fun x => z <? x) l). lia. }
  unfold distinct_values in *. lia.
Qed.

Lemma dense_rank_1 l : l <> [] -> exists z, In z l /\ dense_rank z l = 1.
Proof.
  intro Hne. assert (H : exists z, In z l /\ forall y, In y l -> y <= z).
  { induction l as [|x l IH]; [congruence|]. destruct l as [|y l]; [exists x; cbn; intuition lia|].
    destruct IH as (z&Hz&Hm); [discriminate|]. destruct (Z.le_gt_cases x z).
    - exists z. split; [right; exact Hz|]. intros w [<-|Hw]; auto.
    - exists x. split; [left; reflexivity|]. intros w [<-|Hw]; [lia|]. specialize (Hm w Hw). lia. }
  destruct H as (z&Hz&Hm). exists z. split; [exact Hz|]. unfold dense_rank.
  assert (E : filter (fun x => z <? x) l = []).
  { clear Hz Hne. induction l as [|x l IH]; cbn; [reflexivity|]. assert (x <= z) by (apply Hm; left; reflexivity).
    destruct (z <? x) eqn:E; [lia|]. apply IH. intros; apply Hm; right; assumption. }
  rewrite E. reflexivity.
Qed.

(** ** The loop over the candidates of the line *)

(** A rating the reader produces: a non-negative number, or a numeral as text. *)
Definition rating_fine (r : ratingval) : Prop :=
  match r with RInt z => 0 <= z | RStr s => numeral s end.
Definition orating_fine (r : option ratingval) : Prop := match r with Some r => rating_fine r | None => True end.

Lemma rating_fine_readable r : rating_fine r -> readable r = true.
Proof.
  destruct r as [z|s]; cbn; [reflexivity|]. intro H. unfold readable. cbn.
  destruct (py_int_numeral s H) as (n&_&->). reflexivity.
Qed.
Lemma rating_fine_nonneg r z : rating_fine r -> rating_int r = Ok z -> 0 <= z.
Proof.
  destruct r as [y|s]; cbn; [intros H E; apply ok_inj in E; lia|]. intros H E. exact (py_int_numeral_nonneg s z H E).
Qed.

(** What holds of each candidate's dict after the loop: [hi] bounds the ranks; without a rank in
    rating mode. *)
Definition entry_ok (mode : rankmode) (hi : Z) (p : pref) : Prop :=
  match mode with MRate => p_rank p = None | _ => exists z, p_rank p = Some z /\ 1 <= z <= hi end /\
  orating_fine (p_rating p) /\ (forall r, p_rating p = Some r -> rating_truthy r = true).

Lemma entry_ok_mono mode hi hi' p : hi <= hi' -> entry_ok mode hi p -> entry_ok mode hi' p.
Proof.
  intros Hle (H1&H2). split; [|exact H2]. destruct mode; auto; destruct H1 as (z&Ez&Hz); exists z; split; auto; lia.
Qed.

Lemma dset_In {V} k (v : V) d c p : In (c, p) (dset k v d) -> (c, p) = (k, v) \/ In (c, p) d.
Proof.
  induction d as [|[k' v'] r IH]; cbn; [intuition|]. destruct (str_eqb_spec k k') as [->|n]; cbn.
  - intros [H|H]; auto.
  - intros [H|H]; [auto|]. destruct (IH H); auto.
Qed.

Lemma prefs_loop_inv mode ds n : forall cps i rank prefs prefs',
  prefs_loop mode ds n i rank cps prefs = Ok prefs' ->
  1 <= rank <= Z.of_nat i + 1 ->
  (forall c r, In (c, r) cps -> orating_fine r) ->
  NoDup (dkeys prefs) -> (forall c p, In (c, p) prefs -> entry_ok mode (Z.of_nat i) p) ->
  NoDup (dkeys prefs') /\
  (forall c p, In (c, p) prefs' -> entry_ok mode (Z.of_nat (i + length cps)) p) /\
  (forall c, In c (dkeys prefs') <-> In c (map fst cps) \/ In c (dkeys prefs)).
Proof.
  induction cps as [|[cand rating] r IH]; intros i rank prefs prefs' H Hrk Hr Hn Hp; cbn [prefs_loop] in H.
  - apply ok_inj in H. subst. cbn. rewrite Nat.add_0_r. split; [exact Hn|]. split; [exact Hp|]. tauto.
  - set (p0 := match rating with Some rv => _ | None => _ end) in H.
    assert (Hp0 : p_rank p0 = None /\ orating_fine (p_rating p0) /\ (forall r, p_rating p0 = Some r -> rating_truthy r = true)).
    { unfold p0. specialize (Hr cand rating (or_introl eq_refl)). destruct rating as [rv|]; [|cbn; repeat split; discriminate].
      destruct (rating_truthy rv) eqn:Et; cbn; repeat split; auto; try discriminate. intros r0 E; apply some_inj in E; subst; exact Et. }
    apply bind_ok in H as [[p1 rank1] [E1 H]]. apply bind_ok in H as [p2 [E2 H]].
    assert (Hp1 : entry_ok mode (Z.of_nat (S i)) p1 /\ 1 <= rank1 <= Z.of_nat (S i) + 1).
    { destruct Hp0 as (Hp0&Hp0'). destruct mode.
      - destruct (i <? n - 1)%nat; [apply bind_ok in E1 as [d [_ E1]]; destruct (N.eqb d ch_gt)|];
          apply ok_inj in E1; injection E1 as <- <-; (split; [split; [exists rank; cbn; split; [reflexivity|lia]|exact Hp0']|lia]).
      - apply ok_inj in E1; injection E1 as <- <-. split; [split; [exact Hp0|exact Hp0']|lia].
      - apply ok_inj in E1; injection E1 as <- <-. split; [split; [exists 1; cbn; split; [reflexivity|lia]|exact Hp0']|lia]. }
    destruct Hp1 as [Hp1 Hrk1].
    assert (Hp2 : entry_ok mode (Z.of_nat (S i)) p2).
    { destruct (i <? n - 1)%nat; [apply bind_ok in E2 as [d [_ E2]]|]; apply ok_inj in E2; subst p2; exact Hp1. }
    apply IH in H.
    + destruct H as (H1&H2&H3). split; [exact H1|]. split.
      * intros c p Hc. cbn [length]. replace (i + S (length r))%nat with (S i + length r)%nat by lia. apply (H2 c p Hc).
      * intro c. rewrite H3. cbn [map fst]. cbn [In]. rewrite In_dkeys_dset. intuition congruence.
    + exact Hrk1.
    + intros c r0 Hc. apply (Hr c). right; exact Hc.
    + apply NoDup_dset. exact Hn.
    + intros c p Hc. apply dset_In in Hc as [Hc|Hc].
      * injection Hc as -> ->. exact Hp2.
      * apply (entry_ok_mono _ (Z.of_nat i)); [lia|]. apply (Hp c p Hc).
Qed.

(** ** Candidates of a preference text *)

Lemma split_rating_numeral tok b ds : split_rating tok = Some (b, ds) -> numeral ds.
Proof.
  revert b; induction tok as [|c r IH]; intros b H; cbn [split_rating] in H; [discriminate|].
  destruct (re_match SLASH_RATING (c :: r)) as [[g s']|] eqn:E.
  - injection H as _ <-. apply re_match_sound in E. unfold SLASH_RATING, RSeqs in E.
    rewrite rmat_seq_inv in E. destruct E as (s1&g1&E1&E).
    rewrite rmat_seq_inv in E. destruct E as (s2&g2&E2&E).
    apply rmat_chr_inv in E1 as (x&_&_&->).
    rewrite rmat_grp_inv in E2. destruct E2 as (a&h1&Ea&->&E2).
    rewrite rmat_plus_inv in E2. destruct E2 as (a'&Hne&Ea'&Ha&->).
    rewrite rmat_end_inv in E. destruct E as (->&->&_). cbn.
    rewrite Ea in Ea'. apply app_inv_tail in Ea'. subst a'. split; assumption.
  - destruct (split_rating r) as [[b' ds']|] eqn:Er; [|discriminate]. injection H as _ <-. exact (IH b' eq_refl).
Qed.

Lemma quoted_rated_numeral tok g s' : re_match QUOTED_RATED tok = Some (g, s') -> numeral (group 2 g).
Proof.
  intro E. apply re_match_sound in E. unfold QUOTED_RATED, RSeqs in E.
  do 5 (rewrite rmat_seq_inv in E; let s1 := fresh "s" in let g1 := fresh "g" in let E1 := fresh "E" in destruct E as (s1&g1&E1&E)).
  rewrite rmat_grp_inv in E. destruct E as (a&h1&Ea&->&E). cbn.
  rewrite rmat_plus_inv in E. destruct E as (a'&Hne&Ea'&Ha&_).
  rewrite Ea in Ea'. apply app_inv_tail in Ea'. subst a'. split; assumption.
Qed.

Lemma set_last_In {A} (x : A) l l' y : set_last x l = Ok l' -> In y l' -> y = x \/ In y l.
Proof.
  unfold set_last. destruct l as [|z l]; [discriminate|]. intros E Hy. apply ok_inj in E. subst l'.
  apply in_app_or in Hy as [Hy|[<-|[]]]; [|auto]. right.
  rewrite (app_removelast_last z (l := z :: l)) by discriminate. apply in_or_app. left; exact Hy.
Qed.

Lemma xstep_ratings st tok st' : xstep st tok = Ok st' ->
  (forall c r, In (c, r) (x_ret st) -> orating_fine r) -> forall c r, In (c, r) (x_ret st') -> orating_fine r.
Proof.
  destruct st as [ret inbr inq qtok ccand]. unfold xstep. cbn [x_ret]. intros H HR c r.
  destruct (inbr || inq).
  - destruct (starts_with (N.eqb ch_lbr) tok && negb inbr); [apply ok_inj in H; subst; apply HR|].
    destruct (starts_with (N.eqb ch_rbr) tok && inbr).
    { apply ok_inj in H; subst. cbn [x_ret]. intro Hin. apply in_app_or in Hin as [Hin|[Hin|[]]]; [exact (HR _ _ Hin)|].
      injection Hin as _ <-. exact I. }
    destruct (starts_with (N.eqb ch_dq) (lstrip tok)).
    { destruct inq; [|apply ok_inj in H; subst; apply HR].
      apply bind_ok in H as [ret' [E H]]. apply ok_inj in H. subst. cbn [x_ret]. intro Hin.
      destruct (set_last_In _ _ _ _ E Hin) as [Hx|Hx]; [injection Hx as _ ->; exact I|exact (HR _ _ Hx)]. }
    destruct tok; [discriminate|]. apply ok_inj in H; subst; apply HR.
  - destruct (re_match QUOTED_RATED tok) as [[g s']|] eqn:E1.
    { apply ok_inj in H; subst. cbn [x_ret]. intro Hin. apply in_app_or in Hin as [Hin|[Hin|[]]]; [exact (HR _ _ Hin)|].
      injection Hin as _ <-. cbn. exact (quoted_rated_numeral _ _ _ E1). }
    destruct (re_match QUOTED tok) as [[g s']|] eqn:E2; [apply ok_inj in H; subst; apply HR|].
    destruct (starts_with (fun c0 => negb (is_delim c0)) (lstrip tok)).
    2:{ destruct (starts_with (N.eqb ch_lbr) tok); apply ok_inj in H; subst; apply HR. }
    destruct (split_rating tok) as [[b d]|] eqn:E3.
    + assert (HR1 : forall c r, In (c, r) (fst (match b with [] => (ret, ccand) | _ :: _ => (ret ++ [(b, None)], b) end)) -> orating_fine r).
      { destruct b; [exact HR|]. cbn [fst]. intros c0 r0 Hin. apply in_app_or in Hin as [Hin|[Hin|[]]]; [exact (HR _ _ Hin)|].
        injection Hin as _ <-. exact I. }
      destruct (match b with [] => (ret, ccand) | _ :: _ => (ret ++ [(b, None)], b) end) as [ret1 ccand1].
      cbn [fst] in HR1. apply bind_ok in H as [z [Ez H]]. apply bind_ok in H as [ret' [E H]]. apply ok_inj in H. subst. cbn [x_ret]. intro Hin.
      destruct (set_last_In _ _ _ _ E Hin) as [Hx|Hx]; [injection Hx as _ ->|exact (HR1 _ _ Hx)].
      cbn. exact (py_int_numeral_nonneg d z (split_rating_numeral _ _ _ E3) Ez).
    + destruct tok as [|x tok]; apply ok_inj in H; subst; cbn [x_ret]; [apply HR|]. intro Hin.
      apply in_app_or in Hin as [Hin|[Hin|[]]]; [exact (HR _ _ Hin)|]. injection Hin as _ <-. exact I.
Qed.

Lemma extract_ratings s cps : extract_candprefs s = Ok cps -> forall c r, In (c, r) cps -> orating_fine r.
Proof.
  unfold extract_candprefs. intro H. apply bind_ok in H as [st [E H]]. apply ok_inj in H. subst.
  refine (foldM_invariant (fun st tok => xstep st (strip tok)) (fun st => forall c r, In (c, r) (x_ret st) -> orating_fine r) _ _ st _ _ E).
  - intros st0 tok st1 HR _ E0. exact (xstep_ratings _ _ _ E0 HR).
  - intros c r [].
Qed.

(** ** Everything a parsed preference text satisfies *)

Definition prefs_good (mentions : Z) (prefs : dict pref) : Prop :=
  NoDup (dkeys prefs) /\
  forall c p, In (c, p) prefs ->
    (exists z, p_rank p = Some z /\ 1 <= z <= mentions) /\
    forall r, p_rating p = Some r -> rating_fine r /\ rating_truthy r = true.

Lemma parse_prefstr_shape s prefs keys : parse_prefstr s = Ok (prefs, keys) ->
  exists cps prefs0,
    extract_candprefs s = Ok cps /\ keys = map fst cps /\
    prefs_loop (fst (rank_or_rate s)) (snd (rank_or_rate s)) (length cps) 0 1 cps [] = Ok prefs0 /\
    prefs = map (fun kv => (fst kv, fill_rank (dense_rank (pref_num (snd kv)) (map (fun kv => pref_num (snd kv)) prefs0)) (snd kv))) prefs0.
Proof.
  unfold parse_prefstr. destruct (rank_or_rate s) as [mode ds]. cbn [fst snd]. intro H.
  apply bind_ok in H as [cps [Ec H]]. apply bind_ok in H as [prefs0 [E0 H]]. apply bind_ok in H as [prefs1 [E1 H]].
  exists cps, prefs0. split; [exact Ec|].
  destruct (prefs_loop_inv _ _ _ _ _ _ _ _ E0) as (Hn&He&Hk); [lia|exact (extract_ratings _ _ Ec)|constructor|intros c p []|].
  assert (Hr : forall c p, In (c, p) prefs0 -> pref_readable p).
  { intros c p Hin. destruct (He c p Hin) as (_&Hf&_). unfold pref_readable. destruct (p_rating p); [|exact I].
    apply rating_fine_readable. exact Hf. }
  rewrite (add_ranks_ok prefs0 Hn Hr) in E1. apply ok_inj in E1.
  destruct (map fst cps) as [|c0 ks] eqn:Eks.
  - apply ok_inj in H. injection H as <- <-. split; [reflexivity|]. split; [exact E0|].
    apply map_eq_nil in Eks. subst cps. cbn in E0. apply ok_inj in E0. subst prefs0. reflexivity.
  - apply bind_ok in H as [p [Ep H]].
    assert (Hp : has_rank p = true).
    { unfold dgetE, of_option in Ep. destruct (dget c0 prefs1) as [q|] eqn:Eg; [|discriminate]. apply ok_inj in Ep. subst q.
      apply dget_In in Eg. rewrite <- E1 in Eg. apply in_map_iff in Eg as ([c1 p1]&Eq&Hin). cbn [fst snd] in Eq. injection Eq as _ <-.
      unfold fill_rank. destruct (has_rank p1) eqn:Eh; [exact Eh|]. unfold has_rank. cbn [set_rank p_rank].
      assert (Hb : 1 <= dense_rank (pref_num p1) (map (fun kv => pref_num (snd kv)) prefs0)).
      { apply dense_rank_bounds. apply in_map_iff. exists (c1, p1). split; [reflexivity|exact Hin]. }
      destruct (Z.eqb_spec (dense_rank (pref_num p1) (map (fun kv => pref_num (snd kv)) prefs0)) 0); [lia|reflexivity]. }
    assert (Hcond : negb (match p_rank p with Some z => negb (z =? 0) | None => false end) = false)
      by (unfold has_rank in Hp; rewrite Hp; reflexivity).
    rewrite Hcond, andb_false_r in H. apply ok_inj in H. injection H as <- <-. auto.
Qed.

Lemma prefs_keys_nodup_le {A B} (l : list (str * A)) (ks : list B) (k : list str) :
  NoDup (map fst l) -> (forall c, In c (map fst l) -> In c k) -> (length l <= length k)%nat.
Proof. intros Hn Hi. rewrite <- (map_length fst l). apply NoDup_incl_length; assumption. Qed.

Lemma fill_rank_facts k p : p_rating (fill_rank k p) = p_rating p /\ p_nextdelim (fill_rank k p) = p_nextdelim p /\
  p_rank (fill_rank k p) = if has_rank p then p_rank p else Some k.
Proof. unfold fill_rank. destruct (has_rank p); auto. Qed.

Lemma parse_prefstr_good s prefs keys : parse_prefstr s = Ok (prefs, keys) ->
  prefs_good (Z.of_nat (length keys)) prefs /\ (forall c, In c (dkeys prefs) <-> In c keys).
Proof.
  intro H. destruct (parse_prefstr_shape _ _ _ H) as (cps&prefs0&Ec&->&E0&Ep).
  destruct (prefs_loop_inv _ _ _ _ _ _ _ _ E0) as (Hn&He&Hk); [lia|exact (extract_ratings _ _ Ec)|constructor|intros c p []|].
  assert (Hkeys : dkeys prefs = dkeys prefs0) by (rewrite Ep; unfold dkeys; rewrite map_map; reflexivity).
  assert (Hk' : forall c, In c (dkeys prefs0) <-> In c (map fst cps)).
  { intro c. rewrite Hk. cbn. tauto. }
  split; [split|].
  - unfold dkeys in *. rewrite Hkeys. exact Hn.
  - intros c p Hin. rewrite Ep in Hin. apply in_map_iff in Hin as ([c1 p1]&Eq&Hin). cbn [fst snd] in Eq. injection Eq as -> <-.
    destruct (He c p1 Hin) as (He1&He2&He3).
    set (dr := dense_rank (pref_num p1) (map (fun kv : str * pref => pref_num (snd kv)) prefs0)).
    destruct (fill_rank_facts dr p1) as (F1&_&F3). rewrite F1, F3. split.
    + rewrite map_length. assert (Hdr : 1 <= dr <= Z.of_nat (length cps)).
      { unfold dr. destruct (dense_rank_bounds (pref_num p1) (map (fun kv => pref_num (snd kv)) prefs0)) as [B1 B2].
        { apply in_map_iff. exists (c, p1). split; [reflexivity|exact Hin]. }
        rewrite map_length in B2. split; [exact B1|].
        assert ((length prefs0 <= length (map fst cps))%nat).
        { apply (prefs_keys_nodup_le prefs0 (@nil nat)); [exact Hn|]. intros c' Hc'. apply Hk'. exact Hc'. }
        rewrite map_length in H0. lia. }
      destruct (has_rank p1) eqn:Eh; [|eauto]. unfold has_rank in Eh.
      destruct (fst (rank_or_rate s)); cbn in He1; [|rewrite He1 in Eh; discriminate|];
        destruct He1 as (z&Ez&Hz); exists z; auto.
    + intros r Er. specialize (He3 r Er). rewrite Er in He2. auto.
  - intro c. rewrite Hkeys. apply Hk'.
Qed.
