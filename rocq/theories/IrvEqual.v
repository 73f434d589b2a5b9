(** * IrvEqual: instant runoff on ballots with equal ranks *)

From Verif Require Import PyBase PyFacts Jabmod PairwiseModel Spec PairwiseFacts IrvModel IrvFacts IrvStrict IrvTrace.
Local Open Scope Z_scope.

(** ** Specification: which candidate a ballot with equal ranks counts for *)

(** No other listed candidate of [cs] stands level with [c] on the ballot. *)
Definition has_own_rank (cs : list str) (l : voteline) (c : str) : bool :=
  forallb (fun d => str_eqb d c || negb (lists l d) || prefers l c d || prefers l d c) cs.

(** [c] is the highest candidate of [cs] on the ballot that has a rank of its own: everybody of [cs]
    placed above [c] shares a rank with somebody else of [cs]. *)
Definition counted_choice (cs : list str) (l : voteline) (c : str) : bool :=
  memb c cs && lists l c && has_own_rank cs l c &&
  forallb (fun d => negb (lists l d && prefers l d c && has_own_rank cs l d)) cs.

(** Nobody of [cs] has a rank of their own on the ballot. *)
Definition no_choice (cs : list str) (l : voteline) : bool :=
  forallb (fun c => negb (lists l c && has_own_rank cs l c)) cs.

(** The highest rank the ballot gives among [cs] is given to two candidates or more. *)
Definition first_shared (cs : list str) (l : voteline) : bool :=
  existsb (fun c => lists l c && negb (has_own_rank cs l c) &&
                    forallb (fun d => negb (lists l d && prefers l d c)) cs) cs.

(** Going through the list, a [bad] line is dropped and the line after it is kept unseen. *)
Fixpoint kept (bad : voteline -> bool) (ls : list voteline) : list voteline :=
  match ls with
  | [] => []
  | l :: r => if bad l then match r with [] => [] | l2 :: r2 => l2 :: kept bad r2 end
              else l :: kept bad r
  end.

(** The ranks are usable by the count: below the number the program takes for infinity, and the empty
    string is not a candidate. *)
Definition bounded_line (l : voteline) : Prop :=
  (forall c r, rank_on l c = Some r -> r < big_rank) /\ ~ In [] (map fst (v_prefs l)).

(** ** The tier search on a sorted list *)

Definition rks (ps : dict pref) (c : str) (x : Z) : Prop := exists p, In (c, p) ps /\ p_rank p = Some x.

Lemma rks_fun ps c x y : NoDup (map fst ps) -> rks ps c x -> rks ps c y -> x = y.
Proof.
  intros Hn (p&Hp&Ep) (q&Hq&Eq). assert (E1 := dget_In_nodup c p ps Hn Hp). assert (E2 := dget_In_nodup c q ps Hn Hq).
  rewrite E1 in E2. apply some_inj in E2. subst q. rewrite Ep in Eq. apply some_inj in Eq. exact Eq.
Qed.

Lemma sorted_split (rl : list (str * Z)) x : StronglySorted (fun a b => snd a <= snd b) rl ->
  rl = filter (fun kr => snd kr <=? x) rl ++ filter (fun kr => negb (snd kr <=? x)) rl.
Proof.
  induction 1 as [|a r Hs IH Hf]; [reflexivity|]. cbn [filter]. destruct (Z.leb_spec (snd a) x); cbn [negb app].
  - f_equal. exact IH.
  - rewrite Forall_forall in Hf.
    assert (E : filter (fun kr => snd kr <=? x) r = []).
    { clear IH. induction r as [|y r IHr]; [reflexivity|]. cbn [filter]. assert (snd a <= snd y) by (apply Hf; left; reflexivity).
      destruct (Z.leb_spec (snd y) x); [lia|]. inversion Hs; subst. apply IHr; [assumption|]. intros z Hz. apply Hf; right; exact Hz. }
    rewrite E in IH |- *. cbn [app] in *. f_equal. exact IH.
Qed.

(** [c] is alone at its rank in the dict; nobody with a higher rank is. *)
Definition own (ps : dict pref) (c : str) (x : Z) : Prop :=
  rks ps c x /\ forall d, rks ps d x -> d = c.

Lemma tier_facts ps k x r :
  NoDup (map fst ps) -> (forall c p, In (c, p) ps -> p_rank p <> None) ->
  (forall c y, rks ps c y -> y < big_rank) ->
  sort_asc snd (map with_rank ps) = (k, x) :: r ->
  let rl := (k, x) :: r in let y := tier_end rl x in
  let ps' := flat_map (fun k => match dget k ps with Some p => [(k, p)] | None => [] end) (map fst (skipn (S y) rl)) in
  rks ps k x /\ (forall c z, rks ps c z -> x <= z) /\
  (y = 0%nat -> forall c, rks ps c x -> c = k) /\
  (y <> 0%nat -> forall c, rks ps c x -> exists d, rks ps d x /\ d <> c) /\
  NoDup (map fst ps') /\ (forall c p, In (c, p) ps' -> In (c, p) ps) /\
  (forall c z, rks ps' c z <-> rks ps c z /\ x < z) /\ (length ps' < length ps)%nat.
Proof.
  intros Hn Hr Hb Es rl y ps'.
  assert (P : Permutation rl (map with_rank ps)) by (unfold rl; rewrite <- Es; apply sort_asc_perm).
  assert (Hss : StronglySorted (fun a b => snd a <= snd b) rl) by (unfold rl; rewrite <- Es; apply sort_asc_sorted).
  assert (HR : forall c z, In (c, z) rl <-> rks ps c z).
  { intros c z. split; intro H.
    - apply (Permutation_in _ P) in H. apply in_map_iff in H as [[c0 p0] [E Hi]]. unfold with_rank in E. cbn [fst snd] in E.
      injection E as <- <-. exists p0. split; [exact Hi|]. specialize (Hr _ _ Hi). unfold rk. destruct (p_rank p0); [reflexivity|congruence].
    - destruct H as (p&Hi&E). apply (Permutation_in _ (Permutation_sym P)). apply in_map_iff. exists (c, p).
      split; [unfold with_rank, rk; cbn [fst snd]; rewrite E; reflexivity|exact Hi]. }
  assert (Hnd : NoDup (map fst rl)).
  { apply (Permutation_NoDup (Permutation_map fst (Permutation_sym P))). rewrite map_map. exact Hn. }
  assert (Hmin : forall c z, rks ps c z -> x <= z).
  { intros c z H. apply HR in H. inversion Hss as [|? ? _ Hf]; subst. rewrite Forall_forall in Hf.
    destruct H as [H|H]; [injection H as _ <-; lia|]. exact (Hf _ H). }
  set (pre := filter (fun kr => snd kr <=? x) rl) in *. set (post := filter (fun kr => negb (snd kr <=? x)) rl) in *.
  assert (Esp : rl = pre ++ post) by (apply sorted_split; exact Hss).
  assert (Hpre : forall kr, In kr pre <-> In kr rl /\ snd kr = x).
  { intros [c z]. unfold pre. rewrite filter_In. cbn [snd]. split; intros [H1 H2]; (split; [exact H1|]).
    - pose proof (Hmin c z (proj1 (HR _ _) H1)). lia.
    - lia. }
  assert (Hpost : forall kr, In kr post <-> In kr rl /\ x < snd kr).
  { intros [c z]. unfold post. rewrite filter_In. cbn [snd]. split; intros [H1 H2]; (split; [exact H1|]); lia. }
  assert (Hk : In (k, x) pre) by (apply Hpre; split; [left; reflexivity|reflexivity]).
  assert (Ey : y = (length pre - 1)%nat).
  { unfold y, tier_end. rewrite Esp. rewrite map_app.
    replace (length (pre ++ post)) with (length (map snd pre ++ map snd post)) by (rewrite !app_length, !map_length; reflexivity).
    rewrite yloop_spec; [rewrite map_length; reflexivity| | | |].
    - intro E. apply map_eq_nil in E. rewrite E in Hk. destruct Hk.
    - intros z Hz. apply in_map_iff in Hz as [kr [<- Hz]]. apply Hpre in Hz. lia.
    - intros z Hz. apply in_map_iff in Hz as [kr [<- Hz]]. apply Hpost in Hz. lia.
    - apply (Hb k). apply HR. left; reflexivity. }
  assert (Esk : skipn (S y) rl = post).
  { rewrite Ey. destruct pre as [|a pre'] eqn:Epre; [destruct Hk|].
    replace (S (length (a :: pre') - 1)) with (length (a :: pre')) by (cbn [length]; lia).
    rewrite Esp. rewrite skipn_app, Nat.sub_diag, skipn_all. reflexivity. }
  assert (Hps' : ps' = flat_map (fun k => match dget k ps with Some p => [(k, p)] | None => [] end) (map fst post))
    by (unfold ps'; rewrite Esk; reflexivity).
  assert (Hnpost : NoDup (map fst post)).
  { rewrite Esp, map_app in Hnd. clear - Hnd. induction (map fst pre) as [|a q IH]; [exact Hnd|]. inversion Hnd; subst. apply IH; assumption. }
  assert (Hin' : forall c p, In (c, p) ps' <-> In (c, p) ps /\ In c (map fst post)).
  { intros c p. rewrite Hps'. rewrite in_flat_map. split.
    - intros (c0&Hc0&Hi). destruct (dget c0 ps) as [p0|] eqn:Ed; [|destruct Hi]. destruct Hi as [Hi|[]].
      injection Hi as <- <-. split; [apply dget_In; exact Ed|exact Hc0].
    - intros [H1 H2]. exists c. split; [exact H2|]. rewrite (dget_In_nodup c p ps Hn H1). left; reflexivity. }
  split; [apply HR; left; reflexivity|]. split; [exact Hmin|].
  assert (Hone : forall c, rks ps c x <-> In (c, x) pre).
  { intro c. rewrite Hpre, HR. cbn [snd]. tauto. }
  split; [|split]; [| |split; [|split; [|split]]].
  - intros Y c Hc. apply Hone in Hc. destruct pre as [|a [|a' t]]; cbn [length] in Ey; try lia; [destruct Hk|].
    destruct Hk as [->|[]]. destruct Hc as [Hc|[]]. injection Hc as Hc. congruence.
  - intros Y c Hc.
    assert (Hnp : NoDup (map fst pre)).
    { rewrite Esp, map_app in Hnd. clear - Hnd. induction (map fst pre) as [|a q IH]; [constructor|]. cbn [app] in Hnd.
      inversion Hnd as [|? ? H1 H2]; subst. constructor; [|auto]. intro Hi. apply H1. apply in_or_app. left; exact Hi. }
    destruct pre as [|[a1 z1] [|[a2 z2] t]] eqn:Epre; cbn [length] in Ey; try lia.
    assert (E1 : z1 = x) by (apply (Hpre (a1, z1)); left; reflexivity).
    assert (E2 : z2 = x) by (apply (Hpre (a2, z2)); right; left; reflexivity). subst z1 z2.
    assert (a1 <> a2) by (cbn [map fst] in Hnp; inversion Hnp as [|? ? H1 _]; subst; intros ->; apply H1; left; reflexivity).
    destruct (str_eq_dec a1 c) as [->|Hne].
    + exists a2. split; [apply Hone; right; left; reflexivity|congruence].
    + exists a1. split; [apply Hone; left; reflexivity|exact Hne].
  - assert (G : forall ks, NoDup ks -> NoDup (map fst (flat_map (fun k => match dget k ps with Some p => [(k, p)] | None => [] end) ks))
                 /\ incl (map fst (flat_map (fun k => match dget k ps with Some p => [(k, p)] | None => [] end) ks)) ks).
    { induction ks as [|c ks IH]; intro H; [split; [constructor|intros z []]|]. inversion H as [|? ? H1 H2]; subst.
      destruct (IH H2) as [I1 I2]. cbn [flat_map]. destruct (dget c ps); cbn [app map fst].
      - split; [constructor; [intro Hi; apply H1, I2, Hi|exact I1]|]. intros z [<-|Hz]; [left; reflexivity|right; apply I2; exact Hz].
      - split; [exact I1|]. intros z Hz. right. apply I2; exact Hz. }
    rewrite Hps'. apply G. exact Hnpost.
  - intros c p H. apply Hin' in H. tauto.
  - intros c z. split.
    + intros (p&Hp&Ep). apply Hin' in Hp as [H1 H2]. split; [exists p; auto|].
      apply in_map_iff in H2 as [[c0 z0] [E H2]]. cbn [fst] in E. subst c0. apply Hpost in H2 as [H2 H3].
      cbn [snd] in H3. apply HR in H2. assert (z = z0) by (apply (rks_fun ps c); [exact Hn|exists p; auto|exact H2]). lia.
    + intros [(p&Hp&Ep) Hz]. exists p. split; [|exact Ep]. apply Hin'. split; [exact Hp|].
      change c with (fst (c, z)). apply in_map. apply Hpost. split; [|exact Hz]. apply HR. exists p; auto.
  - assert (L1 : forall ks, (length (flat_map (fun k => match dget k ps with Some p => [(k, p)] | None => [] end) ks) <= length ks)%nat).
    { induction ks as [|a ks IH]; cbn [flat_map length]; [lia|]. rewrite app_length. destruct (dget a ps); cbn [length]; lia. }
    rewrite Hps'. specialize (L1 (map fst post)). rewrite map_length in L1.
    apply Permutation_length in P. rewrite map_length in P. rewrite Esp, app_length in P.
    destruct pre; [destruct Hk|]. cbn [length] in P. lia.
Qed.

Lemma topcand_spec fuel ps :
  NoDup (map fst ps) -> (forall c p, In (c, p) ps -> p_rank p <> None) ->
  (forall c y, rks ps c y -> y < big_rank) -> (length ps <= fuel)%nat ->
  exists res, topcand fuel ps = Ok res /\
    match res with
    | Some c => exists x, own ps c x /\ forall d y, own ps d y -> x <= y
    | None => forall d y, ~ own ps d y
    end.
Proof.
  revert ps. induction fuel as [|f IH]; intros ps Hn Hr Hb Hl.
  - destruct ps; [|cbn [length] in Hl; lia]. exists None. split; [reflexivity|]. intros d y [(p&[]&_) _].
  - cbn [topcand]. rewrite ranked_list_ok by exact Hr. cbn [bind].
    destruct (sort_asc snd (map with_rank ps)) as [|[k x] r] eqn:Es.
    + exists None. split; [reflexivity|]. intros d y [(p&Hp&_) _].
      assert (P : Permutation (sort_asc snd (map with_rank ps)) (map with_rank ps)) by apply sort_asc_perm.
      rewrite Es in P. apply Permutation_nil, map_eq_nil in P. rewrite P in Hp. destruct Hp.
    + pose proof (tier_facts ps k x r Hn Hr Hb Es) as F. cbv zeta in F.
      destruct F as (F1&F2&F3&F4&F5&F6&F7&F8).
      destruct (Nat.eqb_spec (tier_end ((k, x) :: r) x) 0) as [E|Hne].
      * exists (Some k). split; [reflexivity|]. exists x. split; [split; [exact F1|auto]|]. intros d y [Hd _]. exact (F2 d y Hd).
      * match type of F5 with NoDup (map fst ?p) => set (ps' := p) in * end.
        destruct (IH ps') as (res&Er&Hres); [exact F5|intros c p H; exact (Hr c p (F6 c p H))
          |intros c y H; apply F7 in H as [H _]; exact (Hb c y H)|lia|].
        assert (Hown : forall d y, own ps' d y <-> own ps d y).
        { intros d y. split; intros [H1 H2].
          - apply F7 in H1 as [H1 Hy]. split; [exact H1|]. intros e He. apply H2. apply F7. auto.
          - assert (x < y).
            { pose proof (F2 d y H1). destruct (Z.eq_dec x y) as [<-|]; [|lia].
              destruct (F4 Hne d H1) as [e [He Hed]]. elim Hed. apply H2; exact He. }
            split; [apply F7; auto|]. intros e He. apply H2. apply F7 in He as [He _]. exact He. }
        exists res. split; [exact Er|]. destruct res as [c|].
        -- destruct Hres as [z [Hz1 Hz2]]. exists z. split; [apply Hown; exact Hz1|]. intros d y H. apply (Hz2 d), Hown, H.
        -- intros d y H. apply (Hres d y), Hown, H.
Qed.

Lemma overvoted_spec l :
  NoDup (map fst (v_prefs l)) -> has_ranks l -> (forall c y, rks (v_prefs l) c y -> y < big_rank) ->
  exists b, top_overvoted l = Ok b /\
    (b = true <-> exists c d x, c <> d /\ rks (v_prefs l) c x /\ rks (v_prefs l) d x /\ forall e y, rks (v_prefs l) e y -> x <= y).
Proof.
  intros Hn Hr Hb. unfold top_overvoted. rewrite ranked_list_ok by exact Hr. cbn [bind].
  destruct (sort_asc snd (map with_rank (v_prefs l))) as [|[k x] r] eqn:Es.
  - exists false. split; [reflexivity|]. split; [discriminate|]. intros (c&d&x&_&(p&Hp&_)&_).
    assert (P : Permutation (sort_asc snd (map with_rank (v_prefs l))) (map with_rank (v_prefs l))) by apply sort_asc_perm.
    rewrite Es in P. apply Permutation_nil, map_eq_nil in P. rewrite P in Hp. destruct Hp.
  - pose proof (tier_facts (v_prefs l) k x r Hn Hr Hb Es) as F. cbv zeta in F. destruct F as (F1&F2&F3&F4&_).
    eexists. split; [reflexivity|]. destruct (Nat.eqb_spec (tier_end ((k, x) :: r) x) 0) as [E|Hne]; cbn [negb].
    + split; [discriminate|]. intros (c&d&z&Hcd&Hc&Hd&Hz). exfalso. apply Hcd.
      assert (z = x) by (pose proof (F2 c z Hc); pose proof (Hz k x F1); lia). subst z.
      rewrite (F3 E c Hc), (F3 E d Hd). reflexivity.
    + split; [|reflexivity]. intros _. destruct (F4 Hne k F1) as [d [Hd Hdk]]. exists k, d, x. auto.
Qed.

(** ** A ballot of a later round *)

Lemma rks_rank_on l c x : NoDup (map fst (v_prefs l)) -> (rks (v_prefs l) c x <-> rank_on l c = Some x).
Proof.
  intro Hn. split.
  - intros (p&Hp&E). rewrite (rank_on_In l c p Hn Hp). exact E.
  - intro H. unfold rank_on in H. destruct (dget c (v_prefs l)) as [p|] eqn:Ed; [|discriminate]. exists p. split; [apply dget_In; exact Ed|exact H].
Qed.

Section OneLine.
Context (cs0 gone cs : list str) (l : voteline).
Context (Hok : line_ok cs0 l) (Hr : has_ranks l) (Hb : bounded_line l) (Hrem : remaining cs0 gone cs).

Lemma l_nodup : NoDup (map fst (v_prefs l)). Proof. apply Hok. Qed.
Lemma w_nodup : NoDup (map fst (v_prefs (without gone l))). Proof. cbn. apply NoDup_map_fst_filter. exact l_nodup. Qed.

Lemma lists_rank c : lists l c = true <-> exists x, rank_on l c = Some x.
Proof.
  unfold lists, rank_on. destruct (dget c (v_prefs l)) as [p|] eqn:Ed.
  - apply dget_In in Ed. specialize (Hr _ _ Ed). destruct (p_rank p) as [x|]; [|congruence]. split; [eauto|reflexivity].
  - split; [discriminate|intros [x H]; discriminate].
Qed.

Lemma w_rank c x : rks (v_prefs (without gone l)) c x <-> In c cs /\ rank_on l c = Some x.
Proof.
  rewrite rks_rank_on by exact w_nodup. rewrite rank_on_without. destruct (memb c gone) eqn:Eg.
  - split; [discriminate|]. intros [H _]. apply Hrem in H as [_ H]. apply memb_In in Eg. contradiction.
  - split; [|tauto]. intro H. split; [|exact H]. apply Hrem. split; [|apply memb_nIn; exact Eg].
    destruct Hok as [_ Hin]. apply Hin. apply lists_In. apply lists_rank. eauto.
Qed.

Lemma w_bound c x : rks (v_prefs (without gone l)) c x -> x < big_rank.
Proof. intro H. apply w_rank in H as [_ H]. exact (proj1 Hb c x H). Qed.

Lemma own_iff c x : rank_on l c = Some x -> In c cs -> (own (v_prefs (without gone l)) c x <-> has_own_rank cs l c = true).
Proof.
  intros Hx Hc. unfold own. split.
  - intros [_ H]. apply forallb_forall. intros d Hd. destruct (str_eqb_spec d c) as [|n]; [reflexivity|]. cbn [orb].
    destruct (lists l d) eqn:El; [|reflexivity]. cbn [negb orb]. apply lists_rank in El as [y Hy]. unfold prefers. rewrite Hx, Hy.
    assert (x <> y) by (intros ->; apply n, H, w_rank; auto). destruct (Z.ltb_spec x y), (Z.ltb_spec y x); try reflexivity; lia.
  - intro H. split; [apply w_rank; auto|]. intros d Hd. apply w_rank in Hd as [Hd Hy].
    unfold has_own_rank in H. rewrite forallb_forall in H. specialize (H d Hd). destruct (str_eqb_spec d c) as [|n]; [assumption|exfalso].
    cbn [orb] in H. rewrite (proj2 (lists_rank d)) in H by eauto. cbn [negb orb] in H. unfold prefers in H. rewrite Hx, Hy in H.
    rewrite !Z.ltb_irrefl in H. discriminate.
Qed.

Lemma prefers_rank c d x y : rank_on l c = Some x -> rank_on l d = Some y -> (prefers l c d = true <-> x < y).
Proof. intros E1 E2. unfold prefers. rewrite E1, E2. apply Z.ltb_lt. Qed.

Lemma counted_iff c : counted_choice cs l c = true <->
  exists x, own (v_prefs (without gone l)) c x /\ forall d y, own (v_prefs (without gone l)) d y -> x <= y.
Proof.
  unfold counted_choice. split.
  - intro H. apply andb_prop in H as [H H4]. apply andb_prop in H as [H H3]. apply andb_prop in H as [H1 H2].
    apply memb_In in H1. apply lists_rank in H2 as [x Hx]. exists x. split; [apply own_iff; assumption|].
    intros d y Hd. assert (Hd' := proj1 Hd). apply w_rank in Hd' as [Hdc Hy]. apply (own_iff d y Hy Hdc) in Hd.
    rewrite forallb_forall in H4. specialize (H4 d Hdc). rewrite Hd, (proj2 (lists_rank d)) in H4 by eauto. cbn [andb] in H4.
    rewrite andb_true_r in H4. destruct (Z.le_gt_cases x y); [assumption|]. rewrite (proj2 (prefers_rank d c y x Hy Hx)) in H4 by lia. discriminate.
  - intros (x&Hown&Hmin). assert (H := proj1 Hown). apply w_rank in H as [Hc Hx].
    rewrite (proj2 (memb_In _ _) Hc), (proj2 (lists_rank c)) by eauto. rewrite (proj1 (own_iff c x Hx Hc) Hown). cbn [andb].
    apply forallb_forall. intros d Hd. apply negb_true_iff.
    destruct (lists l d) eqn:El; [|reflexivity]. apply lists_rank in El as [y Hy]. cbn [andb].
    destruct (has_own_rank cs l d) eqn:Eo; [|apply andb_false_r]. apply (own_iff d y Hy Hd) in Eo. apply Hmin in Eo.
    rewrite andb_true_r. destruct (prefers l d c) eqn:Ep; [|reflexivity]. apply (prefers_rank d c y x Hy Hx) in Ep. lia.
Qed.

Lemma counted_unique c d : counted_choice cs l c = true -> counted_choice cs l d = true -> c = d.
Proof.
  intros H1 H2. apply counted_iff in H1 as (x&O1&M1). apply counted_iff in H2 as (y&O2&M2).
  assert (x = y) by (pose proof (M1 d y O2); pose proof (M2 c x O1); lia). subst y. destruct O1 as [R1 _]. destruct O2 as [_ U2]. auto.
Qed.

Lemma no_choice_iff : no_choice cs l = true <-> forall d y, ~ own (v_prefs (without gone l)) d y.
Proof.
  unfold no_choice. rewrite forallb_forall. split.
  - intros H d y Ho. assert (Hd := proj1 Ho). apply w_rank in Hd as [Hd Hy]. specialize (H d Hd).
    rewrite (proj2 (lists_rank d)) in H by eauto. rewrite (proj1 (own_iff d y Hy Hd) Ho) in H. discriminate.
  - intros H c Hc. apply negb_true_iff. destruct (lists l c) eqn:El; [|reflexivity]. apply lists_rank in El as [x Hx].
    destruct (has_own_rank cs l c) eqn:Eo; [|reflexivity]. elim (H c x). apply own_iff; assumption.
Qed.

Lemma equal_top : top (without gone l) = match find (counted_choice cs l) cs with Some c => Some c | None => None end.
Proof.
  destruct (topcand_spec (length (v_prefs (without gone l))) (v_prefs (without gone l)) w_nodup (has_ranks_without _ _ Hr) w_bound (le_n _))
    as (res&Er&Hres).
  unfold top. rewrite Er. destruct res as [c|].
  - apply counted_iff in Hres as Hc. assert (Hcc : In c cs /\ lists l c = true).
    { unfold counted_choice in Hc. apply andb_prop in Hc as [Hc _]. apply andb_prop in Hc as [Hc _]. apply andb_prop in Hc as [H1 H2].
      split; [apply memb_In; exact H1|exact H2]. }
    destruct (find (counted_choice cs l) cs) as [d|] eqn:Ef.
    + apply find_some in Ef as [_ Ed]. rewrite <- (counted_unique c d Hc Ed).
      destruct c as [|a s]; [|reflexivity]. exfalso. apply (proj2 Hb). apply lists_In. tauto.
    + pose proof (find_none _ _ Ef c (proj1 Hcc)). congruence.
  - destruct (find (counted_choice cs l) cs) as [d|] eqn:Ef; [|reflexivity]. apply find_some in Ef as [_ Ed].
    apply counted_iff in Ed as (x&Ho&_). elim (Hres d x Ho).
Qed.

Lemma equal_is_top c : is_top (without gone l) c = counted_choice cs l c.
Proof.
  unfold is_top. rewrite equal_top. destruct (find (counted_choice cs l) cs) as [d|] eqn:Ef.
  - apply find_some in Ef as [_ Ed]. destruct (str_eqb_spec d c) as [->|n]; [congruence|].
    destruct (counted_choice cs l c) eqn:Ec; [|reflexivity]. elim n. apply counted_unique; assumption.
  - destruct (counted_choice cs l c) eqn:Ec; [|reflexivity]. assert (In c cs).
    { unfold counted_choice in Ec. apply andb_prop in Ec as [Ec _]. apply andb_prop in Ec as [Ec _]. apply andb_prop in Ec as [Ec _]. apply memb_In; exact Ec. }
    pose proof (find_none _ _ Ef c H). congruence.
Qed.

Lemma equal_no_top : no_top (without gone l) = no_choice cs l.
Proof.
  destruct (topcand_spec (length (v_prefs (without gone l))) (v_prefs (without gone l)) w_nodup (has_ranks_without _ _ Hr) w_bound (le_n _))
    as (res&Er&Hres).
  unfold no_top. rewrite equal_top. destruct (find (counted_choice cs l) cs) as [d|] eqn:Ef.
  - apply find_some in Ef as [_ Ed]. apply counted_iff in Ed as (x&Ho&_).
    destruct (no_choice cs l) eqn:En; [|reflexivity]. elim (proj1 no_choice_iff En d x Ho).
  - symmetry. apply no_choice_iff. destruct res as [c|]; [|exact Hres]. exfalso. apply counted_iff in Hres.
    assert (In c cs).
    { unfold counted_choice in Hres. apply andb_prop in Hres as [Ec _]. apply andb_prop in Ec as [Ec _]. apply andb_prop in Ec as [Ec _]. apply memb_In; exact Ec. }
    pose proof (find_none _ _ Ef c H). congruence.
Qed.

Lemma equal_overvoted : top_overvoted (without gone l) = Ok (first_shared cs l).
Proof.
  destruct (overvoted_spec (without gone l) w_nodup (has_ranks_without _ _ Hr) w_bound) as (b&Eb&Hb').
  rewrite Eb. f_equal. apply eq_true_iff_eq. rewrite Hb'. unfold first_shared. rewrite existsb_exists. split.
  - intros (c&d&x&Hcd&Hc&Hd&Hmin). apply w_rank in Hc as [Hc Hx]. exists c. split; [exact Hc|].
    rewrite (proj2 (lists_rank c)) by eauto. cbn [andb]. apply andb_true_intro. split.
    + apply negb_true_iff. destruct (has_own_rank cs l c) eqn:Eo; [|reflexivity]. apply (own_iff c x Hx Hc) in Eo.
      elim Hcd. symmetry. apply Eo. exact Hd.
    + apply forallb_forall. intros e He. apply negb_true_iff. destruct (lists l e) eqn:El; [|reflexivity].
      apply lists_rank in El as [y Hy]. assert (x <= y) by (apply (Hmin e); apply w_rank; auto).
      unfold prefers. rewrite Hx, Hy. cbn [andb]. apply Z.ltb_ge. lia.
  - intros (c&Hc&H). apply andb_prop in H as [H H3]. apply andb_prop in H as [H1 H2]. apply lists_rank in H1 as [x Hx].
    apply negb_true_iff in H2. unfold has_own_rank in H2.
    assert (G : exists d, In d cs /\ (str_eqb d c || negb (lists l d) || prefers l c d || prefers l d c) = false).
    { clear - H2. induction cs as [|a r IH]; [discriminate|]. cbn [forallb] in H2. apply andb_false_iff in H2 as [H|H].
      - exists a. split; [left; reflexivity|exact H].
      - destruct (IH H) as [d [Hd E]]. exists d. split; [right; exact Hd|exact E]. }
    destruct G as (d&Hd&E). apply orb_false_iff in E as [E E4]. apply orb_false_iff in E as [E E3]. apply orb_false_iff in E as [E1 E2].
    apply str_eqb_neq in E1. apply negb_false_iff in E2. apply lists_rank in E2 as [y Hy]. unfold prefers in E3, E4. rewrite Hx, Hy in E3, E4.
    apply Z.ltb_ge in E3, E4. assert (y = x) by lia. subst y. exists c, d, x. split; [congruence|].
    split; [apply w_rank; auto|]. split; [apply w_rank; auto|]. intros e z He. apply w_rank in He as [He Hz].
    rewrite forallb_forall in H3. specialize (H3 e He). rewrite (proj2 (lists_rank e)) in H3 by eauto. cbn [andb] in H3.
    apply negb_true_iff in H3. unfold prefers in H3. rewrite Hx, Hz in H3. apply Z.ltb_ge in H3. exact H3.
Qed.
End OneLine.

(** ** A round *)

Definition bounded_lines (ls : list voteline) : Prop := forall l, In l ls -> bounded_line l.

Lemma kept_incl bad ls : incl (kept bad ls) ls.
Proof.
  induction ls as [|l r IH IH2] using voteline_ind2; [intros x []|]. cbn [kept]. destruct (bad l).
  - destruct r as [|l2 r2]; [intros x []|]. intros x [<-|Hx]; [right; left; reflexivity|]. right; right. exact (IH2 l2 r2 eq_refl x Hx).
  - intros x [<-|Hx]; [left; reflexivity|right; apply IH; exact Hx].
Qed.

Lemma equal_pruned cs0 gone cs ls : lines_inv cs0 ls -> bounded_lines ls -> remaining cs0 gone cs ->
  pruned (map (without gone) ls) = map (without gone) (kept (first_shared cs) ls) /\
  overvoted (map (without gone) ls) = zsum (map v_qty ls) - zsum (map v_qty (kept (first_shared cs) ls)).
Proof.
  intros Hi Hb Hrem.
  assert (E : discard_overvotes (map (without gone) ls) =
     Ok (zsum (map v_qty ls) - zsum (map v_qty (kept (first_shared cs) ls)), map (without gone) (kept (first_shared cs) ls))).
  { induction ls as [|l r IH IH2] using voteline_ind2; [reflexivity|]. cbn [map discard_overvotes].
    destruct (Hi l (or_introl eq_refl)) as [H1 H2].
    rewrite (equal_overvoted cs0 gone cs l H1 H2 (Hb l (or_introl eq_refl)) Hrem). cbn [bind kept].
    destruct (first_shared cs l).
    - destruct r as [|l2 r2]; cbn [map].
      + cbn [zsum map]. f_equal. f_equal. cbn. lia.
      + rewrite (IH2 l2 r2 eq_refl); [|intros x Hx; apply Hi; right; right; exact Hx|intros x Hx; apply Hb; right; right; exact Hx].
        cbn [bind map zsum]. f_equal. f_equal. change (v_qty (without gone l)) with (v_qty l). lia.
    - rewrite IH; [|intros x Hx; apply Hi; right; exact Hx|intros x Hx; apply Hb; right; exact Hx].
      cbn [bind map zsum]. f_equal. f_equal. lia. }
  unfold pruned, overvoted. rewrite E. auto.
Qed.

(** The lines of a round are the lines [k] of the original list, less the candidates gone. *)
Definition equal_state (cs0 : list str) (gone cs : list str) (k ls : list voteline) : Prop :=
  lines_inv cs0 k /\ bounded_lines k /\ remaining cs0 gone cs /\ ls = map (without gone) k.

Lemma equal_tally cs0 gone cs k ls : equal_state cs0 gone cs k ls ->
  (forall c, tally ls c = ballots_where (fun l => counted_choice cs l c) (kept (first_shared cs) k)) /\
  exhausted ls = ballots_where (no_choice cs) (kept (first_shared cs) k) /\
  overvoted ls = zsum (map v_qty k) - zsum (map v_qty (kept (first_shared cs) k)) /\
  zsum (map v_qty ls) = zsum (map v_qty k) /\
  zsum (map v_qty (pruned ls)) = zsum (map v_qty (kept (first_shared cs) k)).
Proof.
  intros (Hi&Hb&Hrem&->). destruct (equal_pruned cs0 gone cs k Hi Hb Hrem) as [Ep Eo].
  split; [|split; [|split; [exact Eo|split; [rewrite without_qty; reflexivity|rewrite Ep, without_qty; reflexivity]]]].
  - intro c. unfold tally. rewrite Ep, ballots_where_without. apply ballots_where_ext. intros l Hl. apply kept_incl in Hl.
    destruct (Hi l Hl) as [H1 H2]. apply (equal_is_top cs0 gone); auto.
  - unfold exhausted. rewrite Ep, ballots_where_without. apply ballots_where_ext. intros l Hl. apply kept_incl in Hl.
    destruct (Hi l Hl) as [H1 H2]. apply (equal_no_top cs0 gone); auto.
Qed.

Lemma equal_next cs0 gone cs k ls e cs' : equal_state cs0 gone cs k ls -> Permutation cs' (set_minus cs e) ->
  equal_state cs0 (gone ++ e) cs' (kept (first_shared cs) k) (map (without e) (pruned ls)).
Proof.
  intros (Hi&Hb&Hrem&->) P. destruct (equal_pruned cs0 gone cs k Hi Hb Hrem) as [Ep _].
  split; [intros l Hl; apply Hi, (kept_incl _ _ _ Hl)|]. split; [intros l Hl; apply Hb, (kept_incl _ _ _ Hl)|]. split.
  - intro c. split.
    + intro H. apply (Permutation_in _ P), set_minus_In in H as [H H2]. apply Hrem in H. rewrite in_app_iff. tauto.
    + intros [H1 H2]. apply (Permutation_in _ (Permutation_sym P)). apply set_minus_In. rewrite in_app_iff in H2.
      split; [apply Hrem|]; tauto.
  - rewrite Ep, map_map. apply map_ext. intro l. apply without_app.
Qed.

Lemma equal_init cs ls : lines_inv cs ls -> bounded_lines ls -> equal_state cs [] cs ls ls.
Proof.
  intros Hi Hb. split; [exact Hi|]. split; [exact Hb|]. split; [intro c; split; [intro H; split; [exact H|intros []]|tauto]|].
  rewrite <- (map_id ls) at 1. apply map_ext. intros [q ps cm pf vid nq]. unfold without, with_prefs; cbn. f_equal.
  symmetry. apply filter_all. reflexivity.
Qed.
