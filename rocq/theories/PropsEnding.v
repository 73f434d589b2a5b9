(** * PropsEnding: C85, how a run of abiftool on an ABIF text ends *)

From Coq Require Import Lia Permutation Sorting.Sorted.
From Verif Require Import PyBase PyFacts Jabmod PairwiseModel Spec PairwiseFacts PropsPairwise ScoreModel ScoreFacts PropsScore IrvModel IrvFacts IrvStrict IrvTrace PropsIrv PropsReport.
From Verif Require Import ParserModel ParserFacts PropsParser UrlText UrlFacts JsonText JsonFacts WriterModel NameqModel PropsNameq ConsolidateFacts PropsConvert JsonParse JabmodJson PropsJson PropsChars.
From Verif Require Import DiagramModel PropsDiagram ResultsJson HtmlModel ConvertModel CliModel PropsCli PropsCliMore PropsPipe PropsCounts.
Local Open Scope Z_scope.
Local Open Scope res_scope.

(** ** Specification: what an output cannot be made of *)
Definition unless (b : bool) (e : exn) : option exn := if b then None else Some e.
Definition or_else (x y : option exn) : option exn := match x with Some e => Some e | None => y end.
(** Does the first voteline start with a rated candidate?  (IndexError if it ranks nobody.) *)
Definition stars_missing (m : jabmod) (at_least : nat -> bool) : option exn :=
  match j_votelines m with
  | v :: _ => match v_prefs v with
              | [] => Some IndexError
              | (_, p) :: _ => match p_rating p with Some r => if rating_truthy r then unless (at_least 2%nat) IndexError else None | None => None end
              end
  | [] => Some IndexError
  end.
(** The exception that ends the run, if any: [to] is the output format, [mods] the modifiers in force, [m] the election. *)
Definition complaint (to : str) (mods : list str) (m : jabmod) : option exn :=
  let at_least (k : nat) := (k <=? length (cands m))%nat in
  let asked (x : string) := memb (u x) mods in
  let when (b : bool) (x : option exn) := if b then x else None in
  if str_eqb to (u "csvrank") then unless (forallb (fun v => 0 <? v_qty v) (j_votelines m)) VotelineExn
  else if memb to [u "dot"; u "svg"] then unless (at_least 1%nat) ValueError
  else if str_eqb to (u "html_snippet") then when (asked "svg"%string) (unless (at_least 1%nat) ValueError)
  else if str_eqb to (u "irvjson") then unless (at_least 1%nat) ValueError
  else if str_eqb to (u "paircountjson") then when (asked "IRV"%string) (unless (at_least 1%nat) ValueError)
  else if str_eqb to (u "json") then
    if asked "IRV"%string then unless (at_least 1%nat) ValueError else when (negb (asked "pairwise"%string) && asked "STAR"%string) (unless (at_least 2%nat) IndexError)
  else if str_eqb to (u "text") then
    or_else (when (asked "IRV"%string) (unless (at_least 1%nat) ValueError))
   (or_else (when (asked "score"%string) (unless (at_least 1%nat) IndexError))
   (or_else (when (asked "STAR"%string) (stars_missing m at_least))
            (when (asked "Copeland"%string) (unless (at_least 1%nat) IndexError))))
  else None.
(** Texttable(...).draw() of a table with a header has at least four lines: border, header, line, border. *)
Definition draws_tables (rn : rendering) : Prop := forall width table, (4 <= length (splitlines (r_draw rn width table)))%nat.

(** ** The writers never fail on a model read from a text *)
Definition printable (v : voteline) : Prop :=
  forall c p, In (c, p) (v_prefs v) -> forallb scalar c = true /\ (exists r, p_rank p = Some r) /\ match p_rating p with Some r => exists z, rating_int r = Ok z | None => True end.

Lemma token_quote_total c : forallb scalar c = true -> exists q, abif_token_quote c = Ok q.
Proof. intro H. destruct (quote_plus_ok c H) as (q&E&_). unfold abif_token_quote. rewrite E. eexists. reflexivity. Qed.
Lemma mapM_total {A B} (f : A -> result B) l : (forall x, In x l -> exists y, f x = Ok y) -> exists ys, mapM f l = Ok ys.
Proof.
  induction l as [|x l IH]; intro H; [exists []; reflexivity|]. destruct (H x (or_introl eq_refl)) as (y&E). destruct (IH (fun z Hz => H z (or_intror Hz))) as (ys&Es).
  exists (y :: ys). cbn [mapM]. rewrite E. cbn [bind]. rewrite Es. reflexivity.
Qed.
Lemma mapM_err {A B} (f : A -> result B) l e : mapM f l = Err e -> exists x, In x l /\ f x = Err e.
Proof.
  induction l as [|x l IH]; intro H; [discriminate|]. cbn [mapM] in H. destruct (f x) as [y|e'] eqn:E; cbn [bind] in H.
  - destruct (mapM f l) as [ys|e'']; [discriminate|]. destruct (IH H) as (z&Hz&Ez). exists z. split; [right; exact Hz|exact Ez].
  - exists x. split; [left; reflexivity|]. congruence.
Qed.
Lemma tiers_total l : (forall c p, In (c, p) l -> exists r z, p_rating p = Some r /\ rating_int r = Ok z) ->
  forall cur tier, exists ts, rating_tiers cur tier l = Ok ts /\ forall t np, In t ts -> In np t -> In np tier \/ In np l.
Proof.
  induction l as [|[c p] l IH]; intros H cur tier.
  - cbn [rating_tiers]. eexists. split; [reflexivity|]. intros t np Ht Hn. left. destruct tier; [destruct Ht|]. destruct Ht as [<-|[]]. exact Hn.
  - cbn [rating_tiers]. destruct (H c p (or_introl eq_refl)) as (r&z&E1&E2). rewrite E1, E2. cbn [bind].
    assert (H' : forall c p, In (c, p) l -> exists r z, p_rating p = Some r /\ rating_int r = Ok z) by (intros c' p' Hin; exact (H c' p' (or_intror Hin))).
    destruct (z =? cur).
    + destruct (IH H' cur (tier ++ [(c, p)])) as (ts&E&G). exists ts. split; [exact E|]. intros t np Ht Hn. destruct (G t np Ht Hn) as [A|A]; [|right; right; exact A].
      apply in_app_or in A as [A|[<-|[]]]; [left; exact A|right; left; reflexivity].
    + destruct (IH H' z [(c, p)]) as (ts&E&G). rewrite E. cbn [bind]. eexists. split; [reflexivity|]. intros t np Ht Hn.
      assert (X : In t ts -> In np tier \/ In np ((c, p) :: l)) by (intro Hts; destruct (G t np Hts Hn) as [[<-|[]]|A]; right; [left; reflexivity|right; exact A]).
      destruct tier as [|x tier]; [exact (X Ht)|]. destruct Ht as [<-|Ht]; [left; exact Hn|exact (X Ht)].
Qed.
Lemma ranked_total l : (forall c p, In (c, p) l -> forallb scalar c = true /\ exists r, p_rank p = Some r) ->
  StronglySorted (fun x y => match p_rank (snd x), p_rank (snd y) with Some r, Some r' => r <= r' | _, _ => True end) l -> exists t, prefstr_from_ranked l = Ok t.
Proof.
  induction l as [|[c p] l IH]; intros H S1; [eexists; reflexivity|]. cbn [prefstr_from_ranked]. destruct (H c p (or_introl eq_refl)) as (Hc&r1&E1). destruct (token_quote_total c Hc) as (q&Eq). rewrite Eq. cbn [bind].
  inversion S1 as [|? ? S2 F]; subst. destruct l as [|[c2 p2] l]; [eexists; reflexivity|]. destruct (H c2 p2 (or_intror (or_introl eq_refl))) as (_&r2&E2).
  inversion F as [|? ? F1 _]; subst. cbn [snd] in F1. rewrite E1, E2 in F1. destruct (IH (fun c p Hin => H c p (or_intror Hin)) S2) as (t&Et). rewrite E1, E2. cbn [of_option bind].
  destruct (Z.ltb_spec r1 r2); [rewrite Et; eexists; reflexivity|]. destruct (Z.eqb_spec r1 r2); [rewrite Et; eexists; reflexivity|lia].
Qed.
Lemma prefs_total v : printable v -> exists t, votelinestr v = Ok t.
Proof.
  intro H. assert (G : exists t, prefs_text (v_prefs v) = Ok t); [|destruct G as (t&E); unfold votelinestr; rewrite E; eexists; reflexivity].
  unfold prefs_text. destruct (mapM _ (v_prefs v)) as [keyed|e] eqn:Ek.
  - assert (K : forall np, In np (map snd (sort_by rated_leb keyed)) -> In np (v_prefs v) /\ exists r z, p_rating (snd np) = Some r /\ rating_int r = Ok z).
    { intros np Hin. apply in_map_iff in Hin as ([z np']&<-&Hin). cbn [snd]. apply (Permutation_in _ (sort_by_perm _ _)) in Hin.
      revert Hin. pose proof (mapM_inv _ _ _ Ek) as F. clear -F. induction F as [|[c p] [z0 q0] ps qs E F IH]; [intros []|]. intros [Ein|Hin].
      - injection Ein as -> ->. unfold rating_key in E. cbn [snd] in E. destruct (p_rating p) as [r|] eqn:Er; [|discriminate]. apply bind_ok in E as (x&Ex&E). apply ok_inj in E. injection E as <- <-.
        split; [left; reflexivity|]. cbn [snd]. exists r, x. split; [exact Er|exact Ex].
      - destruct (IH Hin) as (A&B). split; [right; exact A|exact B]. }
    destruct (tiers_total (map snd (sort_by rated_leb keyed)) (fun c p Hin => proj2 (K (c, p) Hin)) 0 []) as (ts&Et&Gt). unfold prefstr_from_ratings. rewrite Et. cbn [bind].
    destruct (mapM_total tier_text ts) as (xs&Ex); [|rewrite Ex; eexists; reflexivity]. intros t Ht. unfold tier_text.
    match goal with |- context [mapM ?f t] => destruct (mapM_total f t) as (ys&Ey); [|rewrite Ey; eexists; reflexivity] end.
    intros [c p] Hin. destruct (Gt t (c, p) Ht Hin) as [[]|Hin']. destruct (K (c, p) Hin') as (Hv&_). destruct (H c p Hv) as (Hc&_). destruct (token_quote_total c Hc) as (q&Eq). cbn [fst snd]. rewrite Eq. eexists. reflexivity.
  - destruct (mapM_err _ _ _ Ek) as ([c p]&Hin&E). destruct (H c p Hin) as (_&_&Hr). unfold rating_key in E. cbn [snd] in E. destruct (p_rating p) as [r|]; [destruct Hr as (z&Ez); rewrite Ez in E; discriminate|]. cbn [bind] in E. injection E as <-.
    unfold sort_by_rank. match goal with |- context [mapM ?f (v_prefs v)] => destruct (mapM_total f (v_prefs v)) as (l&El) end.
    { intros [c0 p0] Hin0. destruct (H c0 p0 Hin0) as (_&(r&Er)&_). cbn [snd]. rewrite Er. eexists. reflexivity. }
    rewrite El. cbn [bind]. pose proof (mapM_inv _ _ _ El) as F.
    assert (K : forall z kv, In (z, kv) l -> In kv (v_prefs v) /\ p_rank (snd kv) = Some z).
    { intros z kv. clear -F. induction F as [|[c p] [z0 q0] ps qs E F IH]; [intros []|]. intros [Ein|Hin].
      - injection Ein as -> ->. cbn [snd] in E. destruct (p_rank p) as [r|] eqn:Er; [|discriminate]. cbn [of_option bind] in E. apply ok_inj in E. injection E as <- <-. split; [left; reflexivity|exact Er].
      - destruct (IH Hin) as (A&B). split; [right; exact A|exact B]. }
    apply ranked_total.
    + intros c0 p0 Hin0. apply in_map_iff in Hin0 as ([z kv]&E0&Hin0). cbn [snd] in E0. subst kv. apply (Permutation_in _ (sort_asc_perm _ _)) in Hin0. destruct (K _ _ Hin0) as (Hv&_). destruct (H c0 p0 Hv) as (A&B&_). split; assumption.
    + pose proof (sort_asc_sorted (@fst Z (str * pref)) l) as S1. assert (K' : forall z kv, In (z, kv) (sort_asc fst l) -> p_rank (snd kv) = Some z) by (intros z kv Hin0; apply (K z kv), (Permutation_in _ (sort_asc_perm fst l)), Hin0).
      revert S1 K'. generalize (sort_asc (@fst Z (str * pref)) l). clear. induction 1 as [|[z kv] r S2 IH F]; intro K; cbn [map snd]; constructor.
      * apply IH. intros z' kv' Hin. apply K. right. exact Hin.
      * apply Forall_forall. intros kv' Hin. apply in_map_iff in Hin as ([z' kv2]&<-&Hin). pose proof (K z kv (or_introl eq_refl)) as K1. pose proof (K z' kv2 (or_intror Hin)) as K2. destruct kv as [k0 p0], kv2 as [k2 p2]. cbn [snd] in *. rewrite K1, K2. rewrite Forall_forall in F. exact (F _ Hin).
Qed.
Lemma abif_total m : (forall v, In v (j_votelines m) -> printable v) -> (forall c, In c (cands m) -> forallb scalar c = true) -> exists t, convert_jabmod_to_abif m = Ok t.
Proof.
  intros H Hc. unfold convert_jabmod_to_abif. destruct (mapM_total cand_text (j_candidates m)) as (cs&E).
  { intros [c n] Hin. destruct (token_quote_total c (Hc c (in_map fst _ _ Hin))) as (q&Eq). unfold cand_text. cbn [fst]. rewrite Eq. eexists. reflexivity. }
  destruct (mapM_total votelinestr (j_votelines m)) as (vs&E'); [intros v Hv; exact (prefs_total v (H v Hv))|]. rewrite E. cbn [bind]. rewrite E'. eexists. reflexivity.
Qed.
Lemma csv_line_total fs v n : In (u "voterid") fs -> printable v -> (forall c p, In (c, p) (v_prefs v) -> In c fs) -> forall i, exists rs j, csv_ballots n fs i v = Ok (rs, j).
Proof.
  intros Hf Hv Hin. induction n as [|n IH]; intro i; [eexists _, _; reflexivity|]. cbn [csv_ballots].
  assert (G : exists r, csv_ballot fs (i + 1)%N v = Ok r).
  { unfold csv_ballot. match goal with |- context [mapM ?f (v_prefs v)] => destruct (mapM_total f (v_prefs v)) as (rk&Er) end.
    { intros [c p] Hc. destruct (Hv c p Hc) as (_&(r&E)&_). cbn [snd fst]. rewrite E. eexists. reflexivity. }
    rewrite Er. cbn [bind]. match goal with |- context [forallb ?f ?l] => assert (X : forallb f l = true) end; [|rewrite X; eexists; reflexivity].
    apply forallb_forall. intros [k x] Hk. apply memb_In. cbn [fst]. apply (in_map fst) in Hk. cbn [fst] in Hk. change (In k (dkeys (dset (u "voterid") (match v_voterid v with Some ((_ :: _) as x0) => x0 | _ => auto_voter (i + 1) end) rk))) in Hk. rewrite dkeys_dset in Hk.
    assert (Hk' : In k (dkeys rk) \/ k = u "voterid") by (destruct (memb _ _); [left; exact Hk|]; apply in_app_or in Hk as [Hk | [<- | []]]; auto). clear Hk. destruct Hk' as [Hk | ->]; [|exact Hf].
    pose proof (mapM_inv _ _ _ Er) as F. apply in_map_iff in Hk as ([k' x']&Ek&Hk). cbn [fst] in Ek. subst k'. clear -F Hk Hin.
    induction F as [|[c p] [k0 x0] ps qs E F IH]; [destruct Hk|]. destruct Hk as [Ek|Hk]; [|apply IH; [intros c0 p0 H0; exact (Hin c0 p0 (or_intror H0))|exact Hk]].
    injection Ek as -> ->. cbn [fst snd] in E. destruct (p_rank p); [|discriminate]. cbn [of_option bind] in E. apply ok_inj in E. injection E as -> _. exact (Hin k p (or_introl eq_refl)). }
  destruct G as (r&E). rewrite E. cbn [bind]. destruct (IH (i + 1)%N) as (rs&j&E'). rewrite E'. eexists _, _. reflexivity.
Qed.
Lemma csv_total m : (forall v, In v (j_votelines m) -> printable v) -> (forall v c p, In v (j_votelines m) -> In (c, p) (v_prefs v) -> In c (cands m)) ->
  if forallb (fun v => 0 <? v_qty v) (j_votelines m) then exists t, get_ranking_output_csv m = Ok t else get_ranking_output_csv m = Err VotelineExn.
Proof.
  intros H Hc. assert (G : forall ls i, incl ls (j_votelines m) ->
    if forallb (fun v => 0 <? v_qty v) ls then exists rows, csv_lines (u "voterid" :: map fst (j_candidates m)) i ls = Ok rows else csv_lines (u "voterid" :: map fst (j_candidates m)) i ls = Err VotelineExn).
  { induction ls as [|v ls IH]; intros i Hi; [eexists; reflexivity|]. cbn [forallb csv_lines]. assert (Hv : In v (j_votelines m)) by (apply Hi; left; reflexivity). rewrite Z.gtb_ltb. destruct (0 <? v_qty v); [|reflexivity]. cbn [andb].
    destruct (csv_line_total (u "voterid" :: map fst (j_candidates m)) v (Z.to_nat (v_qty v)) (or_introl eq_refl) (H v Hv) (fun c p Hin => or_intror (Hc v c p Hv Hin)) i) as (rs&j&E). rewrite E. cbn [bind].
    specialize (IH j (fun x Hx => Hi x (or_intror Hx))). destruct (forallb _ ls); [destruct IH as (rows&->); eexists; reflexivity|rewrite IH; reflexivity]. }
  specialize (G (j_votelines m) 0%N (incl_refl _)). unfold get_ranking_output_csv, csv_table. destruct (forallb _ _); [destruct G as (rows&->); eexists; reflexivity|rewrite G; reflexivity].
Qed.

(** ** Every output *)
(** What reading a text guarantees of the model. *)
Record usable (m : jabmod) : Prop := {
  us_tally : tallyable m; us_score : scorable m; us_irv : cands m <> [] -> irv_election m;
  us_count : exists bc, dget k_ballotcount (j_metadata m) = Some (JInt bc);
  us_print : forall v, In v (j_votelines m) -> printable v; us_cands : forall c, In c (cands m) -> forallb scalar c = true
}.
Definition ends {A} (r : result A) (c : option exn) : Prop := match c with None => exists x, r = Ok x | Some e => r = Err e end.
Lemma ends_bind {A B} (r : result A) (f : A -> result B) c : ends r c -> (forall x, r = Ok x -> exists y, f x = Ok y) -> ends (bind r f) c.
Proof. destruct c as [e|]; cbn [ends]; [intros -> _; reflexivity|]. intros (x&->) H. exact (H x eq_refl). Qed.
Lemma ends_ok {A B} (r : result A) (g : A -> B) c : ends r c -> ends (bind r (fun x => Ok (g x))) c.
Proof. intro H. apply (ends_bind r _ c H). intros x _. eexists. reflexivity. Qed.

Lemma no_cands m : (1 <=? length (cands m))%nat = match cands m with [] => false | _ => true end.
Proof. destruct (cands m); reflexivity. Qed.
Lemma irv_ends o m : schedule o -> usable m -> ends (let* d := IRV_dict_from_jabmod o m in get_IRV_report d) (unless (1 <=? length (cands m))%nat ValueError) /\
  ends (IRV_dict_from_jabmod o m) (unless (1 <=? length (cands m))%nat ValueError).
Proof.
  intros Ho U. rewrite no_cands. destruct (cands m) as [|c cs] eqn:Ec; cbn [unless ends].
  - assert (E : IRV_dict_from_jabmod o m = Err ValueError); [|rewrite E; split; reflexivity].
    destruct m as [md cd ls]. unfold cands in Ec. cbn [j_candidates] in Ec. apply map_eq_nil in Ec. subst cd. apply C16_no_candidates. intros l Hl.
    destruct (us_score _ U) as (_&S1). destruct (S1 l Hl) as ((_&X)&_). unfold cands in X. cbn [j_candidates map] in X. destruct (v_prefs l) as [|kv]; [reflexivity|]. destruct (X (fst kv)). left; reflexivity.
  - destruct (C16_irv_always_answers o m Ho) as (d&r&E&Er&_); [apply (us_irv _ U); rewrite Ec; discriminate|]. rewrite E. split; eexists; [exact Er|reflexivity].
Qed.
Lemma diagram_ends m : usable m -> ends (let* cc := full_copecount m in copecount_diagram cc) (unless (1 <=? length (cands m))%nat ValueError).
Proof.
  intro U. destruct (C05_copecount_total m (us_tally _ U)) as (cc&E). rewrite E. cbn [bind]. destruct (C56_total m cc (us_tally _ U) E) as (A1&A2). rewrite no_cands.
  destruct (cands m) as [|c cs]; cbn [unless ends]; [exact (A2 eq_refl)|apply A1; discriminate].
Qed.
Lemma star_ends m : usable m -> ends (STAR_result m) (unless (2 <=? length (cands m))%nat IndexError).
Proof.
  intro U. destruct (us_count _ U) as (bc&Hb). destruct (C12_star_total m bc (us_score _ U) (us_tally _ U) Hb) as (A1&A2). destruct (Nat.leb_spec 2 (length (cands m))); cbn [unless ends]; auto.
Qed.
Lemma star_report_ends m : usable m -> ends (STAR_report m) (unless (2 <=? length (cands m))%nat IndexError).
Proof.
  intro U. pose proof (star_ends m U) as H. destruct (Nat.leb_spec 2 (length (cands m))) as [Hl|Hl]; cbn [unless ends] in *.
  - destruct (us_count _ U) as (bc&Hb). destruct (C72_star_report m bc (us_score _ U) (us_tally _ U) Hb Hl) as (f1&f2&rest&ls&n1&n2&w&_&_&_&_&E&_). rewrite E. eexists. reflexivity.
  - unfold STAR_report. rewrite H. reflexivity.
Qed.
Lemma score_ends m : usable m -> ends (score_report m) (unless (1 <=? length (cands m))%nat IndexError).
Proof.
  intro U. destruct (us_count _ U) as (bc&Hb). rewrite no_cands. destruct (cands m) as [|c cs] eqn:Ec; cbn [unless ends].
  - unfold score_report. unfold dgetE at 1. rewrite Hb. cbn [of_option bind]. rewrite (enhanced_ok m _ (us_score _ U) Hb). cbn [bind sr_ranklist sr_scores].
    assert (P : Permutation (score_order m) (cands m)) by apply sort_desc_perm. rewrite Ec in P. apply Permutation_sym, Permutation_nil in P. rewrite P. reflexivity.
  - destruct (C72_score_report m bc (us_score _ U) Hb) as (o1&l1&w1&nm1&_&_&E&_); [rewrite Ec; discriminate|]. rewrite E. eexists. reflexivity.
Qed.
Lemma cope_ends m : usable m -> ends (let* cc := full_copecount m in Copeland_report (j_candidates m) cc) (unless (1 <=? length (cands m))%nat IndexError).
Proof.
  intro U. rewrite (full_copecount_eq m (us_tally _ U)). cbn [bind]. unfold Copeland_report, calc_Copeland_scores. cbn [cc_winlosstie]. set (l := sort_desc snd _).
  assert (P : Permutation (map fst l) (cands m)).
  { unfold l. rewrite (Permutation_map fst (sort_desc_perm _ _)). rewrite map_map. cbn [fst]. rewrite (Permutation_map fst (sort_desc_perm _ _)). change (map fst ?x) with (dkeys x). rewrite dkeys_dmap. reflexivity. }
  rewrite no_cands. destruct l as [|[tok sc] r] eqn:El; cbn [map fst] in P.
  - apply Permutation_nil in P. rewrite P. reflexivity.
  - assert (Hin : In tok (cands m)) by (apply (Permutation_in _ P); left; reflexivity). destruct (cands m) as [|c cs] eqn:Ec; [destruct Hin|]. cbn [unless ends].
    assert (X : exists n, dget tok (j_candidates m) = Some n) by (apply dget_Some_In; change (In tok (cands m)); rewrite Ec; exact Hin). destruct X as (n&En). unfold dgetE. rewrite En. cbn [of_option bind]. eexists. reflexivity.
Qed.
Lemma table_ends rn w t : draws_tables rn -> exists x, table_text (r_draw rn w t) = Ok x.
Proof.
  intro D. unfold table_text. specialize (D w t). destruct (nth_error (splitlines (r_draw rn w t)) 3) as [h|] eqn:E; [eexists; reflexivity|]. apply nth_error_None in E. lia.
Qed.
Lemma stars_ends m : usable m -> ends (let* h := abifmodel_has_ratings m in
    if h then STAR_report m else Ok (u "No stars/scores available." ++ u "  Please use --add-scores to extrapolate score from ranks.")) (stars_missing m (fun k => k <=? length (cands m))%nat).
Proof.
  intro U. unfold abifmodel_has_ratings, stars_missing. destruct (j_votelines m) as [|v ls]; [reflexivity|]. cbn [nth_error of_option bind]. destruct (v_prefs v) as [|[c p] ps]; [reflexivity|].
  unfold dvals. cbn [map snd nth_error of_option bind]. pose proof (star_report_ends m U) as H. destruct (p_rating p) as [r|]; [|eexists; reflexivity]. destruct (rating_truthy r); [exact H|eexists; reflexivity].
Qed.
Lemma section_ends name mods (t : result str) c rest crest : ends t c -> ends (text_output mods rest) crest ->
  ends (text_output mods ((name, t) :: rest)) (or_else (if has name mods then c else None) crest).
Proof.
  intros H1 H2. cbn [text_output]. destruct (has name mods); [|exact H2]. destruct c as [e|]; cbn [or_else ends] in *; [rewrite H1; reflexivity|].
  destruct H1 as (x&->). cbn [bind]. exact (ends_ok _ _ _ H2).
Qed.
Lemma render_ends s rn to w mods m : In to validoutfmts -> draws_tables rn -> schedule (s_irv s) -> usable m -> ends (render s rn to w mods m) (complaint to mods m).
Proof.
  intros Hto D Ho U. destruct (irv_ends _ m Ho U) as (I1&I2). pose proof (diagram_ends m U) as G. destruct (C05_copecount_total m (us_tally _ U)) as (cc&Ecc). destruct (C57_rows m (us_tally _ U)) as (rows&flag&order&Eh&_).
  pose proof (C01_pairwise_exact m (us_tally _ U)) as Ep.
  cbn [validoutfmts In] in Hto. destruct Hto as [<-|[<-|[<-|[<-|[<-|[<-|[<-|[<-|[<-|[<-|[<-|[<-|[<-|[]]]]]]]]]]]]]].
  - exact (abif_total m (us_print _ U) (us_cands _ U)).
  - change (complaint (u "csvrank") mods m) with (unless (forallb (fun v => 0 <? v_qty v) (j_votelines m)) VotelineExn). change (render s rn (u "csvrank") w mods m) with (get_ranking_output_csv m).
    pose proof (csv_total m (us_print _ U)) as X. destruct (us_score _ U) as (_&S1). specialize (X (fun v c p Hv Hin => proj2 (proj1 (S1 v Hv)) c (in_map fst _ _ Hin))). destruct (forallb _ _); exact X.
  - change (complaint (u "dot") mods m) with (unless (1 <=? length (cands m))%nat ValueError). change (render s rn (u "dot") w mods m) with (let* cc := full_copecount m in let* g := copecount_diagram cc in Ok (r_graph rn (u "dot") g)).
    rewrite Ecc in *. cbn [bind] in *. apply ends_ok, G.
  - change (render s rn (u "html") w mods m) with (let* t := html_table m in Ok (r_soup rn (html_page m false None t))). rewrite Eh. eexists. reflexivity.
  - change (complaint (u "html_snippet") mods m) with (if has "svg" mods then unless (1 <=? length (cands m))%nat ValueError else None).
    unfold render. change (str_eqb (u "html_snippet") (u "abif")) with false. change (str_eqb (u "html_snippet") (u "csvrank")) with false. change (str_eqb (u "html_snippet") (u "dot")) with false.
    change (str_eqb (u "html_snippet") (u "html")) with false. change (str_eqb (u "html_snippet") (u "html_snippet")) with true. cbv iota. rewrite Ecc, Eh in *. cbn [bind] in *.
    destruct (has "svg" mods); [|eexists; reflexivity]. apply ends_ok, ends_ok, G.
  - change (complaint (u "irvjson") mods m) with (unless (1 <=? length (cands m))%nat ValueError). change (render s rn (u "irvjson") w mods m) with (let* d := IRV_dict_from_jabmod (s_irv s) m in Ok (dumps_indent 4 (json_of_irv (r_set_order rn) d))).
    apply ends_ok, I2.
  - eexists. reflexivity.
  - change (complaint (u "json") mods m) with (if has "IRV" mods then unless (1 <=? length (cands m))%nat ValueError else if negb (has "pairwise" mods) && has "STAR" mods then unless (2 <=? length (cands m))%nat IndexError else None).
    change (render s rn (u "json") w mods m) with (if has "IRV" mods then let* d := IRV_dict_from_jabmod (s_irv s) m in Ok (dumps_indent 4 (json_of_irv (r_set_order rn) d)) else if has "pairwise" mods then let* p := pairwise_count_dict m in Ok (dumps_indent 4 (json_of_pairmat p))
          else if has "STAR" mods then let* d := STAR_result m in Ok (dumps_indent 4 (json_of_star d)) else Ok (u "Please specify modifier or choose 'jabmod' output format")).
    destruct (has "IRV" mods); [apply ends_ok, I2|]. rewrite Ep. destruct (has "pairwise" mods); [eexists; reflexivity|]. cbn [negb andb]. destruct (has "STAR" mods); [|eexists; reflexivity]. apply ends_ok, star_ends, U.
  - change (render s rn (u "nameq") w mods m) with (convert_jabmod_to_nameq m). apply C42_written. intros v c p Hv Hin. destruct (us_print _ U v Hv c p Hin) as (A1&A2&_). split; assumption.
  - change (complaint (u "paircountjson") mods m) with (if has "IRV" mods then unless (1 <=? length (cands m))%nat ValueError else None).
    change (render s rn (u "paircountjson") w mods m) with (if has "IRV" mods then let* d := IRV_dict_from_jabmod (s_irv s) m in Ok (dumps_indent 4 (json_of_irv (r_set_order rn) d)) else let* p := pairwise_count_dict m in Ok (dumps_indent 4 (json_of_pairmat p))).
    destruct (has "IRV" mods); [apply ends_ok, I2|]. rewrite Ep. eexists. reflexivity.
  - change (complaint (u "svg") mods m) with (unless (1 <=? length (cands m))%nat ValueError). change (render s rn (u "svg") w mods m) with (let* cc := full_copecount m in let* g := copecount_diagram cc in Ok (r_graph rn (u "svg") g)).
    rewrite Ecc in *. cbn [bind] in *. apply ends_ok, G.
  - change (complaint (u "text") mods m) with (or_else (if has "IRV" mods then unless (1 <=? length (cands m))%nat ValueError else None)
      (or_else (if has "score" mods then unless (1 <=? length (cands m))%nat IndexError else None)
      (or_else (if has "STAR" mods then stars_missing m (fun k => k <=? length (cands m))%nat else None) (if has "Copeland" mods then unless (1 <=? length (cands m))%nat IndexError else None)))).
    change (render s rn (u "text") w mods m) with (text_output mods (text_sections s rn w m)). unfold text_sections.
    destruct (C57_texttable m (us_tally _ U)) as (ord&_&Et).
    assert (Z1 : forall name (t : result str) rest c, (exists x, t = Ok x) -> ends (text_output mods rest) c -> ends (text_output mods ((name, t) :: rest)) c).
    { intros name t rest c Ht Hr. pose proof (section_ends name mods t None rest c Ht Hr) as X. destruct (has name mods); exact X. }
    apply Z1; [eexists; reflexivity|]. apply Z1; [rewrite Et; cbn [bind]; apply table_ends, D|]. apply Z1; [rewrite Ep; cbn [bind]; apply table_ends, D|].
    apply section_ends; [exact I1|]. apply section_ends; [exact (score_ends m U)|]. apply section_ends; [exact (stars_ends m U)|].
    assert (O : forall c, or_else c None = c) by (intros [e|]; reflexivity). rewrite <- (O (if has "Copeland" mods then _ else _)). apply section_ends; [exact (cope_ends m U)|]. eexists. reflexivity.
  - change (render s rn (u "winlosstiejson") w mods m) with (let* p := pairwise_count_dict m in let* x := winlosstie_dict_from_pairdict (j_candidates m) p in Ok (dumps_indent 4 (json_of_wlt x))).
    rewrite Ep. cbn [bind]. change (fun a b : str => if str_eqb a b then None else Some (votes_over m a b)) with (offdiag (votes_over m)). rewrite (winlosstie_exact (cands m) (proj1 (us_tally _ U))) by reflexivity. eexists. reflexivity.
Qed.
Lemma parsed_usable t cw ar sc m : convert_abif_to_jabmod t cw ar sc = Ok m -> text t -> Z.of_nat (length t) <= maxsize -> usable m.
Proof.
  intros E Ht Hl. destruct (C36_parsed_is_tallyable _ _ _ _ _ E Hl) as (T&S1&_&I). destruct (C78_storable t cw ar sc m E Ht) as (S2&_). constructor; try assumption.
  - rewrite (C28_ballotcount _ _ _ _ _ E). eexists. reflexivity.
  - intros v Hv c p Hin. destruct (sl_prefs v (st_lines m S2 v Hv) c p Hin) as (A1&_). split; [exact A1|]. destruct S1 as (_&S1). destruct (S1 v Hv) as ((_&Hi)&Hr). split.
    + assert (Hne : cands m <> []) by (intro En; specialize (Hi c (in_map fst _ _ Hin)); rewrite En in Hi; destruct Hi). destruct (I Hne) as (_&_&HL). destruct (HL v Hv) as (_&Hk). specialize (Hk c p Hin). destruct (p_rank p) as [r|]; [eexists; reflexivity|congruence].
    + unfold line_rated in Hr. rewrite forallb_forall in Hr. specialize (Hr (c, p) Hin). cbn [snd] in Hr. destruct (p_rating p) as [r|]; [|exact Logic.I]. unfold readable in Hr. destruct (rating_int r) as [z|]; [eexists; reflexivity|discriminate].
  - intros c Hin. apply in_map_iff in Hin as ([c' n]&<-&Hin). exact (proj1 (st_cands m S2 c' n Hin)).
Qed.
Lemma consolidated_usable m : clean m -> usable m -> usable (consolidate m).
Proof.
  intros H [U1 U2 U3 U4 U5 U6]. constructor.
  - exact (consolidated_tallyable m H U1).
  - exact (consolidated_scorable m H U2).
  - intro Hne. exact (consolidated_irv m H (U3 Hne)).
  - exact U4.
  - refine (consolidated_like m printable H _ U5). intros v w E A. unfold printable in *. rewrite E. exact A.
  - exact U6.
Qed.

(** ** C85 *)
(** A run on a text that can be read: it ends normally, with the output and a newline, or - for the reasons [complaint] lists and no others - with that exception and nothing printed. *)
Theorem C85_ending : forall s rn a t m, takes s a t -> In (a_to a) validoutfmts -> draws_tables rn -> schedule (s_irv s) -> text t -> Z.of_nat (length t) <= maxsize ->
  convert_abif_to_jabmod t (a_cleanws a) (a_add_scores a) (has "jcomments" (modifiers a)) = Ok m ->
  let m' := if has "consolidate" (modifiers a) then consolidate m else m in
  match complaint (a_to a) (modifiers a) m' with
  | None => o_ending (main s rn a) = Done /\ exists output, o_stdout (main s rn a) = output ++ [10%N]
  | Some e => o_ending (main s rn a) = Uncaught e /\ o_stdout (main s rn a) = []
  end.
Proof.
  intros s rn a t m R Hto D Ho Ht Hlen Em m'. pose proof (parsed_usable _ _ _ _ _ Em Ht Hlen) as U.
  assert (U' : usable m') by (unfold m'; destruct (has "consolidate" (modifiers a)); [exact (consolidated_usable m (parsed_clean _ _ _ _ _ Em Ht) U)|exact U]).
  destruct (main_takes s rn a t R) as (reads&msg&E). rewrite E, Em. fold m'. clear E. pose proof (render_ends s rn (a_to a) (a_width a) (modifiers a) m' Hto D Ho U') as G.
  destruct (complaint (a_to a) (modifiers a) m') as [e|]; cbn [ends] in G.
  - rewrite G. split; reflexivity.
  - destruct G as (x&->). split; [reflexivity|]. exists x. reflexivity.
Qed.
Print Assumptions C85_ending.

(** With two candidates, no voteline for zero ballots and a first voteline that ranks somebody, every output can be made. *)
Lemma no_complaint to mods m : (2 <= length (cands m))%nat -> (forall v, In v (j_votelines m) -> 0 < v_qty v) -> (exists v ls, j_votelines m = v :: ls /\ v_prefs v <> []) -> complaint to mods m = None.
Proof.
  intros Hn Hq (v&ls&El&Hv). assert (N2 : (2 <=? length (cands m))%nat = true) by (apply Nat.leb_le; exact Hn). assert (N1 : (1 <=? length (cands m))%nat = true) by (apply Nat.leb_le; lia).
  assert (Q : forallb (fun v => 0 <? v_qty v) (j_votelines m) = true) by (apply forallb_forall; intros x Hx; apply Z.ltb_lt, Hq, Hx).
  assert (St : stars_missing m (fun k => k <=? length (cands m))%nat = None).
  { unfold stars_missing. rewrite El. destruct (v_prefs v) as [|[c p] ps]; [congruence|]. rewrite N2. destruct (p_rating p) as [r|]; [destruct (rating_truthy r)|]; reflexivity. }
  unfold complaint. rewrite N1, N2, Q, St. cbn [unless]. repeat match goal with |- context [if ?b then _ else _] => destruct b end; reflexivity.
Qed.
Theorem C85_always : forall s rn a t m, takes s a t -> In (a_to a) validoutfmts -> draws_tables rn -> schedule (s_irv s) -> text t -> Z.of_nat (length t) <= maxsize ->
  convert_abif_to_jabmod t (a_cleanws a) (a_add_scores a) (has "jcomments" (modifiers a)) = Ok m ->
  (2 <= length (cands m))%nat -> (forall v, In v (j_votelines m) -> 0 < v_qty v) -> (exists v ls, j_votelines m = v :: ls /\ v_prefs v <> []) ->
  exit_status (o_ending (main s rn a)) = 0 /\ exists output, o_stdout (main s rn a) = output ++ [10%N].
Proof.
  intros s rn a t m R Hto D Ho Ht Hlen Em Hn Hq Hv. pose proof (C85_ending s rn a t m R Hto D Ho Ht Hlen Em) as H. cbv zeta in H. rewrite no_complaint in H.
  - destruct H as (->&H). split; [reflexivity|exact H].
  - destruct (has "consolidate" (modifiers a)); exact Hn.
  - destruct (has "consolidate" (modifiers a)); [|exact Hq]. pose proof (parsed_clean _ _ _ _ _ Em Ht) as Hcl. intros w Hw. rewrite C44_exact in Hw by exact Hcl. cbn [j_votelines] in Hw. apply in_map_iff in Hw as (v&<-&Hin). cbn [v_qty vl].
    apply foe_incl in Hin. assert (Es : same_line v v = true) by (apply C44_same_line; reflexivity). clear -Hq Hin Es. unfold ballots_where.
    assert (P : forall l, (forall x, In x l -> 0 < v_qty x) -> 0 <= zsum (map (fun x => if same_line v x then v_qty x else 0) l) /\ (In v l -> 0 < zsum (map (fun x => if same_line v x then v_qty x else 0) l))).
    { induction l as [|x l IH]; intro H; [split; [reflexivity|intros []]|]. cbn [map zsum]. destruct (IH (fun y Hy => H y (or_intror Hy))) as (A1&A2). pose proof (H x (or_introl eq_refl)) as Hx.
      split; [destruct (same_line v x); lia|]. intros [->|Hv]; [rewrite Es; lia|]. specialize (A2 Hv). destruct (same_line v x); lia. }
    exact (proj2 (P _ Hq) Hin).
  - destruct (has "consolidate" (modifiers a)); [|exact Hv]. pose proof (parsed_clean _ _ _ _ _ Em Ht) as Hcl. destruct Hv as (v&ls&El&Hv). rewrite C44_exact by exact Hcl. cbn [j_votelines]. rewrite El. cbn [first_of_each map]. eexists _, _. split; [reflexivity|]. exact Hv.
Qed.
Print Assumptions C85_always.

(** A text that cannot be read: status 1, and only a text without votelines is explained on standard output. *)
Theorem C85_unreadable : forall s rn a t e, takes s a t -> convert_abif_to_jabmod t (a_cleanws a) (a_add_scores a) (has "jcomments" (modifiers a)) = Err e ->
  o_ending (main s rn a) = Uncaught e /\ In e [VotelineExn; TypeError; IndexError; AttributeError] /\
  (e = VotelineExn -> o_stdout (main s rn a) = u "ERROR: " ++
     match t with
     | [] => u "Empty ABIF string.."
     | _ => u "No votelines in """ ++ firstn 20 t ++ (if (20 <? length t)%nat then u "..." else []) ++ u """. Votelines (like '20:A>B>C') are required in valid ABIF files."
     end ++ [10%N]) /\ (e <> VotelineExn -> o_stdout (main s rn a) = []).
Proof.
  intros s rn a t e R E.
  assert (M : main s rn a = Outcome (o_reads (main s rn a)) (match e with VotelineExn => println (u "ERROR: " ++ voteline_message t) | _ => [] end) (Uncaught e)).
  { destruct R as [(g&A1&A2&A3&A4&A5)|(A1&A2&A3)].
    - unfold main. rewrite A5. change (memb (u "abif") validinfmts) with true. cbn [negb]. unfold read_input. rewrite A1. rewrite (proj2 (str_eqb_neq g dash) A2). cbn [read_files]. rewrite A3, A4. cbn [app read_files]. unfold load. change (str_eqb (u "abif") (u "abif")) with true. cbv iota. rewrite E. reflexivity.
    - unfold main. unfold input_format. rewrite A2. change (memb (u "abif") validinfmts) with true. cbn [negb]. unfold read_input. rewrite A1, str_eqb_refl, A3. unfold load. change (str_eqb (u "abif") (u "abif")) with true. cbv iota. rewrite E. reflexivity. }
  rewrite M. cbn [o_ending o_stdout]. split; [reflexivity|]. split.
  - destruct (C30_exceptions _ _ _ _ _ E) as [(E1 & _) | [([E1 | E1] & _) | (E1 & _)]]; subst e; cbn; auto.
  - split; [intros ->; unfold println, voteline_message; rewrite <- app_assoc; destruct t as [|c t0]; [reflexivity|]; destruct (Nat.ltb_spec 20 (length (c :: t0))); [|rewrite (firstn_all2 (c :: t0)) by lia]; rewrite <- ?app_assoc; reflexivity|]. intro N. destruct e; try reflexivity. congruence.
Qed.
Print Assumptions C85_unreadable.

(** ** Each reason occurs, and the conditions are met *)
(** A table as texttable frames it, without its contents. *)
Definition framed : rendering := Rendering (fun _ _ => []) (fun _ => []) soup_str (fun _ _ => u "+--+" ++ [10%N] ++ u "|  |" ++ [10%N] ++ u "+--+" ++ [10%N] ++ u "+--+") (fun l => l).
Definition run_of (x : str) (to : string) (mods : list string) : ending * bool :=
  let o := main (pipe_files x) framed (cli_args to mods) in (o_ending o, match o_stdout o with [] => true | _ => false end).
(** "5:" is a voteline that ranks nobody. *)
Definition nobody : str := u "5:".
Definition one : str := u "5:A/1".
Definition zero : str := u "5:A>B" ++ [10%N] ++ u "0:B>A".
Definition blank_first : str := u "5:" ++ [10%N] ++ u "3:A/2>B/1".
Example C85_reasons :
  run_of nobody "svg" [] = (Uncaught ValueError, true) /\ run_of nobody "dot" [] = (Uncaught ValueError, true) /\ run_of nobody "html_snippet" ["svg"%string] = (Uncaught ValueError, true) /\ run_of nobody "html_snippet" [] = (Done, false) /\
  run_of nobody "irvjson" [] = (Uncaught ValueError, true) /\ run_of nobody "text" [] = (Uncaught IndexError, true) /\ run_of nobody "text" ["winlosstie"%string] = (Done, false) /\
  run_of nobody "text" ["score"; "IRV"]%string = (Uncaught ValueError, true) /\ run_of nobody "text" ["score"%string] = (Uncaught IndexError, true) /\
  run_of one "json" ["STAR"%string] = (Uncaught IndexError, true) /\ run_of one "text" ["STAR"%string] = (Uncaught IndexError, true) /\ run_of one "text" [] = (Done, false) /\
  run_of blank_first "text" ["STAR"%string] = (Uncaught IndexError, true) /\ run_of blank_first "json" ["STAR"%string] = (Done, false) /\
  run_of zero "csvrank" [] = (Uncaught VotelineExn, true) /\ run_of zero "abif" [] = (Done, false).
Proof. repeat split; vm_compute; reflexivity. Qed.
Example C85_nonvacuous : exists m, takes (pipe_files zero) (cli_args "text" ["IRV"; "STAR"; "pairwise"]%string) zero /\ draws_tables framed /\ schedule (s_irv (pipe_files zero)) /\ text zero /\
  convert_abif_to_jabmod zero false false false = Ok m /\ complaint (u "text") (map u ["IRV"; "STAR"; "pairwise"]%string) m = None /\ complaint (u "csvrank") [] m = Some VotelineExn /\
  run_of (u "5:A>B") "text" ["IRV"; "STAR"; "pairwise"]%string = (Done, false) /\ run_of (u "no votes") "text" [] = (Uncaught VotelineExn, false).
Proof.
  eexists. split; [left; exists (u "x.abif"); repeat split; discriminate|]. split; [intros w t; vm_compute; lia|]. split; [intros n l; apply Permutation_refl|]. split; [vm_compute; reflexivity|]. split; [vm_compute; reflexivity|].
  repeat split; vm_compute; reflexivity.
Qed.
