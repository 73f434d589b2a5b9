(** * PropsChars: C78, what is in a parsed election comes from the text, and can be stored *)

From Coq Require Import Lia.
From Verif Require Import PyBase PyFacts Jabmod Spec ScoreModel Regex ParserModel RegexFacts ParserSpec ParserFacts ParserPrefs ParserFile PropsPairwise PropsScore PropsParser RoundtripParsed.
From Verif Require Import UrlText UrlFacts TextFacts JsonText JsonFacts JsonParse JabmodJson PropsJson.
Local Open Scope Z_scope.
Local Open Scope res_scope.

(** All characters of s have the property P. *)
Definition all (P : N -> bool) (s : str) : Prop := forallb P s = true.
Definition all_opt (P : N -> bool) (o : option str) : Prop := match o with Some s => all P s | None => True end.
(** One entry of the metadata: the program's own counters, the stored comments, or a key and value from the text. *)
Definition meta_from (P : N -> bool) (k : str) (v : json) : Prop :=
  (k = u "ballotcount" /\ exists z, v = JInt z) \/ (k = u "is_ranking_to_rating" /\ v = JBool true) \/
  (k = u "comments" /\ exists cs, v = JArr (map (fun ic => JArr [JInt (fst ic); JStr (snd ic)]) cs) /\ forall i c, In (i, c) cs -> all P c) \/
  ((all P k \/ k = u "ballotcount_abif_metadata") /\ exists s, v = JStr s /\ all P s).
Definition pref_from (P : N -> bool) (p : pref) : Prop :=
  (forall s, p_rating p = Some (RStr s) -> all P s) /\ (forall d, p_nextdelim p = Some d -> P d = true).
Definition line_from (P : N -> bool) (l : voteline) : Prop :=
  (forall c p, In (c, p) (v_prefs l) -> all P c /\ pref_from P p) /\ all_opt P (v_comment l) /\ all_opt P (v_prefstr l) /\ all_opt P (v_voterid l) /\ all_opt P (v_nameq l).
Definition made_of (P : N -> bool) (m : jabmod) : Prop :=
  (forall c n, In (c, n) (j_candidates m) -> all P c /\ all P n) /\ (forall k v, In (k, v) (j_metadata m) -> meta_from P k v) /\ (forall l, In l (j_votelines m) -> line_from P l).

Section Chars.
  Context (P : N -> bool).
  Notation allP := (all P).
  Lemma all_nil : allP []. Proof. reflexivity. Qed.
  Lemma all_cons c s : allP (c :: s) <-> P c = true /\ allP s. Proof. unfold all. cbn [forallb]. rewrite andb_true_iff. tauto. Qed.
  Lemma all_app a b : allP (a ++ b) <-> allP a /\ allP b. Proof. unfold all. rewrite forallb_app, andb_true_iff. tauto. Qed.
  Lemma all_incl a b : incl a b -> allP b -> allP a.
  Proof. unfold all. rewrite !forallb_forall. intros H Hb x Hx. apply Hb, H, Hx. Qed.
  Lemma rmat_all r s cs s' cs' : rmat r s cs s' cs' -> allP s -> (forall n x, In (n, x) cs -> allP x) -> allP s' /\ (forall n x, In (n, x) cs' -> allP x).
  Proof.
    induction 1; intros Hs Hc; try (split; assumption); try (apply IHrmat; assumption).
    - apply all_cons in Hs as (_&Hs). auto.
    - destruct (IHrmat1 Hs Hc) as (H1&H2). exact (IHrmat2 H1 H2).
    - apply all_app in Hs as (_&Hs). auto.
    - destruct (IHrmat Hs Hc) as (H1&H2). split; [exact H1|]. intros k x [E|Hx]; [|exact (H2 k x Hx)]. injection E as <- <-. apply all_app in Hs. apply Hs.
  Qed.
  Lemma match_all r s g rest : re_match r s = Some (g, rest) -> allP s -> forall n, allP (group n g).
  Proof.
    intros E Hs n. unfold re_match in E. apply rm_sound in E as (s'&cs'&M&E). injection E as <- <-. destruct (rmat_all _ _ _ _ _ M Hs) as (_&H); [intros ? ? []|]. clear M.
    induction cs' as [|[i x] r' IH]; [reflexivity|]. cbn [group]. destruct (Nat.eqb i n); [apply (H i); left; reflexivity|].
    apply IH. intros k y Hy. apply (H k). right. exact Hy.
  Qed.
  Lemma split_delims_all s : allP s -> forall x, In x (split_delims s) -> allP x.
  Proof.
    induction s as [|c r IH]; intros Hs x Hx; cbn [split_delims] in Hx.
    - destruct Hx as [<-|[]]. reflexivity.
    - apply all_cons in Hs as (Hc&Hs). destruct (is_delim c).
      + destruct Hx as [<-|[<-|Hx]]; [reflexivity|apply all_cons; split; [exact Hc|reflexivity]|exact (IH Hs x Hx)].
      + destruct (split_delims r) as [|p ps] eqn:E; [destruct Hx as [<-|[]]; apply all_cons; split; [exact Hc|reflexivity]|].
        destruct Hx as [<-|Hx]; [apply all_cons; split; [exact Hc|apply IH; [exact Hs|left; reflexivity]]|apply IH; [exact Hs|right; exact Hx]].
  Qed.
  Lemma lstrip_incl s : incl (lstrip s) s.
  Proof. induction s as [|c r IH]; [intros x Hx; exact Hx|]. cbn [lstrip]. destruct (is_space c); [intros x Hx; right; apply IH, Hx|intros x Hx; exact Hx]. Qed.
  Lemma rstrip_incl s : incl (rstrip s) s.
  Proof. unfold rstrip. intros x Hx. apply in_rev in Hx. apply lstrip_incl in Hx. apply in_rev in Hx. exact Hx. Qed.
  Lemma strip_incl s : incl (strip s) s.
  Proof. intros x Hx. unfold strip in Hx. apply rstrip_incl, lstrip_incl in Hx || apply lstrip_incl, rstrip_incl in Hx. exact Hx. Qed.
  Lemma split_rating_all s a d : split_rating s = Some (a, d) -> allP s -> allP a.
  Proof.
    revert a. induction s as [|c r IH]; intros a E Hs; [discriminate E|]. cbn [split_rating] in E. destruct (re_match SLASH_RATING (c :: r)) as [[g rest]|]; [injection E as <- _; reflexivity|].
    destruct (split_rating r) as [[b ds]|]; [|discriminate E]. injection E as <- <-. apply all_cons in Hs as (Hc&Hs). apply all_cons. split; [exact Hc|]. apply IH; [reflexivity|exact Hs].
  Qed.
  Definition cp_ok (cp : str * option ratingval) : Prop := allP (fst cp) /\ forall s, snd cp = Some (RStr s) -> allP s.
  Definition x_ok (st : xstate) : Prop := (forall cp, In cp (x_ret st) -> cp_ok cp) /\ allP (x_qtok st) /\ allP (x_ccand st).
  Lemma in_snoc {A} (P0 : A -> Prop) l x : (forall y, In y l -> P0 y) -> P0 x -> forall y, In y (l ++ [x]) -> P0 y.
  Proof. intros Hl Hx y Hy. apply in_app_or in Hy as [Hy|[<-|[]]]; auto. Qed.
  Lemma in_removelast {A} (l : list A) x : In x (removelast l) -> In x l.
  Proof. induction l as [|y r IH]; [intros []|]. cbn [removelast]. destruct r; [intros []|]. intros [<-|H]; [left; reflexivity|right; apply IH, H]. Qed.
  Lemma set_last_ok (l l' : list (str * option ratingval)) x : set_last x l = Ok l' -> (forall y, In y l -> cp_ok y) -> cp_ok x -> forall y, In y l' -> cp_ok y.
  Proof. unfold set_last. destruct l as [|a r]; [discriminate|]. intros E H Hx. apply ok_inj in E. subst l'. apply in_snoc; [|exact Hx]. intros y Hy. apply H, in_removelast, Hy. Qed.
  Lemma xstep_all st tok st' : xstep st tok = Ok st' -> allP tok -> x_ok st -> x_ok st'.
  Proof.
    destruct st as [ret inbr inq qtok ccand]. intros E Ht (H1&H2&H3). cbn [x_ret x_qtok x_ccand] in *. unfold xstep in E. destruct (inbr || inq).
    - destruct (ParserModel.starts_with _ tok && negb inbr); [apply ok_inj in E; subst st'; repeat split; cbn [x_ret x_qtok x_ccand]; try assumption; try reflexivity; apply H1; assumption|].
      destruct (ParserModel.starts_with _ tok && inbr).
      { apply ok_inj in E. subst st'. repeat apply conj; cbn [x_ret x_qtok x_ccand]; [|reflexivity|exact H2]. apply in_snoc; [exact H1|]. split; [exact H2|discriminate]. }
      destruct (ParserModel.starts_with _ (lstrip tok)).
      { destruct inq.
        - apply bind_ok in E as (ret'&E1&E). apply ok_inj in E. subst st'. repeat apply conj; cbn [x_ret x_qtok x_ccand]; [|reflexivity|exact H3].
          apply (set_last_ok _ _ _ E1 H1). split; [exact H2|discriminate].
        - apply ok_inj in E. subst st'. repeat apply conj; cbn [x_ret x_qtok x_ccand]; [exact H1|reflexivity|exact H3]. }
      destruct tok as [|c r]; [discriminate E|]. apply ok_inj in E. subst st'. repeat apply conj; cbn [x_ret x_qtok x_ccand]; [exact H1| |exact H3]. apply all_app. split; assumption.
    - destruct (re_match QUOTED_RATED tok) as [[g rest]|] eqn:Er.
      { apply ok_inj in E. subst st'. pose proof (match_all _ _ _ _ Er Ht) as G. repeat apply conj; cbn [x_ret x_qtok x_ccand]; [|exact H2|apply G].
        apply in_snoc; [exact H1|]. split; [apply G|]. cbn [snd]. intros s Es. injection Es as <-. apply G. }
      destruct (re_match QUOTED tok) as [[g rest]|] eqn:Eq.
      { apply ok_inj in E. subst st'. pose proof (match_all _ _ _ _ Eq Ht) as G. repeat apply conj; cbn [x_ret x_qtok x_ccand]; [exact H1|exact H2|apply G]. }
      destruct (ParserModel.starts_with _ (lstrip tok)).
      + destruct (match split_rating tok with Some (b, d) => (b, Some d) | None => (tok, None) end) as [ctok ds] eqn:Es.
        assert (Hc : allP ctok). { destruct (split_rating tok) as [[b d]|] eqn:E1; injection Es as <- _; [exact (split_rating_all _ _ _ E1 Ht)|exact Ht]. }
        destruct (match ctok with [] => (ret, ccand) | _ :: _ => (ret ++ [(ctok, None)], ctok) end) as [ret1 ccand1] eqn:E1.
        assert (Hr : (forall cp, In cp ret1 -> cp_ok cp) /\ allP ccand1).
        { destruct ctok as [|c r]; injection E1 as <- <-; [split; assumption|]. split; [|exact Hc]. apply in_snoc; [exact H1|]. split; [exact Hc|discriminate]. }
        destruct ds as [d|].
        * apply bind_ok in E as (z&_&E). apply bind_ok in E as (ret2&E2&E). apply ok_inj in E. subst st'. repeat apply conj; cbn [x_ret x_qtok x_ccand]; [|exact H2|apply Hr].
          apply (set_last_ok _ _ _ E2 (proj1 Hr)). split; [apply Hr|discriminate].
        * apply ok_inj in E. subst st'. repeat apply conj; cbn [x_ret x_qtok x_ccand]; [apply Hr|exact H2|apply Hr].
      + destruct (ParserModel.starts_with _ tok); apply ok_inj in E; subst st'; repeat apply conj; cbn [x_ret x_qtok x_ccand]; assumption.
  Qed.
  Lemma extract_all s cps : extract_candprefs s = Ok cps -> allP s -> forall cp, In cp cps -> cp_ok cp.
  Proof.
    intros E Hs. unfold extract_candprefs in E. apply bind_ok in E as (st&E&E'). apply ok_inj in E'. subst cps.
    assert (G : forall toks st0 st1, (forall x, In x toks -> allP x) -> x_ok st0 -> foldM (fun st tok => xstep st (strip tok)) toks st0 = Ok st1 -> x_ok st1).
    { induction toks as [|x r IH]; intros st0 st1 Ht H0 E0; cbn [foldM] in E0; [apply ok_inj in E0; subst; exact H0|]. apply bind_ok in E0 as (st2&E1&E2).
      apply (IH st2 st1); [intros y Hy; apply Ht; right; exact Hy| |exact E2]. apply (xstep_all _ _ _ E1); [|exact H0]. apply (all_incl _ x); [apply strip_incl|apply Ht; left; reflexivity]. }
    apply (G _ _ _ (split_delims_all s Hs)) in E; [apply E|]. split; [intros cp []|split; reflexivity].
  Qed.
  Lemma delims_all s : forall inside, allP s -> forall d, In d (delims inside s) -> P d = true.
  Proof.
    induction s as [|c r IH]; intros inside Hs d Hd; cbn [delims] in Hd; [destruct Hd|]. apply all_cons in Hs as (Hc&Hs). destruct inside; [exact (IH _ Hs d Hd)|].
    destruct (_ && _); [exact (IH _ Hs d Hd)|]. destruct (one_of _ c); [|exact (IH _ Hs d Hd)]. destruct Hd as [<-|Hd]; [exact Hc|exact (IH _ Hs d Hd)].
  Qed.
  Lemma prefs_loop_all mode ds n : (forall d, In d ds -> P d = true) -> forall cps i rank prefs prefs', (forall cp, In cp cps -> cp_ok cp) ->
    (forall c p, In (c, p) prefs -> allP c /\ pref_from P p) -> prefs_loop mode ds n i rank cps prefs = Ok prefs' -> forall c p, In (c, p) prefs' -> allP c /\ pref_from P p.
  Proof.
    intro Hds. induction cps as [|[cand rating] r IH]; intros i rank prefs prefs' Hc Hp E; cbn [prefs_loop] in E; [apply ok_inj in E; subst; exact Hp|].
    destruct (Hc _ (or_introl eq_refl)) as (C1&C2). cbn [fst snd] in C1, C2.
    set (p0 := match rating with Some rv => if rating_truthy rv then set_rating rv empty_pref else empty_pref | None => empty_pref end) in E.
    assert (H0 : pref_from P p0). { unfold p0. destruct rating as [rv|]; [destruct (rating_truthy rv)|]; split; try discriminate. cbn. intros s Es. injection Es as ->. apply C2. reflexivity. }
    assert (Hrank : forall z p, pref_from P p -> pref_from P (set_rank z p)) by (intros z p Hp0; exact Hp0).
    assert (Hdel : forall d p, P d = true -> pref_from P p -> pref_from P (set_nextdelim d p)). { intros d p Hd (G1&_). split; [exact G1|]. cbn. intros d' Ed. injection Ed as <-. exact Hd. }
    apply bind_ok in E as ([p1 rank1]&E1&E). apply bind_ok in E as (p2&E2&E).
    assert (H1 : pref_from P p1).
    { destruct mode.
      - destruct (i <? n - 1)%nat; [|apply ok_inj in E1; injection E1 as <- _; apply Hrank, H0]. apply bind_ok in E1 as (d&Ed&E1). destruct (nth_error ds i) as [d'|] eqn:En; [|discriminate Ed]. apply ok_inj in Ed. subst d'. apply nth_error_In in En.
        destruct (N.eqb d ch_gt); apply ok_inj in E1; injection E1 as <- _; [apply Hdel; [apply Hds, En|]|]; apply Hrank, H0.
      - apply ok_inj in E1. injection E1 as <- _. exact H0.
      - apply ok_inj in E1. injection E1 as <- _. apply Hrank, H0. }
    assert (H2 : pref_from P p2).
    { destruct (i <? n - 1)%nat; [|apply ok_inj in E2; subst; exact H1]. apply bind_ok in E2 as (d&Ed&E2). destruct (nth_error ds i) as [d'|] eqn:En; [|discriminate Ed]. apply ok_inj in Ed. subst d'. apply nth_error_In in En.
      apply ok_inj in E2. subst p2. apply Hdel; [apply Hds, En|exact H1]. }
    refine (IH _ _ _ _ _ _ E); [intros cp Hcp; apply Hc; right; exact Hcp|].
    intros c p Hin. apply In_dset in Hin as [(-> & ->)|Hin]; [split; assumption|]. exact (Hp c p Hin).
  Qed.
  Lemma parse_prefstr_all s prefs keys : parse_prefstr s = Ok (prefs, keys) -> allP s -> (forall c p, In (c, p) prefs -> allP c /\ pref_from P p) /\ (forall c, In c keys -> allP c).
  Proof.
    intros E Hs. destruct (parse_prefstr_shape _ _ _ E) as (cps&prefs0&Ec&->&E0&->). pose proof (extract_all _ _ Ec Hs) as Hc. split.
    - assert (H0 : forall c p, In (c, p) prefs0 -> allP c /\ pref_from P p).
      { refine (prefs_loop_all _ _ _ _ _ _ _ _ _ Hc _ E0); [|intros c p []]. intros d Hd. exact (delims_all s false Hs d Hd). }
      intros c p Hin. apply in_map_iff in Hin as ([c' p']&Eq&Hin). injection Eq as <- <-. destruct (H0 c' p' Hin) as (H1&H2&H3). split; [exact H1|]. unfold fill_rank. cbn [snd]. destruct (has_rank p'); (split; [exact H2|exact H3]).
    - intros c Hin. apply in_map_iff in Hin as (cp&<-&Hin). exact (proj1 (Hc cp Hin)).
  Qed.
  Lemma strip_comment_all line body comment : strip_comment line = (body, comment) -> all P line -> all P body /\ all_opt P comment.
  Proof.
    unfold strip_comment. intros E H. destruct (re_match COMMENT_REGEX line) as [[g rest]|] eqn:Er; injection E as <- <-; [|split; [exact H|exact I]].
    pose proof (match_all _ _ _ _ Er H) as G. split; [apply G|]. cbn [all_opt]. apply all_app. split; [apply G|]. apply all_app. split; apply G.
  Qed.
  Lemma meta_set k v m : made_of P m -> meta_from P k v -> made_of P (Jabmod (dset k v (j_metadata m)) (j_candidates m) (j_votelines m)).
  Proof. intros (H1&H2&H3) Hk. split; [exact H1|]. split; [|exact H3]. intros k' v' Hin. cbn [j_metadata] in Hin. apply In_dset in Hin as [(-> & ->)|Hin]; [exact Hk|exact (H2 _ _ Hin)]. Qed.
  Lemma process_comment_all m c i st m' : process_comment m c i st = Ok m' -> made_of P m -> all_opt P c -> made_of P m'.
  Proof.
    unfold process_comment. intros E H Hc. destruct c as [[|x c]|]; try (apply ok_inj in E; subst m'; exact H). destruct st; [|apply ok_inj in E; subst m'; exact H].
    destruct (dget k_comments (j_metadata m)) as [v|] eqn:Eg.
    - assert (Hv : meta_from P k_comments v) by (apply H, dget_In, Eg). destruct v; try discriminate E. apply ok_inj in E. subst m'. apply meta_set; [exact H|].
      destruct Hv as [(Ek&_)|[(Ek&_)|[(_&cs&Ec&Hcs)|(_&s&Es&_)]]]; try discriminate. right. right. left. split; [reflexivity|]. injection Ec as ->. exists (cs ++ [(i, x :: c)]). rewrite map_app. split; [reflexivity|].
      intros j y Hy. apply in_app_or in Hy as [Hy|[E|[]]]; [exact (Hcs j y Hy)|]. injection E as <- <-. exact Hc.
    - apply ok_inj in E. subst m'. apply meta_set; [exact H|]. right. right. left. split; [reflexivity|]. exists [(i, x :: c)]. split; [reflexivity|]. intros j y [E|[]]. injection E as <- <-. exact Hc.
  Qed.
  Lemma merge_all cs table : (forall c, In c cs -> all P c) -> (forall c n, In (c, n) table -> all P c /\ all P n) -> forall c n, In (c, n) (merge_cands cs table) -> all P c /\ all P n.
  Proof.
    unfold merge_cands. revert table. induction cs as [|x r IH]; intros table Hc Ht; cbn [fold_left]; [exact Ht|]. apply IH; [intros c Hin; apply Hc; right; exact Hin|].
    destruct (dmem x table); [exact Ht|]. intros c n Hin. apply In_dset in Hin as [(-> & ->)|Hin]; [split; apply Hc; left; reflexivity|exact (Ht c n Hin)].
  Qed.
  Lemma process_prefline_all qty ps c m m' : process_prefline qty ps c m = Ok m' -> all P ps -> all_opt P c -> made_of P m -> made_of P m'.
  Proof.
    unfold process_prefline. intros E Hs Hc H. set (vid := match c with Some c0 => match re_match VOTERID_REGEX c0 with Some (g, _) => Some (group 2 g) | None => None end | None => None end) in E.
    assert (Hv : all_opt P vid). { unfold vid. destruct c as [c0|]; [|exact I]. destruct (re_match VOTERID_REGEX c0) as [[g rest]|] eqn:Er; [|exact I]. exact (match_all _ _ _ _ Er Hc 2%nat). }
    apply bind_ok in E as (q&_&E). apply bind_ok in E as (bc&_&E). apply bind_ok in E as (z&_&E). apply bind_ok in E as ([prefs keys]&Ep&E). apply ok_inj in E. subst m'.
    destruct (parse_prefstr_all _ _ _ Ep Hs) as (G1&G2). destruct H as (H1&H2&H3). split; [|split].
    - cbn [j_candidates]. apply merge_all; assumption.
    - intros k v Hin. cbn [j_metadata] in Hin. apply In_dset in Hin as [(-> & ->)|Hin]; [left; split; [reflexivity|eauto]|exact (H2 _ _ Hin)].
    - intros l Hl. cbn [j_votelines] in Hl. apply in_app_or in Hl as [Hl|[<-|[]]]; [exact (H3 l Hl)|]. split; [exact G1|]. split; [exact Hc|]. split; [|split; [exact Hv|exact I]]. cbn [v_prefstr all_opt]. apply (all_incl _ ps); [apply rstrip_incl|exact Hs].
  Qed.
  Lemma process_line_all cw st m i line m' : process_line cw st m (i, line) = Ok m' -> all P line -> made_of P m -> made_of P m'.
  Proof.
    unfold process_line. intros E Hl H. destruct (strip_comment (if cw then lstrip line else line)) as [body comment] eqn:Es.
    assert (Hl' : all P (if cw then lstrip line else line)) by (destruct cw; [apply (all_incl _ line); [apply lstrip_incl|exact Hl]|exact Hl]).
    destruct (strip_comment_all _ _ _ Es Hl') as (B1&B2). apply bind_ok in E as (m1&E1&E). pose proof (process_comment_all _ _ _ _ _ E1 H B2) as H1.
    destruct (re_match CANDLINE_REGEX body) as [[g rest]|] eqn:Ec.
    { apply ok_inj in E. subst m'. pose proof (match_all _ _ _ _ Ec B1) as G. destruct H1 as (C1&C2&C3). split; [|split; assumption]. intros c n Hin. unfold process_candline in Hin. cbn [j_candidates] in Hin.
      apply In_dset in Hin as [(-> & ->)|Hin]; [split; apply G|exact (C1 c n Hin)]. }
    destruct (re_match METADATA_REGEX body) as [[g rest]|] eqn:Em.
    { apply ok_inj in E. subst m'. pose proof (match_all _ _ _ _ Em B1) as G. unfold process_metadata. apply meta_set; [exact H1|]. right. right. right.
      split; [destruct (str_eqb _ _); [right; reflexivity|left; apply G]|]. exists (group 2 g). split; [reflexivity|apply G]. }
    destruct (re_match VOTELINE_REGEX body) as [[g rest]|] eqn:Ev; [|apply ok_inj in E; subst m'; exact H1].
    pose proof (match_all _ _ _ _ Ev B1) as G. exact (process_prefline_all _ _ _ _ _ E (G 2%nat) B2 H1).
  Qed.
  Lemma splitlines_aux_all : forall n s cur b, (length s <= n)%nat -> all P s -> all P cur -> forall l, In l (splitlines_aux s cur b) -> all P l.
  Proof.
    assert (Hrev : forall x, all P x -> all P (rev x)) by (intros x Hx; apply (all_incl _ x); [intros y Hy; apply in_rev; exact Hy|exact Hx]).
    induction n as [|n IH]; intros s cur b Hn Hs Hc l Hl; destruct s as [|c r]; cbn [length] in Hn; try lia; cbn [splitlines_aux] in Hl;
      try (destruct b; [destruct Hl as [<-|[]]; apply Hrev, Hc|destruct Hl]). apply all_cons in Hs as (Hx&Hs). destruct (is_linebreak c).
    - destruct Hl as [<-|Hl]; [apply Hrev, Hc|]. destruct r as [|c' r']; [destruct Hl|]. cbn [length] in Hn. destruct (_ && _).
      + apply (IH r' [] false); [lia| |reflexivity|exact Hl]. apply all_cons in Hs. apply Hs.
      + apply (IH (c' :: r') [] false); [cbn [length]; lia|exact Hs|reflexivity|exact Hl].
    - apply (IH r (c :: cur) true); [lia|exact Hs|apply all_cons; split; assumption|exact Hl].
  Qed.
  Lemma lines_all cw st : forall lines i m m', (forall l, In l lines -> all P l) -> made_of P m -> foldM (process_line cw st) (enumerate i lines) m = Ok m' -> made_of P m'.
  Proof.
    induction lines as [|x r IH]; intros i m m' Hl H E; cbn [enumerate foldM] in E; [apply ok_inj in E; subst; exact H|]. apply bind_ok in E as (m1&E1&E2).
    apply (IH (i + 1) m1 m'); [intros l Hin; apply Hl; right; exact Hin| |exact E2]. apply (process_line_all _ _ _ _ _ _ E1); [apply Hl; left; reflexivity|exact H].
  Qed.
  Lemma add_ratings_all m m' : add_ratings_to_votelines m true = Ok m' -> made_of P m -> made_of P m'.
  Proof.
    unfold add_ratings_to_votelines. intros E H. apply bind_ok in E as (out&E1&E). apply ok_inj in E. subst m'.
    assert (G : made_of P (Jabmod (j_metadata m) (j_candidates m) (map fst out))).
    { destruct H as (H1&H2&H3). split; [exact H1|]. split; [exact H2|]. intros l Hl. cbn [j_votelines] in Hl. apply in_map_iff in Hl as ((l'&fl)&<-&Hl). cbn [fst].
      revert out E1 Hl. generalize (j_votelines m) as ls, H3. induction ls as [|l0 ls IH]; intros Hls out E1 Hl; cbn [mapM] in E1; [apply ok_inj in E1; subst out; destruct Hl|].
      apply bind_ok in E1 as (y&Ey&E1). apply bind_ok in E1 as (ys&Eys&E1). apply ok_inj in E1. subst out. destruct Hl as [Ez|Hl]; [|apply (IH (fun l Hin => Hls l (or_intror Hin)) ys Eys Hl)].
      subst y. apply bind_ok in Ey as (ps&Ep&Ey). apply ok_inj in Ey. injection Ey as <- _. destruct (Hls l0 (or_introl eq_refl)) as (L1&L2&L3&L4). split; [|split; [exact L2|split; assumption]].
      clear - Ep L1. cbn [v_prefs with_prefs]. revert ps Ep L1. generalize (v_prefs l0). induction d as [|[c0 p0] d IH]; intros ps Ep L1 c p Hin; cbn [mapM] in Ep; [apply ok_inj in Ep; subst ps; destruct Hin|].
      apply bind_ok in Ep as (y&Ey&Ep). apply bind_ok in Ep as (ys&Eys&Ep). apply ok_inj in Ep. subst ps. cbn [map] in Hin. destruct Hin as [Ez|Hin]; [|exact (IH ys Eys (fun c p Hcp => L1 c p (or_intror Hcp)) c p Hin)].
      apply bind_ok in Ey as (r&Er&Ey). apply ok_inj in Ey. subst y. cbn [fst snd] in Ez. injection Ez as <- <-. destruct (L1 c0 p0 (or_introl eq_refl)) as (A1&A2). split; [exact A1|].
      cbn [snd] in Er. unfold add_rating_pref in Er. destruct (match p_rating p0 with Some r0 => rating_truthy r0 | None => false end); [apply ok_inj in Er; subst r; exact A2|].
      assert (S1 : forall z, pref_from P (set_rating (RInt z) p0)) by (intro z; split; [cbn; discriminate|apply A2]).
      destruct (inmod_has_rating m); [apply ok_inj in Er; subst r; apply S1|]. destruct (p_rank p0); [apply ok_inj in Er; subst r; apply S1|discriminate Er]. }
    destruct (existsb snd out); [|exact G]. apply (meta_set k_is_ranking_to_rating (JBool true) _ G). right. left. split; reflexivity.
  Qed.
  Lemma convert_all t cw ar st m : convert_abif_to_jabmod t cw ar st = Ok m -> all P t -> made_of P m.
  Proof.
    intros E Ht. unfold convert_abif_to_jabmod in E. destruct t as [|c r] eqn:Et; [discriminate E|]. rewrite <- Et in *. apply bind_ok in E as (m0&E0&E).
    assert (H0 : made_of P m0).
    { refine (lines_all _ _ _ _ _ _ _ _ E0); [intros l Hl; exact (splitlines_aux_all (length t) t [] false (le_n _) Ht eq_refl l Hl)|]. split; [intros ? ? []|]. split; [|intros ? []].
      intros k v [Ekv|[]]. injection Ekv as <- <-. left. split; [reflexivity|eauto]. }
    destruct (j_votelines m0); [discriminate E|]. apply bind_ok in E as (m1&E1&E). apply ok_inj in E. subst m.
    assert (H1 : made_of P m1) by (destruct ar; [exact (add_ratings_all _ _ E1 H0)|apply ok_inj in E1; subst; exact H0]).
    destruct H1 as (A1&A2&A3). split; [exact A1|]. split; [exact A2|]. intros l0 Hl. cbn [j_votelines] in Hl. apply A3. apply (Permutation.Permutation_in _ (sort_desc_perm v_qty (j_votelines m1))). exact Hl.
  Qed.
End Chars.

(** ** C78 *)
(** Every property all characters of the file have is one of all characters the reader puts into the model: nothing is made up. *)
Theorem C78_characters : forall P t cleanws add_ratings storecomments m, convert_abif_to_jabmod t cleanws add_ratings storecomments = Ok m ->
  (forall c, In c t -> P c = true) ->
  (forall c n, In (c, n) (j_candidates m) -> all P c /\ all P n) /\ (forall k v, In (k, v) (j_metadata m) -> meta_from P k v) /\ (forall l, In l (j_votelines m) -> line_from P l).
Proof. intros P t cw ar st m E H. apply (convert_all P t cw ar st m E). apply forallb_forall, H. Qed.
Print Assumptions C78_characters.
(** Every token and every name is written with characters of the file. *)
Theorem C78_names : forall t cleanws add_ratings storecomments m, convert_abif_to_jabmod t cleanws add_ratings storecomments = Ok m ->
  forall c n, In (c, n) (j_candidates m) -> incl c t /\ incl n t.
Proof.
  intros t cw ar st m E c n Hin. set (P := fun x => existsb (N.eqb x) t). assert (HP : forall x, P x = true <-> In x t).
  { intro x. unfold P. rewrite existsb_exists. split; [intros (y&Hy&Ey); apply N.eqb_eq in Ey; subst; exact Hy|intro Hx; exists x; split; [exact Hx|apply N.eqb_refl]]. }
  destruct (C78_characters P t cw ar st m E (fun x Hx => proj2 (HP x) Hx)) as (H&_). destruct (H c n Hin) as (H1&H2).
  split; intros x Hx; apply HP; [exact (proj1 (forallb_forall P c) H1 x Hx)|exact (proj1 (forallb_forall P n) H2 x Hx)].
Qed.
Print Assumptions C78_names.
(** A parsed election can be stored as JSON and read back. *)
Theorem C78_storable : forall t cleanws add_ratings storecomments m, convert_abif_to_jabmod t cleanws add_ratings storecomments = Ok m -> text t ->
  storable m /\ exists j, json_loads (dumps_indent 4 (json_of_jabmod m)) = Ok j /\ jabmod_of_json j = Some m.
Proof.
  intros t cw ar st m E Ht. assert (H : storable m); [|split; [exact H|exact (C64_jabmod m H)]].
  destruct (C78_characters scalar t cw ar st m E (proj1 (forallb_forall scalar t) Ht)) as (H1&H2&H3). destruct (C29_well_formed _ _ _ _ _ E) as (_&_&Hn&_&_). destruct (convert_votes _ _ _ _ _ E) as (m0&vs&ls&_&_&_&_&_&_&_&_&Hk&_).
  constructor.
  - exact Hn.
  - exact H1.
  - exact Hk.
  - intros k v Hin. destruct (H2 k v Hin) as [(->&z&->)|[(->&->)|[(->&cs&->&Hcs)|(Hkk&s&->&Hs)]]].
    + repeat split; reflexivity.
    + repeat split; reflexivity.
    + split; [reflexivity|]. split.
      * cbn [json_text_ok]. apply forallb_forall. intros x Hx. apply in_map_iff in Hx as ([i c]&<-&Hx). cbn. specialize (Hcs i c Hx). unfold all in Hcs. cbn [snd]. unfold text in Hcs. rewrite Hcs. reflexivity.
      * apply nodup_arr_intro. intros x Hx. apply in_map_iff in Hx as ([i c]&<-&Hx). cbn. repeat split.
    + split; [destruct Hkk as [Hkk| ->]; [exact Hkk|reflexivity]|]. split; [exact Hs|exact I].
  - intros l Hl. destruct (H3 l Hl) as (L1&L2&L3&L4&L5). constructor; try assumption.
    + destruct (parsed_line _ _ _ _ _ _ E Hl) as ((_&Hnd&_)&_). exact Hnd.
    + intros c p Hin. destruct (L1 c p Hin) as (A1&A2&A3). split; [exact A1|]. split.
      * unfold rating_text. destruct (p_rating p) as [[z|s]|] eqn:Er; try exact I. exact (A2 s eq_refl).
      * destruct (p_nextdelim p) as [d|] eqn:Ed; [exact (A3 d eq_refl)|exact I].
Qed.
Print Assumptions C78_storable.
Definition odd_file : str := u "{title: ""Caf" ++ [233%N] ++ u """}" ++ [10%N] ++ u "=B:[Bob " ++ [128512%N] ++ u "]" ++ [10%N] ++ u "3:[A " ++ [8217%N] ++ u "]/5>B/2 #x" ++ [10%N] ++ u "2:B".
Example C78_sample : text odd_file /\ exists m, convert_abif_to_jabmod odd_file false true true = Ok m /\ j_candidates m = [(u "B", u "Bob " ++ [128512%N]); (u "A " ++ [8217%N], u "A " ++ [8217%N])] /\ length (j_votelines m) = 2%nat.
Proof. split; [vm_compute; reflexivity|]. eexists. split; [vm_compute; reflexivity|]. split; vm_compute; reflexivity. Qed.
