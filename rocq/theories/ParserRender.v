(** * ParserRender: reading a written preference text gives back what was written *)

From Verif Require Import PyBase PyFacts Jabmod Regex RegexFacts WordTable ScoreModel ScoreFacts Spec ParserModel ParserSpec ParserFacts ParserPrefs.
Local Open Scope Z_scope.

Definition no_delim (s : str) : Prop := forallb (fun c => negb (is_delim c)) s = true.

Lemma no_delim_app a b : no_delim (a ++ b) <-> no_delim a /\ no_delim b.
Proof. unfold no_delim. rewrite forallb_app. apply andb_true_iff. Qed.

Lemma split_delims_nodelim a : no_delim a -> split_delims a = [a].
Proof.
  induction a as [|c a IH]; [reflexivity|]. unfold no_delim. cbn [forallb]. intro H. apply andb_prop in H as [Hc H].
  cbn [split_delims]. destruct (is_delim c); [discriminate|]. rewrite (IH H). reflexivity.
Qed.

Lemma split_delims_app a d b : no_delim a -> is_delim d = true ->
  split_delims (a ++ d :: b) = a :: [d] :: split_delims b.
Proof.
  intros Ha Hd. induction a as [|c a IH]; cbn [app split_delims]; [rewrite Hd; reflexivity|].
  unfold no_delim in *. cbn [forallb] in Ha. apply andb_prop in Ha as [Hc Ha]. destruct (is_delim c); [discriminate|].
  rewrite IH by exact Ha. reflexivity.
Qed.

Lemma delim_cases d : is_delim d = true -> d = 91%N \/ d = 93%N \/ d = 62%N \/ d = 61%N \/ d = 44%N.
Proof. unfold is_delim. rewrite one_of_In. cbn. intuition. Qed.

Lemma plain_no_delim s : forallb plain_char s = true -> no_delim s.
Proof.
  unfold no_delim. rewrite !forallb_forall. intros H c Hc. specialize (H c Hc). unfold plain_char in H.
  apply andb_prop in H as [_ H]. apply negb_true_iff. apply negb_true_iff in H.
  destruct (is_delim c) eqn:E; [|reflexivity]. apply delim_cases in E.
  destruct E as [->|[->|[->|[->| ->]]]]; vm_compute in H; discriminate.
Qed.

Lemma space_no_delim s : forallb is_space s = true -> no_delim s.
Proof.
  unfold no_delim. rewrite !forallb_forall. intros H c Hc. specialize (H c Hc). apply negb_true_iff.
  destruct (is_delim c) eqn:E; [|reflexivity]. apply delim_cases in E.
  destruct E as [->|[->|[->|[->| ->]]]]; vm_compute in H; discriminate.
Qed.

Lemma digit_no_delim s : forallb is_digit s = true -> no_delim s.
Proof.
  unfold no_delim. rewrite !forallb_forall. intros H c Hc. specialize (H c Hc). apply negb_true_iff.
  destruct (is_delim c) eqn:E; [|reflexivity]. apply delim_cases in E.
  destruct E as [->|[->|[->|[->| ->]]]]; vm_compute in H; discriminate.
Qed.

Lemma slash_no_delim r : (forall d, r = Some d -> numeral d) -> no_delim (slash r).
Proof.
  destruct r as [d|]; intro H; [|reflexivity]. destruct (H d eq_refl) as [_ Hd]. apply digit_no_delim in Hd.
  unfold no_delim in *. cbn [slash forallb]. rewrite Hd. reflexivity.
Qed.

(** ** The patterns *)

Lemma quoted_first s g s' : rmat QUOTED s [] s' g -> exists w r, s = w ++ 34%N :: r /\ forallb is_space w = true.
Proof.
  intro M. unfold QUOTED, RSeqs in M.
  rewrite rmat_seq_inv in M. destruct M as (s1&g1&M1&M). rewrite rmat_star_inv in M1. destruct M1 as (w&->&Hw&->).
  rewrite rmat_seq_inv in M. destruct M as (s2&g2&M2&M). apply rmat_chr_inv in M2 as (c&->&Hc&->).
  apply N.eqb_eq in Hc. subst c. eauto.
Qed.
Lemma quoted_rated_first s g s' : rmat QUOTED_RATED s [] s' g -> exists w r, s = w ++ 34%N :: r /\ forallb is_space w = true.
Proof.
  intro M. unfold QUOTED_RATED, RSeqs in M.
  rewrite rmat_seq_inv in M. destruct M as (s1&g1&M1&M). rewrite rmat_star_inv in M1. destruct M1 as (w&->&Hw&->).
  rewrite rmat_seq_inv in M. destruct M as (s2&g2&M2&M). apply rmat_chr_inv in M2 as (c&->&Hc&->).
  apply N.eqb_eq in Hc. subst c. eauto.
Qed.

Lemma not_quoted s : (forall c r, s = c :: r -> is_space c = false /\ c <> 34%N) ->
  re_match QUOTED s = None /\ re_match QUOTED_RATED s = None.
Proof.
  intro H. assert (G : forall w r, s = w ++ 34%N :: r -> forallb is_space w = true -> False).
  { intros w r E Hw. destruct w as [|x w]; cbn in E; destruct (H _ _ E) as [H1 H2]; [congruence|].
    cbn in Hw. rewrite H1 in Hw. discriminate. }
  split; apply re_match_none; intros s' g M.
  - apply quoted_first in M as (w&r&E&Hw). exact (G w r E Hw).
  - apply quoted_rated_first in M as (w&r&E&Hw). exact (G w r E Hw).
Qed.

Lemma has_none c s : has c s = false -> forallb (none_of [c]) s = true.
Proof.
  unfold has. rewrite forallb_forall. intros H x Hx. apply none_of_In. cbn. intros [->|[]].
  assert (existsb (N.eqb x) s = true) by (apply existsb_exists; exists x; split; [exact Hx|apply N.eqb_refl]). congruence.
Qed.
Lemma has_app c a b : has c (a ++ b) = has c a || has c b.
Proof. apply existsb_app. Qed.

Lemma quoted_rated_match n ds : has 34 n = false -> numeral ds ->
  exists g s', re_match QUOTED_RATED ([34%N] ++ n ++ [34%N] ++ slash (Some ds)) = Some (g, s') /\ group 1 g = n /\ group 2 g = ds.
Proof.
  intros Hn [Hne Hd]. unfold QUOTED_RATED, RSeqs, re_match. cbn [rm slash].
  destruct ds as [|d ds]; [congruence|]. cbn [forallb] in Hd. apply andb_prop in Hd as [Hd0 Hd].
  change ([34%N] ++ n ++ [34%N] ++ 47%N :: d :: ds) with ([] ++ 34%N :: n ++ 34%N :: 47%N :: d :: ds).
  erewrite (star_go_exact is_space _ [] (34%N :: n ++ 34%N :: 47%N :: d :: ds)); [|reflexivity|reflexivity|].
  2:{ unfold RLit. cbn [rm]. change (ch_dq =? 34)%N with true. cbv iota beta.
      erewrite (star_go_exact (none_of [ch_dq]) _ n (34%N :: 47%N :: d :: ds)); [reflexivity|apply has_none; exact Hn|reflexivity|].
      cbn [rm]. change (ch_dq =? 34)%N with true. change (ch_slash =? 47)%N with true. cbv iota beta. unfold RPlus. cbn [rm]. rewrite Hd0.
      rewrite <- (app_nil_r ds) at 1.
      erewrite (star_go_exact is_digit _ ds []); [reflexivity|exact Hd|exact I|reflexivity]. }
  eexists. eexists. split; [reflexivity|]. cbn [group Nat.eqb].
  split; [|rewrite Nat.sub_0_r; apply (firstn_all (d :: ds))].
  apply (firstn_pre n (34%N :: 47%N :: d :: ds)).
Qed.

Lemma slash_rating_first s g s' : re_match SLASH_RATING s = Some (g, s') ->
  exists a, s = 47%N :: a ++ s' /\ forallb is_digit a = true /\ (s' = [] \/ s' = [10%N]).
Proof.
  intro E. apply re_match_sound in E. unfold SLASH_RATING, RSeqs in E.
  rewrite rmat_seq_inv in E. destruct E as (s1&g1&E1&E).
  rewrite rmat_seq_inv in E. destruct E as (s2&g2&E2&E).
  apply rmat_chr_inv in E1 as (x&->&Hx&->). apply N.eqb_eq in Hx. subst x.
  rewrite rmat_grp_inv in E2. destruct E2 as (a&h1&Ea&->&E2).
  rewrite rmat_plus_inv in E2. destruct E2 as (a'&Hne&Ea'&Ha&->).
  rewrite rmat_end_inv in E. destruct E as (->&->&E).
  rewrite Ea in Ea'. apply app_inv_tail in Ea'. subst a'. exists a. rewrite Ea. auto.
Qed.

Lemma split_rating_none s : has 47 s = false -> split_rating s = None.
Proof.
  induction s as [|c r IH]; cbn [split_rating]; [reflexivity|]. intro H. unfold has in H. cbn [existsb] in H.
  apply orb_false_iff in H as [Hc H]. destruct (re_match SLASH_RATING (c :: r)) as [[g s']|] eqn:E.
  - apply slash_rating_first in E as (a&E&_). injection E as -> _. discriminate.
  - rewrite (IH H). reflexivity.
Qed.

Lemma split_rating_some n ds : numeral ds -> split_rating (n ++ 47%N :: ds) = Some (n, ds).
Proof.
  intros [Hne Hd]. induction n as [|c n IH]; cbn [app split_rating].
  - destruct ds as [|d ds]; [congruence|]. cbn [forallb] in Hd. apply andb_prop in Hd as [Hd0 Hd].
    assert (E : exists g s', re_match SLASH_RATING (47%N :: d :: ds) = Some (g, s') /\ group 1 g = d :: ds).
    { do 2 eexists. split.
      - unfold SLASH_RATING, RSeqs, re_match, RLit. cbn [rm]. change (ch_slash =? 47)%N with true. cbv iota beta. unfold RPlus. cbn [rm]. rewrite Hd0.
        rewrite <- (app_nil_r ds) at 1.
        erewrite (star_go_exact is_digit _ ds []); [reflexivity|exact Hd|exact I|reflexivity].
      - cbn [group Nat.eqb]. cbn [length]. rewrite Nat.sub_0_r. apply (firstn_all (d :: ds)). }
    destruct E as (g&s'&->&->). reflexivity.
  - destruct (re_match SLASH_RATING (c :: n ++ 47%N :: ds)) as [[g s']|] eqn:E.
    + exfalso. apply slash_rating_first in E as (a&E&Ha&Hs). injection E as _ E.
      assert (Hin : In 47%N (a ++ s')) by (rewrite <- E; apply in_or_app; right; left; reflexivity).
      apply in_app_or in Hin as [Hin|Hin].
      * rewrite forallb_forall in Ha. specialize (Ha _ Hin). vm_compute in Ha. discriminate.
      * destruct Hs as [->| ->]; cbn in Hin; intuition discriminate.
    + rewrite IH. reflexivity.
Qed.

(** ** One candidate *)

(** The rating as extracted (a zero is still there). *)
Definition raw_rating (w : written) : option ratingval :=
  match w with
  | Bare _ (Some d) | Bracketed _ (Some d) =>
      match py_int d with Ok z => Some (RInt z) | Err _ => None end
  | Quoted _ d => Some (RStr d)
  | _ => None
  end.

(** Outside brackets and quotes. *)
Definition idle (ret : list (str * option ratingval)) (st : xstate) : Prop :=
  x_ret st = ret /\ x_inbr st = false /\ x_inq st = false /\ x_qtok st = [].

Definition xrun (toks : list str) (st : xstate) : result xstate := foldM (fun st tok => xstep st (strip tok)) toks st.

Lemma xrun_app a b st : xrun (a ++ b) st = bind (xrun a st) (xrun b).
Proof. apply foldM_app. Qed.

Lemma strip_space_free s : forallb is_space s = false -> s <> []. Proof. destruct s; [discriminate|discriminate]. Qed.

Lemma xstep_delim st d : x_inbr st = false -> x_inq st = false -> delimiter d -> xstep st (strip [d]) = Ok st.
Proof.
  destruct st as [ret inbr inq qtok ccand]. cbn [x_inbr x_inq]. intros -> -> Hd.
  assert (Hs : strip [d] = [d]) by (destruct Hd as [->|[->| ->]]; reflexivity). rewrite Hs.
  unfold xstep. cbn [orb].
  destruct (not_quoted [d]) as [-> ->].
  { intros c r E. injection E as <- _. destruct Hd as [->|[->| ->]]; split; (reflexivity || discriminate). }
  destruct Hd as [->|[->| ->]]; reflexivity.
Qed.

Lemma starts_first p s c r : s = c :: r -> starts_with p s = p c. Proof. intros ->; reflexivity. Qed.

Lemma plain_first_not n c r : plain_name n -> n = c :: r -> is_space c = false /\ is_delim c = false.
Proof.
  intros (Hne&Hp&Hs) E. split; [exact (strip_id_first _ Hs _ _ E)|].
  apply plain_no_delim in Hp. unfold no_delim in Hp. rewrite E in Hp. cbn [forallb] in Hp.
  apply andb_prop in Hp as [Hp _]. destruct (is_delim c); [discriminate|reflexivity].
Qed.

Lemma has_first c n x r : has c n = false -> n = x :: r -> x <> c.
Proof. intros H ->. cbn in H. apply orb_false_iff in H as [H _]. apply N.eqb_neq in H. congruence. Qed.

(** Last character of a name followed by an optional rating is not white space. *)
Lemma strip_name_slash n r : plain_name n -> (forall d, r = Some d -> numeral d) -> strip (n ++ slash r) = n ++ slash r.
Proof.
  intros (Hne&Hp&Hs) Hr. destruct r as [d|]; cbn [slash]; [|rewrite app_nil_r; exact Hs].
  destruct (Hr d eq_refl) as [Hd1 Hd2]. apply strip_id.
  - intros c q E. destruct n as [|x n]; [congruence|]. injection E as <- _. exact (strip_id_first _ Hs x n eq_refl).
  - intros c q E. destruct (exists_last Hd1) as (ds'&y&Ey). subst d.
    replace (n ++ 47%N :: ds' ++ [y]) with ((n ++ 47%N :: ds') ++ [y]) in E by (rewrite <- app_assoc; reflexivity).
    apply app_inj_tail in E as [_ <-]. apply digit_not_space. rewrite forallb_forall in Hd2. apply Hd2.
    apply in_or_app; right; left; reflexivity.
Qed.

Lemma starts_with_app p (n m : str) : n <> [] -> starts_with p (n ++ m) = starts_with p n.
Proof. destruct n; [congruence|reflexivity]. Qed.

Lemma set_last_app {A} (x y : A) l : set_last x (l ++ [y]) = Ok (l ++ [x]).
Proof.
  unfold set_last. destruct (l ++ [y]) eqn:E; [destruct l; discriminate|]. rewrite <- E, removelast_last. reflexivity.
Qed.

Lemma xstep_bare ret st n r : idle ret st -> plain_name n -> has 34 n = false -> has 47 n = false ->
  (forall d, r = Some d -> numeral d) ->
  exists st', xstep st (n ++ slash r) = Ok st' /\ idle (ret ++ [(n, raw_rating (Bare n r))]) st'.
Proof.
  intros (Hret&Hi&Hq&Ht) Hn H34 H47 Hr. destruct st as [ret0 inbr inq qtok ccand]. cbn in Hret, Hi, Hq, Ht. subst.
  pose proof Hn as (Hne&Hp&Hs).
  assert (Hfirst : forall c q, n ++ slash r = c :: q -> is_space c = false /\ is_delim c = false /\ c <> 34%N).
  { intros c q E. destruct n as [|x n]; [congruence|]. cbn in E. injection E as <- _.
    destruct (plain_first_not _ x n Hn eq_refl). repeat split; auto. exact (has_first 34 _ x n H34 eq_refl). }
  unfold xstep. cbn [orb].
  destruct (not_quoted (n ++ slash r)) as [-> ->].
  { intros c q E. destruct (Hfirst c q E) as (?&?&?). auto. }
  assert (Hl : lstrip (n ++ slash r) = n ++ slash r) by (apply lstrip_first; intros c q E; apply (Hfirst c q E)).
  rewrite Hl. rewrite starts_with_app by exact Hne.
  assert (Hst : starts_with (fun c => negb (is_delim c)) n = true).
  { destruct n as [|x n]; [congruence|]. cbn [starts_with]. destruct (plain_first_not _ x n Hn eq_refl) as [_ ->]. reflexivity. }
  rewrite Hst. destruct r as [d|]; cbn [slash].
  - specialize (Hr d eq_refl). rewrite split_rating_some by exact Hr. destruct n as [|x n]; [congruence|].
    destruct (py_int_numeral d Hr) as (z&_&Ez). rewrite Ez. cbn [bind]. rewrite set_last_app. cbn [bind].
    eexists. split; [reflexivity|]. repeat split; cbn. rewrite Ez. reflexivity.
  - rewrite app_nil_r. rewrite split_rating_none by exact H47. destruct n as [|x n]; [congruence|].
    eexists. split; [reflexivity|]. repeat split; reflexivity.
Qed.

Lemma strip_pad_slash a d b : forallb is_space a = true -> forallb is_space b = true -> numeral d ->
  strip (a ++ (47%N :: d) ++ b) = 47%N :: d.
Proof.
  intros Ha Hb [Hd1 Hd2]. apply strip_pad; [exact Ha|exact Hb|]. apply strip_id.
  - intros c q E. injection E as <- _. reflexivity.
  - intros c q E. destruct (exists_last Hd1) as (ds'&y&Ey). subst d.
    replace (47%N :: ds' ++ [y]) with ((47%N :: ds') ++ [y]) in E by reflexivity.
    apply app_inj_tail in E as [_ <-]. apply digit_not_space. rewrite forallb_forall in Hd2. apply Hd2.
    apply in_or_app; right; left; reflexivity.
Qed.

Lemma xrun_item ret st i : idle ret st -> item_ok i ->
  exists st', xrun (split_delims (show_item i)) st = Ok st' /\
    idle (ret ++ [(item_name i, raw_rating (item_written i))]) st'.
Proof.
  destruct i as [[a w] b]. unfold item_ok, item_name, item_written, show_item. cbn [fst snd].
  intros Hst ([Ha Ha']&Hw&[Hb Hb']). destruct w as [n r|n r|n r]; cbn [well_written show name_of] in *.
  - destruct Hw as (Hn&H34&H47&Hr). rewrite split_delims_nodelim.
    2:{ rewrite !no_delim_app. repeat split; [apply space_no_delim; exact Ha| |apply slash_no_delim; exact Hr|apply space_no_delim; exact Hb].
        apply plain_no_delim. apply Hn. }
    unfold xrun. cbn [foldM].
    rewrite (strip_pad a (n ++ slash r) b Ha Hb) by (apply strip_name_slash; assumption).
    destruct (xstep_bare ret st n r Hst Hn H34 H47 Hr) as (st'&->&Hst'). cbn [bind]. eauto.
  - destruct Hw as (Hn&H34&Hr). pose proof Hn as (Hne&Hp&Hs).
    replace (a ++ ([91%N] ++ n ++ [93%N] ++ slash r) ++ b) with (a ++ 91%N :: n ++ 93%N :: (slash r ++ b))
      by (cbn; rewrite <- !app_assoc; reflexivity).
    rewrite split_delims_app; [|apply space_no_delim; exact Ha|reflexivity].
    rewrite split_delims_app; [|apply plain_no_delim; exact Hp|reflexivity].
    rewrite split_delims_nodelim.
    2:{ rewrite no_delim_app. split; [apply slash_no_delim; exact Hr|apply space_no_delim; exact Hb]. }
    destruct Hst as (Hret&Hi&Hq&Ht). destruct st as [ret0 inbr inq qtok ccand]. cbn in Hret, Hi, Hq, Ht. subst.
    unfold xrun. cbn [foldM].
    rewrite strip_blank by exact Ha. cbn [xstep orb]. change (re_match QUOTED_RATED []) with (@None (caps * str)).
    change (re_match QUOTED []) with (@None (caps * str)). cbn [lstrip starts_with bind].
    change (strip [91%N]) with [91%N]. unfold xstep at 1. cbn [orb].
    destruct (not_quoted [91%N]) as [-> ->]; [intros c q E; injection E as <- _; split; [reflexivity|discriminate]|].
    change (starts_with (fun c => negb (is_delim c)) (lstrip [91%N])) with false. cbv iota.
    change (starts_with (N.eqb ch_lbr) [91%N]) with true. cbv iota. cbn [bind].
    rewrite Hs. unfold xstep at 1. cbn [orb negb]. rewrite andb_false_r.
    assert (Hfn : forall c q, n = c :: q -> is_space c = false /\ is_delim c = false) by (intros c q E; exact (plain_first_not _ _ _ Hn E)).
    destruct n as [|x n]; [congruence|]. destruct (Hfn x n eq_refl) as [Hx1 Hx2].
    assert (H93 : starts_with (N.eqb ch_rbr) (x :: n) = false).
    { cbn [starts_with]. destruct (N.eqb_spec ch_rbr x) as [<-|]; [vm_compute in Hx2; discriminate|reflexivity]. }
    rewrite H93. cbn [andb]. cbn [lstrip]. rewrite Hx1.
    assert (H34' : starts_with (N.eqb ch_dq) (x :: n) = false).
    { cbn [starts_with]. destruct (N.eqb_spec ch_dq x) as [<-|]; [|reflexivity].
      exfalso. apply (has_first 34 _ _ _ H34 eq_refl). reflexivity. }
    rewrite H34'. cbn [bind app].
    change (strip [93%N]) with [93%N]. unfold xstep at 1. cbn [orb negb].
    rewrite andb_false_r. change (starts_with (N.eqb ch_rbr) [93%N]) with true. cbn [andb bind].
    destruct r as [d|]; cbn [slash].
    + specialize (Hr d eq_refl). pose proof (strip_pad_slash [] d b eq_refl Hb Hr) as Ess. cbn [app] in Ess |- *. rewrite Ess.
      unfold xstep. cbn [orb].
      destruct (not_quoted (47%N :: d)) as [-> ->]; [intros c q E; injection E as <- _; split; [reflexivity|discriminate]|].
      change (starts_with (fun c => negb (is_delim c)) (lstrip (47%N :: d))) with true. cbv iota.
      pose proof (split_rating_some [] d Hr) as Esr. cbn [app] in Esr. rewrite Esr. destruct (py_int_numeral d Hr) as (z&_&Ez). rewrite Ez. cbn [bind].
      rewrite set_last_app. cbn [bind]. eexists. split; [reflexivity|]. repeat split; cbn. rewrite Ez. reflexivity.
    + cbn [app]. rewrite strip_blank by exact Hb. unfold xstep. cbn [orb].
      change (re_match QUOTED_RATED []) with (@None (caps * str)).
      change (re_match QUOTED []) with (@None (caps * str)). cbn [lstrip starts_with bind].
      eexists. split; [reflexivity|]. repeat split; reflexivity.
  - destruct Hw as (Hn&H34&Hr). pose proof Hr as [Hr1 Hr2].
    rewrite split_delims_nodelim.
    2:{ change ([34%N] ++ n ++ [34%N] ++ slash (Some r)) with ([34%N] ++ (n ++ [34%N; 47%N] ++ r)).
        rewrite !no_delim_app. split; [apply space_no_delim; exact Ha|]. split; [|apply space_no_delim; exact Hb]. split; [reflexivity|]. split; [apply plain_no_delim; exact Hn|]. split; [reflexivity|apply digit_no_delim; exact Hr2]. }
    unfold xrun. cbn [foldM]. rewrite (strip_pad a ([34%N] ++ n ++ [34%N] ++ slash (Some r)) b Ha Hb).
    2:{ apply strip_id.
        - intros c q E. injection E as <- _. reflexivity.
        - intros c q E. destruct (exists_last Hr1) as (ds'&y&Ey). subst r.
          assert (Eq : ([34%N] ++ n ++ [34%N] ++ 47%N :: ds') ++ [y] = [34%N] ++ n ++ [34%N] ++ slash (Some (ds' ++ [y])))
            by (cbn; rewrite <- !app_assoc; reflexivity).
          apply (eq_trans Eq) in E.
          apply app_inj_tail in E as [_ <-]. apply digit_not_space. rewrite forallb_forall in Hr2. apply Hr2.
          apply in_or_app; right; left; reflexivity. }
    destruct Hst as (Hret&Hi&Hq&Ht). destruct st as [ret0 inbr inq qtok ccand]. cbn in Hret, Hi, Hq, Ht. subst.
    unfold xstep. cbn [orb].
    destruct (quoted_rated_match n r H34 Hr) as (g&s'&->&G1&G2). cbn [bind]. rewrite G1, G2.
    eexists. split; [reflexivity|]. repeat split; reflexivity.
Qed.

Definition items (i : item) (r : list (N * item)) : list item := i :: map snd r.

Lemma split_delims_ne a : split_delims a <> [].
Proof.
  destruct a as [|x a]; cbn [split_delims]; [discriminate|]. destruct (is_delim x); [discriminate|].
  destruct (split_delims a); discriminate.
Qed.

Lemma split_delims_cat a d b : (d = 62 \/ d = 61 \/ d = 44)%N ->
  split_delims (a ++ d :: b) = split_delims a ++ [d] :: split_delims b.
Proof.
  intro Hd. assert (Hd' : is_delim d = true) by (destruct Hd as [->|[->| ->]]; reflexivity).
  induction a as [|c a IH]; cbn [app split_delims]; [rewrite Hd'; reflexivity|].
  destruct (is_delim c); [rewrite IH; reflexivity|]. rewrite IH.
  pose proof (split_delims_ne a) as Hne. destruct (split_delims a); [congruence|reflexivity].
Qed.

Lemma xrun_prefs r : forall i ret st, idle ret st -> item_ok i -> (forall d j, In (d, j) r -> delimiter d /\ item_ok j) ->
  exists st', xrun (split_delims (show_prefs i r)) st = Ok st' /\
    idle (ret ++ map (fun i => (item_name i, raw_rating (item_written i))) (items i r)) st'.
Proof.
  induction r as [|[d j] r IH]; intros i ret st Hst Hi Hr; cbn [show_prefs items map snd].
  - apply xrun_item; assumption.
  - destruct (Hr d j (or_introl eq_refl)) as [Hd Hj].
    rewrite split_delims_cat by exact Hd. rewrite xrun_app.
    destruct (xrun_item ret st i Hst Hi) as (st1&->&Hst1). cbn [bind].
    pose proof Hst1 as (_&Hb1&Hq1&_).
    unfold xrun. cbn [foldM]. rewrite (xstep_delim st1 d Hb1 Hq1 Hd). cbn [bind].
    destruct (IH j _ st1 Hst1 Hj) as (st2&E2&Hst2).
    { intros d' j' H; apply Hr; right; exact H. }
    exists st2. split; [exact E2|]. rewrite <- app_assoc in Hst2. exact Hst2.
Qed.

Lemma extract_show i r : item_ok i -> (forall d j, In (d, j) r -> delimiter d /\ item_ok j) ->
  extract_candprefs (show_prefs i r) = Ok (map (fun i => (item_name i, raw_rating (item_written i))) (items i r)).
Proof.
  intros Hi Hr. unfold extract_candprefs.
  destruct (xrun_prefs r i [] (XState [] false false [] [])) as (st&E&Hst); auto.
  { repeat split; reflexivity. }
  unfold xrun in E. rewrite E. cbn [bind]. destruct Hst as (->&_). reflexivity.
Qed.

(** ** The delimiters *)

Lemma delims_plain a rest : no_delim a -> delims false (a ++ rest) = delims false rest.
Proof.
  induction a as [|c a IH]; [reflexivity|]. unfold no_delim. cbn [forallb]. intro H. apply andb_prop in H as [Hc H].
  cbn [app delims]. assert (H1 : (c =? ch_lbr)%N = false /\ one_of [ch_gt; ch_comma; ch_eq] c = false).
  { destruct (is_delim c) eqn:E; [discriminate|]. unfold is_delim, one_of in *. cbn [existsb] in *.
    rewrite !orb_false_iff in E. destruct E as (E1&E2&E3&E4&E5&_). rewrite E1, E3, E4, E5. auto. }
  destruct H1 as [-> ->]. cbn [andb]. apply IH. exact H.
Qed.

Lemma delims_inside a rest : no_delim a -> delims true (a ++ 93%N :: rest) = delims false rest.
Proof.
  induction a as [|c a IH]; cbn [app delims]; [reflexivity|]. unfold no_delim. cbn [forallb]. intro H. apply andb_prop in H as [Hc H].
  assert (H1 : (c =? ch_rbr)%N = false).
  { destruct (N.eqb_spec c ch_rbr) as [->|]; [vm_compute in Hc; discriminate|reflexivity]. }
  rewrite H1. apply IH. exact H.
Qed.

Lemma delims_item i rest : item_ok i -> delims false (show_item i ++ rest) = delims false rest.
Proof.
  destruct i as [[a w] b]. unfold item_ok, show_item. intros ([Ha Ha']&Hw&[Hb Hb']).
  destruct w as [n r|n r|n r]; cbn [well_written show] in *.
  - destruct Hw as (Hn&H34&H47&Hr). apply delims_plain. rewrite !no_delim_app. repeat split;
      [apply space_no_delim; exact Ha| |apply slash_no_delim; exact Hr|apply space_no_delim; exact Hb].
    apply plain_no_delim. apply Hn.
  - destruct Hw as (Hn&H34&Hr). pose proof Hn as (Hne&Hp&Hs).
    assert (Eq : (a ++ ([91%N] ++ n ++ [93%N] ++ slash r) ++ b) ++ rest = a ++ 91%N :: (n ++ 93%N :: ((slash r ++ b) ++ rest))).
    { rewrite <- ?app_assoc. cbn [app]. rewrite <- ?app_assoc. reflexivity. }
    unfold str in *. rewrite Eq.
    rewrite delims_plain by (apply space_no_delim; exact Ha). cbn [delims].
    assert (He : existsb (N.eqb ch_rbr) (n ++ 93%N :: (slash r ++ b) ++ rest) = true).
    { apply existsb_exists. exists 93%N. split; [apply in_or_app; right; left; reflexivity|reflexivity]. }
    rewrite He. change (91 =? ch_lbr)%N with true. cbn [andb].
    rewrite delims_inside by (apply plain_no_delim; exact Hp).
    apply delims_plain. rewrite no_delim_app. split; [apply slash_no_delim; exact Hr|apply space_no_delim; exact Hb].
  - destruct Hw as (Hn&H34&Hr). pose proof Hr as [Hr1 Hr2]. apply delims_plain.
    change ([34%N] ++ n ++ [34%N] ++ slash (Some r)) with ([34%N] ++ (n ++ [34%N; 47%N] ++ r)).
    rewrite !no_delim_app. split; [apply space_no_delim; exact Ha|]. split; [|apply space_no_delim; exact Hb]. split; [reflexivity|]. split; [apply plain_no_delim; exact Hn|]. split; [reflexivity|apply digit_no_delim; exact Hr2].
Qed.

Lemma delims_show r : forall i, item_ok i -> (forall d j, In (d, j) r -> delimiter d /\ item_ok j) ->
  delims false (show_prefs i r) = map fst r.
Proof.
  induction r as [|[d j] r IH]; intros i Hi Hr; cbn [show_prefs map fst].
  - rewrite <- (app_nil_r (show_item i)). rewrite delims_item by exact Hi. reflexivity.
  - destruct (Hr d j (or_introl eq_refl)) as [Hd Hj]. rewrite delims_item by exact Hi.
    assert (Hrest : delims false (show_prefs j r) = map fst r) by (apply IH; [exact Hj|intros; apply Hr; right; assumption]).
    rewrite <- Hrest. destruct Hd as [->|[->| ->]]; reflexivity.
Qed.

(** ** The loop *)

Definition mode_of (r : list (N * item)) : rankmode :=
  match r with [] => MRankOne | (d, _) :: _ => if N.eqb d 44 then MRate else MRank end.

Lemma stored_raw w : well_written w -> stored_rating w =
  match raw_rating w with Some rv => if rating_truthy rv then Some rv else None | None => None end.
Proof.
  destruct w as [n [d|]|n [d|]|n d]; cbn; try reflexivity.
  - intros (_&_&_&Hr). destruct (py_int_numeral d (Hr d eq_refl)) as (z&_&->). cbn. destruct (Z.of_N z =? 0); reflexivity.
  - intros (_&_&Hr). destruct (py_int_numeral d (Hr d eq_refl)) as (z&_&->). cbn. destruct (Z.of_N z =? 0); reflexivity.
  - intros (_&_&[Hne _]). destruct d; [congruence|reflexivity].
Qed.

(** The dicts the loop leaves. *)
Fixpoint loop_result (mode : rankmode) (k : Z) (i : item) (r : list (N * item)) : dict pref :=
  let rk := match mode with MRate => None | _ => Some k end in
  match r with
  | [] => [(item_name i, Pref rk (stored_rating (item_written i)) None)]
  | (d, j) :: r' =>
      (item_name i, Pref rk (stored_rating (item_written i)) (Some d)) ::
      loop_result mode (if N.eqb d 62 then k + 1 else k) j r'
  end.

Lemma loop_result_keys mode r : forall k i, dkeys (loop_result mode k i r) = map item_name (items i r).
Proof.
  induction r as [|[d j] r IH]; intros k i; cbn [loop_result items map snd dkeys fst]; [reflexivity|].
  f_equal. apply IH.
Qed.

Lemma loop_result_rate r : forall k k' i, loop_result MRate k i r = loop_result MRate k' i r.
Proof. induction r as [|[d j] r IH]; intros k k' i; cbn [loop_result]; [reflexivity|]. f_equal. apply IH. Qed.

Lemma NoDup_app_disjoint {A} (l1 l2 : list A) : NoDup (l1 ++ l2) -> forall x, In x l1 -> In x l2 -> False.
Proof.
  induction l1 as [|y l1 IH]; cbn; intros H x H1 H2; [destruct H1|]. inversion H as [|? ? Hy Hr]; subst.
  destruct H1 as [->|H1]; [apply Hy; apply in_or_app; right; exact H2|exact (IH Hr x H1 H2)].
Qed.

Lemma nth_app_0 {A} (pre l : list A) : nth_error (pre ++ l) (length pre) = nth_error l 0.
Proof. induction pre; cbn; auto. Qed.

Lemma prefs_loop_show mode r : forall i k pre acc n,
  (mode = MRankOne -> r = [] /\ k = 1) ->
  item_ok i -> (forall d j, In (d, j) r -> item_ok j) ->
  n = (length pre + S (length r))%nat ->
  NoDup (dkeys acc ++ map item_name (items i r)) ->
  prefs_loop mode (pre ++ map fst r) n (length pre) k
    (map (fun i => (item_name i, raw_rating (item_written i))) (items i r)) acc
  = Ok (acc ++ loop_result mode k i r).
Proof.
  induction r as [|[d j] r IH]; intros i k pre acc n Hone Hi Hr Hn Hnd; [cbn [items map snd prefs_loop loop_result]|].
  - assert (Hlast : (length pre <? n - 1)%nat = false) by (apply Nat.ltb_ge; cbn in Hn; lia). rewrite Hlast.
    assert (Hni : ~ In (item_name i) (dkeys acc)).
    { intro H. apply (NoDup_app_disjoint _ _ Hnd _ H). left; reflexivity. }
    assert (Hw : well_written (item_written i)) by (destruct i as [[a w] b]; destruct Hi as (_&Hw&_); exact Hw).
    rewrite (stored_raw _ Hw).
    assert (Ep : forall p, p = Pref (match mode with MRate => None | _ => Some k end)
       (match raw_rating (item_written i) with Some rv => if rating_truthy rv then Some rv else None | None => None end) None ->
       dset (item_name i) p acc = acc ++ [(item_name i, p)]) by (intros; apply dkeys_dset_nIn; exact Hni).
    destruct mode; cbn [bind].
    + rewrite dkeys_dset_nIn by exact Hni. destruct (raw_rating _) as [rv|]; [destruct (rating_truthy rv)|]; reflexivity.
    + rewrite dkeys_dset_nIn by exact Hni. destruct (raw_rating _) as [rv|]; [destruct (rating_truthy rv)|]; reflexivity.
    + destruct (Hone eq_refl) as [_ ->]. rewrite dkeys_dset_nIn by exact Hni. destruct (raw_rating _) as [rv|]; [destruct (rating_truthy rv)|]; reflexivity.
  - change (items i ((d, j) :: r)) with (i :: items j r) in *. cbn [map fst prefs_loop loop_result].
    assert (Hlast : (length pre <? n - 1)%nat = true) by (apply Nat.ltb_lt; cbn in Hn; lia). rewrite Hlast.
    assert (Hnth : nth_error (pre ++ map fst ((d, j) :: r)) (length pre) = Some d) by (rewrite nth_app_0; reflexivity).
    cbn [map fst] in *. rewrite Hnth. cbn [of_option bind].
    assert (Hni : ~ In (item_name i) (dkeys acc)).
    { intro H. apply (NoDup_app_disjoint _ _ Hnd _ H). left; reflexivity. }
    assert (Hw : well_written (item_written i)) by (destruct i as [[a w] b]; destruct Hi as (_&Hw&_); exact Hw).
    rewrite (stored_raw _ Hw).
    assert (Epre : pre ++ d :: map fst r = (pre ++ [d]) ++ map fst r) by (rewrite <- app_assoc; reflexivity).
    assert (Elen : S (length pre) = length (pre ++ [d])) by (rewrite app_length; cbn; lia).
    assert (G : forall p k', 
      prefs_loop mode (pre ++ d :: map fst r) n (S (length pre)) k'
        (map (fun i => (item_name i, raw_rating (item_written i))) (items j r)) (dset (item_name i) p acc)
      = Ok (acc ++ (item_name i, p) :: loop_result mode k' j r)).
    { intros p k'. rewrite dkeys_dset_nIn by exact Hni. rewrite Epre, Elen.
      rewrite IH.
      - rewrite <- app_assoc. reflexivity.
      - intro Hm. destruct (Hone Hm) as [H _]. discriminate.
      - apply (Hr d). left; reflexivity.
      - intros d' j' H. apply (Hr d'). right; exact H.
      - rewrite app_length. cbn in *. lia.
      - unfold dkeys. rewrite map_app. cbn [map fst]. rewrite <- app_assoc. exact Hnd. }
    destruct mode; cbn [bind].
    + assert (Hgt : (d =? ch_gt)%N = (d =? 62)%N) by reflexivity. rewrite Hgt.
      destruct (d =? 62)%N; cbn [bind]; rewrite G; (destruct (raw_rating _) as [rv|]; [destruct (rating_truthy rv)|]; reflexivity).
    + rewrite G. destruct (raw_rating _) as [rv|]; [destruct (rating_truthy rv)|]; try reflexivity.
      all: f_equal; f_equal; f_equal; apply loop_result_rate.
    + destruct (Hone eq_refl) as [H _]. discriminate.
Qed.

Lemma loop_result_numbers mode r : forall k i,
  map (fun kv => pref_num (snd kv)) (loop_result mode k i r) =
  map (fun i => pref_num (Pref None (stored_rating (item_written i)) None)) (items i r).
Proof.
  induction r as [|[d j] r IH]; intros k i; [reflexivity|].
  change (items i ((d, j) :: r)) with (i :: items j r). cbn [map loop_result]. f_equal. apply IH.
Qed.

(** The number a written candidate's rating stands for. *)
Definition num_of (i : item) : Z := pref_num (Pref None (stored_rating (item_written i)) None).

Lemma loop_result_ranked mode r : forall k i, mode <> MRate -> 1 <= k ->
  forall g, map (fun kv => (fst kv, fill_rank (g (snd kv)) (snd kv))) (loop_result mode k i r) = loop_result mode k i r.
Proof.
  induction r as [|[d j] r IH]; intros k i Hm Hk g; cbn [loop_result map fst snd].
  - f_equal. f_equal. unfold fill_rank, has_rank. cbn [p_rank]. destruct mode; try congruence; destruct (Z.eqb_spec k 0); reflexivity || lia.
  - f_equal; [f_equal; unfold fill_rank, has_rank; cbn [p_rank]; destruct mode; try congruence; destruct (Z.eqb_spec k 0); reflexivity || lia|].
    apply IH; [exact Hm|]. destruct (d =? 62)%N; lia.
Qed.

(** Exactly what a written preference text is read as. *)
Lemma parse_show i r : item_ok i -> (forall d j, In (d, j) r -> delimiter d /\ item_ok j) ->
  NoDup (map item_name (items i r)) ->
  parse_prefstr (show_prefs i r) =
  Ok (match mode_of r with
      | MRate => map (fun kv => (fst kv, fill_rank (dense_rank (pref_num (snd kv)) (map num_of (items i r))) (snd kv))) (loop_result MRate 1 i r)
      | m => loop_result m 1 i r
      end, map item_name (items i r)).
Proof.
  intros Hi Hr Hnd.
  assert (Hds : delims false (show_prefs i r) = map fst r) by (apply delims_show; assumption).
  assert (Hmode : rank_or_rate (show_prefs i r) = (mode_of r, map fst r)).
  { unfold rank_or_rate. rewrite Hds. f_equal. destruct r as [|[d j] r]; reflexivity. }
  set (cps := map (fun i => (item_name i, raw_rating (item_written i))) (items i r)).
  assert (Hloop : prefs_loop (mode_of r) (map fst r) (length cps) 0 1 cps [] = Ok (loop_result (mode_of r) 1 i r)).
  { apply (prefs_loop_show (mode_of r) r i 1 [] [] (length cps)).
    - destruct r as [|[d j] r]; [auto|]. cbn. destruct (d =? 44)%N; discriminate.
    - exact Hi.
    - intros d j H. apply (Hr d j H).
    - unfold cps. rewrite map_length. unfold items. cbn. rewrite map_length. reflexivity.
    - exact Hnd. }
  assert (Hx : extract_candprefs (show_prefs i r) = Ok cps) by (apply extract_show; assumption).
  assert (Hkeys : map fst cps = map item_name (items i r)) by (unfold cps; rewrite map_map; reflexivity).
  assert (Hok : exists prefs, parse_prefstr (show_prefs i r) = Ok (prefs, map fst cps)).
  { unfold parse_prefstr. rewrite Hmode, Hx. cbn [bind]. rewrite Hloop. cbn [bind].
    destruct (prefs_loop_inv _ _ _ _ _ _ _ _ Hloop) as (Hn&He&Hk); [lia|exact (extract_ratings _ _ Hx)|constructor|intros c p []|].
    rewrite add_ranks_ok; [|exact Hn|].
    2:{ intros c p Hin. destruct (He c p Hin) as (_&Hf&_). unfold pref_readable. destruct (p_rating p); [|exact I].
        apply rating_fine_readable. exact Hf. }
    cbn [bind]. destruct (map fst cps) as [|c0 ks] eqn:Ek; [eauto|].
    set (p1 := map _ (loop_result _ _ _ _)).
    assert (Hkp : dkeys p1 = dkeys (loop_result (mode_of r) 1 i r)) by (unfold p1, dkeys; rewrite map_map; reflexivity).
    assert (Hin : In c0 (dkeys p1)).
    { rewrite Hkp. apply Hk. left. left; reflexivity. }
    apply dget_Some_In in Hin as [p Ep]. unfold dgetE. rewrite Ep. cbn [of_option bind].
    destruct (_ && _); [|eauto].
    rewrite add_ranks_ok; [cbn [bind]; eauto|rewrite Hkp; exact Hn|].
    intros c q Hin. unfold p1 in Hin. apply in_map_iff in Hin as ([c1 q1]&Eq&Hin). cbn [fst snd] in Eq. injection Eq as _ <-.
    destruct (He c1 q1 Hin) as (_&Hf&_). unfold pref_readable. destruct (fill_rank_facts (dense_rank (pref_num q1) (map (fun kv => pref_num (snd kv)) (loop_result (mode_of r) 1 i r))) q1) as (->&_).
    destruct (p_rating q1); [|exact I]. apply rating_fine_readable. exact Hf. }
  destruct Hok as [prefs Hp]. rewrite Hp. destruct (parse_prefstr_shape _ _ _ Hp) as (cps'&prefs0&Ec&_&E0&->).
  rewrite Hx in Ec. apply ok_inj in Ec. subst cps'. rewrite Hmode in E0. cbn [fst snd] in E0. rewrite Hloop in E0. apply ok_inj in E0. subst prefs0.
  rewrite Hkeys. f_equal. f_equal. rewrite loop_result_numbers. destruct (mode_of r) eqn:Em.
  - apply (loop_result_ranked MRank r 1 i) with (g := fun p => dense_rank (pref_num p) (map (fun i => pref_num (Pref None (stored_rating (item_written i)) None)) (items i r))); [discriminate|lia].
  - reflexivity.
  - apply (loop_result_ranked MRankOne r 1 i) with (g := fun p => dense_rank (pref_num p) (map (fun i => pref_num (Pref None (stored_rating (item_written i)) None)) (items i r))); [discriminate|lia].
Qed.
