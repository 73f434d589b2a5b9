(** * DebtallyFacts: what the Debian tally converter does to each kind of line *)

From Coq Require Import Lia.
From Verif Require Import PyBase PyFacts Jabmod Regex RegexFacts ParserModel ParserSpec ParserFacts ParserFile ParserText ParserLines PropsParser TextFacts UrlText ImportSpec RoundtripFile ImportFacts PreflibFacts DebtallyModel.
Local Open Scope Z_scope.

(** ** Patterns *)
Lemma star_go_none {R} p (k : str -> option R) b : (forall b1 b2, b = b1 ++ b2 -> k b2 = None) -> star_go p k b = None.
Proof.
  induction b as [|c b IH]; intro H; cbn [star_go]; [apply (H [] []); reflexivity|].
  assert (E : k (c :: b) = None) by (apply (H [] (c :: b)); reflexivity).
  destruct (p c); [|exact E]. rewrite IH; [exact E|]. intros b1 b2 ->. apply (H (c :: b1) b2). reflexivity.
Qed.
Lemma star_go_last {R} p (k : str -> option R) a b x : forallb p a = true -> k b = Some x ->
  (forall b1 b2, b = b1 ++ b2 -> b1 <> [] -> k b2 = None) -> star_go p k (a ++ b) = Some x.
Proof.
  intros Ha Hk H. induction a as [|c a IH]; cbn [app].
  - destruct b as [|c b]; cbn [star_go]; [exact Hk|]. destruct (p c); [|exact Hk].
    rewrite star_go_none; [exact Hk|]. intros b1 b2 ->. apply (H (c :: b1) b2); [reflexivity|discriminate].
  - cbn [forallb] in Ha. apply andb_prop in Ha as (Hc&Ha). cbn [star_go]. rewrite Hc, (IH Ha). reflexivity.
Qed.

Lemma g_star_last {R} p a b cs (k : str -> caps -> option R) x : forallb p a = true -> k b cs = Some x ->
  (forall b1 b2, b = b1 ++ b2 -> b1 <> [] -> k b2 cs = None) -> rm (RStar p) (a ++ b) cs k = Some x.
Proof. intros Ha Hk H. apply (star_go_last p (fun s' => k s' cs)); assumption. Qed.

Lemma option_needs s g r : re_match OPTION_REGEX s = Some (g, r) -> exists t, s = u "Option " ++ t.
Proof. intro H. apply re_match_sound in H. unfold OPTION_REGEX, RSeqs in H. apply rmat_seq_inv in H as (s1&cs1&H&_). apply rmat_word_inv in H as (->&_). eauto. Qed.
Lemma search_eq r s : re_search r s = match re_match r s with Some x => Some x | None => match s with [] => None | _ :: s' => re_search r s' end end.
Proof. destruct s; reflexivity. Qed.
Lemma search_none s : nowhere (u "Option ") s -> re_search OPTION_REGEX s = None.
Proof.
  induction s as [|c s IH]; intro H; rewrite search_eq.
  - destruct (re_match OPTION_REGEX []) as [[g r]|] eqn:E; [|reflexivity]. apply option_needs in E as (t&E). discriminate.
  - destruct (re_match OPTION_REGEX (c :: s)) as [[g r]|] eqn:E.
    + apply option_needs in E as (t&E). destruct (H [] t). exact E.
    + apply IH. intros a b0 Es. apply (H (c :: a) b0). rewrite Es. reflexivity.
Qed.
Lemma search_skip a s : (forall c, In c a -> c <> 79%N) -> re_search OPTION_REGEX (a ++ s) = re_search OPTION_REGEX s.
Proof.
  induction a as [|c a IH]; intro H; [reflexivity|]. cbn [app]. rewrite search_eq. destruct (re_match OPTION_REGEX (c :: a ++ s)) as [[g r]|] eqn:E.
  - apply option_needs in E as (t&E). destruct (H c (or_introl eq_refl)). cbn in E. injection E as -> _. reflexivity.
  - apply IH. intros x Hx; apply H; right; exact Hx.
Qed.

Lemma option_match indent num desc pad name : deb_ok (DebOption indent num desc pad name) ->
  exists g s, re_search OPTION_REGEX (show_deb (DebOption indent num desc pad name)) = Some (g, s) /\ group 2 g = name.
Proof.
  intros ((Hi&_)&Hd&(Hp&Hpl)&Hpn&Hn&Hns&Hcs). cbn [show_deb].
  rewrite search_skip. 2:{ intros c Hc ->. rewrite forallb_forall in Hi. specialize (Hi _ Hc). discriminate. }
  assert (E : exists g s, re_match OPTION_REGEX (u "Option " ++ n2s num ++ desc ++ [58%N] ++ pad ++ name) = Some (g, s) /\ group 2 g = name).
  2:{ destruct E as (g&s&E&Eg). exists g, s. split; [|exact Eg]. rewrite search_eq, E. reflexivity. }
  destruct (n2s_numeral num) as [Hne Hdig].
  pose proof (span_spec is_digit (n2s num ++ desc)) as Hs. destruct (span is_digit (n2s num ++ desc)) as [ds rest]. destruct Hs as (Es&Hds&Hst).
  assert (Hdn : ds <> []).
  { intros ->. cbn [app] in Es. subst rest. destruct (n2s num) as [|c r]; [congruence|]. cbn [app stops] in Hst. cbn [forallb] in Hdig. apply andb_prop in Hdig as (Hdig&_). congruence. }
  rewrite (app_assoc (n2s num)), Es, <- app_assoc.
  exists [(2%nat, name); (1%nat, ds)], []. split; [|reflexivity]. unfold re_match, OPTION_REGEX, RSeqs.
  apply g_seq, g_word, g_seq. apply g_grp_plus; [exact Hdn|exact Hds|destruct rest; [cbn; reflexivity|exact Hst]|].
  apply g_seq. apply g_star_last.
  - apply one_line_any. intros c Hc. assert (Hin : In c (n2s num ++ desc)) by (rewrite Es; apply in_or_app; right; exact Hc).
    apply in_app_or in Hin as [Hin|Hin]; [exact (digits_one_line num c Hin)|exact (Hd c Hin)].
  - apply g_seq, g_lit, g_seq. apply g_plus; [exact Hpn|exact Hp|destruct name as [|c name]; [cbn; auto|cbn in Hns |- *; exact Hns]|].
    rewrite <- (app_nil_r name) at 1. apply g_grp_star; [apply one_line_any, Hn|cbn; auto|]. reflexivity.
  - intros b1 b2 Eb Hb1. match goal with |- ?t = None => destruct t as [x|] eqn:E end; [|reflexivity]. exfalso.
    apply rm_sound in E as (s'&cs'&M&_). apply rmat_seq_inv in M as (s1&cs1&M1&M2). apply rmat_chr_inv in M1 as (c1&->&Hc1&_). apply N.eqb_eq in Hc1. subst c1.
    apply rmat_seq_inv in M2 as (s2&cs2&M2&_). apply rmat_plus_inv in M2 as (sp&Hspn&->&Hsp&_). destruct sp as [|c sp]; [congruence|]. cbn [forallb] in Hsp. apply andb_prop in Hsp as (Hsc&_).
    destruct b1 as [|x0 b1]; [congruence|]. cbn [app] in Eb. injection Eb as _ Eb.
    (* pad ++ name = b1 ++ 58 :: c :: ... *)
    assert (G : forall pad, forallb is_space pad = true -> forall b1, pad ++ name = b1 ++ 58%N :: c :: sp ++ s2 -> exists a, name = a ++ 58%N :: c :: sp ++ s2).
    { clear - c. induction pad as [|y pad IH]; intros Hp b1 E; [exists b1; exact E|]. cbn [forallb] in Hp. apply andb_prop in Hp as (Hy&Hp). destruct b1 as [|z b1].
      - cbn in E. injection E as -> _. discriminate.
      - cbn in E. injection E as _ E. exact (IH Hp b1 E). }
    destruct (G pad Hp b1 Eb) as (a&Ea). rewrite (Hcs a c (sp ++ s2) Ea) in Hsc. discriminate.
Qed.

Lemma vline_needs s g r : re_match VLINE_REGEX s = Some (g, r) -> exists t, s = u "V: " ++ t.
Proof. intro H. apply re_match_sound in H. unfold VLINE_REGEX, RSeqs in H. apply rmat_seq_inv in H as (s1&cs1&H&_). apply rmat_word_inv in H as (->&_). eauto. Qed.

Lemma small_n2s x : (1 <= x <= 9)%N -> n2s x = [(48 + x)%N].
Proof. intro H. assert (E : (x = 1 \/ x = 2 \/ x = 3 \/ x = 4 \/ x = 5 \/ x = 6 \/ x = 7 \/ x = 8 \/ x = 9)%N) by lia. repeat destruct E as [->|E]; [..|subst x]; reflexivity. Qed.
Lemma mark_is_char m : (forall x, m = Some x -> (1 <= x <= 9)%N) -> mark_char (show_mark m) = true.
Proof.
  intro H. destruct m as [x|]; [|reflexivity]. unfold mark_char. cbn [show_mark]. apply orb_true_intro. right.
  destruct (n2s_numeral x) as [_ Hd]. rewrite small_n2s in Hd by (apply H; reflexivity). cbn [forallb] in Hd. apply andb_prop in Hd as (Hd&_). exact Hd.
Qed.

Lemma vote_match marks sep id rest : deb_ok (DebVote marks sep id rest) ->
  exists g s, re_match VLINE_REGEX (show_deb (DebVote marks sep id rest)) = Some (g, s) /\ group 1 g = map show_mark marks /\ group 2 g = id.
Proof.
  intros (Hmn&Hm&(Hs&_)&Hsn&Hin&Hi&Hr&Hrs&_). cbn [show_deb]. exists [(2%nat, id); (1%nat, map show_mark marks)], []. split; [|split; reflexivity].
  unfold re_match, VLINE_REGEX, RSeqs. apply g_seq, g_word, g_seq. apply g_grp_plus.
  - destruct marks; [congruence|discriminate].
  - apply forallb_forall. intros c Hc. apply in_map_iff in Hc as (m&<-&Hm'). apply mark_is_char. intros x ->. apply Hm, Hm'.
  - destruct sep as [|c sep]; [congruence|]. cbn [app stops]. cbn [forallb] in Hs. apply andb_prop in Hs as (Hs&_). unfold mark_char. apply orb_false_intro.
    + apply N.eqb_neq. intros ->. discriminate.
    + destruct (is_digit c) eqn:E; [|reflexivity]. apply digit_not_space in E. congruence.
  - apply g_seq. apply g_plus; [exact Hsn|exact Hs| |].
    + destruct id as [|c id]; [congruence|]. cbn. apply Hi. left; reflexivity.
    + apply g_seq. apply g_grp_plus; [exact Hin| | |].
      * apply forallb_forall. intros c Hc. unfold non_space. rewrite (Hi c Hc). reflexivity.
      * destruct rest as [|c rest]; [exact I|]. cbn. unfold non_space. specialize (Hrs ltac:(discriminate)). cbn in Hrs. rewrite Hrs. reflexivity.
      * apply g_seq. rewrite <- (app_nil_r rest) at 1. apply g_star; [apply one_line_any, Hr|exact I|]. apply g_end. reflexivity.
Qed.

Lemma vote_option_none indent num desc pad name : blank indent -> re_match VLINE_REGEX (show_deb (DebOption indent num desc pad name)) = None.
Proof.
  intros (Hi&_). destruct (re_match _ _) as [[g r]|] eqn:E; [|reflexivity]. apply vline_needs in E as (t&E). cbn [show_deb] in E.
  destruct indent as [|c i]; cbn in E; [discriminate|]. injection E as -> _. discriminate Hi.
Qed.
Lemma vote_other_none text : strip_prefix (u "V: ") text = None -> re_match VLINE_REGEX text = None.
Proof. intro H. destruct (re_match _ _) as [[g r]|] eqn:E; [|reflexivity]. apply vline_needs in E as (t&->). rewrite strip_prefix_app in H. discriminate. Qed.

(** ** Sheets *)
Lemma show_deb_one_line l : deb_ok l -> one_line (show_deb l).
Proof.
  destruct l as [indent num desc pad name|marks sep id rest|text]; cbn [deb_ok show_deb].
  - intros ((_&Hi)&Hd&(_&Hp)&_&Hn&_). repeat apply one_line_app; try assumption; [apply printable_line; reflexivity|apply digits_one_line|intros c [<-|[]]; reflexivity].
  - intros (_&Hm&(_&Hs)&_&_&Hi&Hr&_). repeat apply one_line_app; try assumption; [apply printable_line; reflexivity| |].
    + intros c Hc. apply in_map_iff in Hc as (m&<-&Hin). destruct m as [x|]; [|reflexivity]. cbn [show_mark].
      apply (digits_one_line x). rewrite small_n2s by (apply Hm, Hin). left; reflexivity.
    + intros c Hc. destruct (is_linebreak c) eqn:E; [|reflexivity]. apply linebreak_space in E. rewrite (Hi c Hc) in E. discriminate.
  - intros (H&_). exact H.
Qed.

Lemma option_names_eq ls : (forall l, In l ls -> deb_ok l) -> option_names (deb_sheet ls) = deb_names ls.
Proof.
  intro H. unfold option_names, deb_sheet. rewrite splitlines_unlines by (intros l Hl; apply in_map_iff in Hl as (x&<-&Hx); apply show_deb_one_line, H, Hx).
  unfold deb_names. induction ls as [|l ls IH]; [reflexivity|]. cbn [map flat_map]. rewrite IH by (intros x Hx; apply H; right; exact Hx). f_equal.
  pose proof (H l (or_introl eq_refl)) as Hl. destruct l as [indent num desc pad name|marks sep id rest|text].
  - destruct (option_match _ _ _ _ _ Hl) as (g&s&->&Eg). rewrite Eg. reflexivity.
  - rewrite search_none by apply Hl. reflexivity.
  - cbn [show_deb]. rewrite search_none by apply Hl. reflexivity.
Qed.

Lemma vline_rankings_eq ls : (forall l, In l ls -> deb_ok l) -> vline_rankings (deb_sheet ls) = map (fun v => (snd v, map show_mark (fst v))) (deb_votes ls).
Proof.
  intro H. unfold vline_rankings, deb_sheet. rewrite splitlines_unlines by (intros l Hl; apply in_map_iff in Hl as (x&<-&Hx); apply show_deb_one_line, H, Hx).
  unfold deb_votes. induction ls as [|l ls IH]; [reflexivity|]. cbn [map flat_map]. rewrite IH by (intros x Hx; apply H; right; exact Hx). rewrite map_app. f_equal.
  pose proof (H l (or_introl eq_refl)) as Hl. destruct l as [indent num desc pad name|marks sep id rest|text].
  - rewrite vote_option_none by apply Hl. reflexivity.
  - destruct (vote_match _ _ _ _ Hl) as (g&s&->&E1&E2). rewrite E1, E2. reflexivity.
  - cbn [show_deb]. rewrite vote_other_none by apply Hl. reflexivity.
Qed.

(** ** Votes *)
Lemma mark_eq m r : (forall x, m = Some x -> (1 <= x <= 9)%N) -> str_eqb [show_mark m] (n2s r) = match m with Some x => N.eqb x r | None => false end.
Proof.
  intro H. destruct m as [x|]; cbn [show_mark].
  - rewrite <- small_n2s by (apply H; reflexivity). destruct (str_eqb_spec (n2s x) (n2s r)) as [E|E]; destruct (N.eqb_spec x r) as [->|E']; try reflexivity; [apply n2s_inj in E; congruence|congruence].
  - destruct (str_eqb_spec [45%N] (n2s r)) as [E|]; [|reflexivity]. assert (Hin : In 45%N (n2s r)) by (rewrite <- E; left; reflexivity). apply n2s_chars in Hin. lia.
Qed.
Lemma marked_names shorts r : forall marks pre toks, shorts = pre ++ toks -> (length marks <= length toks)%nat -> (forall x, In (Some x) marks -> (1 <= x <= 9)%N) ->
  mapM (fun i => of_option IndexError (nth_error shorts i)) (marked_at (n2s r) (length pre) (map show_mark marks)) = Ok (options_at toks marks r).
Proof.
  induction marks as [|m marks IH]; intros pre toks E Hl Hm.
  - unfold options_at. rewrite combine_nil. reflexivity.
  - destruct toks as [|t toks]; [cbn in Hl; lia|]. cbn [map marked_at]. rewrite mark_eq by (intros x ->; apply Hm; left; reflexivity).
    assert (I : mapM (fun i => of_option IndexError (nth_error shorts i)) (marked_at (n2s r) (S (length pre)) (map show_mark marks)) = Ok (options_at toks marks r)).
    { replace (S (length pre)) with (length (pre ++ [t])) by (rewrite app_length; cbn; lia). apply IH; [rewrite E, <- app_assoc; reflexivity|cbn in Hl; lia|intros x Hx; apply Hm; right; exact Hx]. }
    unfold options_at in *. cbn [combine filter snd]. destruct (match m with Some x => N.eqb x r | None => false end).
    + cbn [mapM map fst]. rewrite I. subst shorts. rewrite nth_error_app2, Nat.sub_diag by lia. reflexivity.
    + exact I.
Qed.
Lemma marked_empty marks r i toks : (length marks <= length toks)%nat -> (forall x, In (Some x) marks -> (1 <= x <= 9)%N) ->
  (marked_at (n2s r) i (map show_mark marks) = [] <-> options_at toks marks r = []).
Proof.
  revert i toks. induction marks as [|m marks IH]; intros i toks Hl Hm.
  - unfold options_at. rewrite combine_nil. split; reflexivity.
  - destruct toks as [|t toks]; [cbn in Hl; lia|]. cbn [map marked_at]. rewrite mark_eq by (intros x ->; apply Hm; left; reflexivity).
    unfold options_at in *. cbn [combine filter snd]. destruct (match m with Some x => N.eqb x r | None => false end); [split; discriminate|].
    apply IH; [cbn in Hl; lia|intros x Hx; apply Hm; right; exact Hx].
Qed.

Lemma concat_nonempty (g : nat -> list str) n : forall k,
  concat (map (fun r => match g (r + 1)%nat with [] => [] | l => [join [61%N] l] end) (seq k n)) =
  map (join [61%N]) (filter (fun t => match t with [] => false | _ => true end) (map g (seq (S k) n))).
Proof.
  induction n as [|n IH]; intro k; [reflexivity|]. cbn [seq map concat]. rewrite (IH (S k)).
  replace (k + 1)%nat with (S k) by lia. cbn [filter]. destruct (g (S k)) as [|x l]; reflexivity.
Qed.
Lemma vote_tiers_eq toks marks : (length marks <= length toks)%nat -> (forall x, In (Some x) marks -> (1 <= x <= 9)%N) ->
  vote_tiers toks (length toks) (map show_mark marks) = Ok (map (join [61%N]) (vote_tiers_of toks marks)).
Proof.
  intros Hl Hm. unfold vote_tiers, vote_tiers_of.
  assert (G : forall k n, mapM (fun r => match marked_at (n2s (N.of_nat (r + 1))) 0 (map show_mark marks) with
      | [] => Ok []
      | crs => bind (mapM (fun i => of_option IndexError (nth_error toks i)) crs) (fun names => Ok [join [61%N] names])
      end) (seq k n) = Ok (map (fun r => match options_at toks marks (N.of_nat (r + 1)) with [] => [] | l => [join [61%N] l] end) (seq k n))).
  { intros k n. apply mapM_all. intros r _. pose proof (marked_names toks (N.of_nat (r + 1)) marks [] toks eq_refl Hl Hm) as E. cbn [length] in E.
    pose proof (marked_empty marks (N.of_nat (r + 1)) 0 toks Hl Hm) as Em.
    destruct (marked_at (n2s (N.of_nat (r + 1))) 0 (map show_mark marks)) as [|i crs].
    - rewrite (proj1 Em eq_refl). reflexivity.
    - rewrite E. cbn [bind]. destruct (options_at toks marks (N.of_nat (r + 1))); [destruct Em as (_&Em); discriminate (Em eq_refl)|reflexivity]. }
  rewrite G. cbn [bind]. f_equal. exact (concat_nonempty (fun r => options_at toks marks (N.of_nat r)) (length toks) 0).
Qed.

(** ** Tokens *)
Lemma alnum_letter c : alnum c = letter_digit c. Proof. reflexivity. Qed.
Lemma split_ws_filter s : forall cur, concat (map (filter alnum) (split_ws cur s)) = filter alnum (rev cur) ++ filter alnum s.
Proof.
  assert (P : forall cur l, concat (map (filter alnum) (push_word cur l)) = filter alnum (rev cur) ++ concat (map (filter alnum) l)).
  { intros cur l. destruct cur; reflexivity. }
  assert (filter_app' : forall a b, filter alnum (a ++ b) = filter alnum a ++ filter alnum b).
  { induction a as [|x a IHa]; intro y; [reflexivity|]. cbn. rewrite IHa. destruct (alnum x); reflexivity. }
  induction s as [|c s IH]; intro cur; cbn [split_ws].
  - rewrite P. reflexivity.
  - destruct (is_space c) eqn:E.
    + rewrite P, IH. cbn [rev app filter]. assert (Hc : alnum c = false).
      { destruct (alnum c) eqn:Ea; [|reflexivity]. exfalso. unfold alnum in Ea. unfold is_space in E. lia. }
      rewrite Hc. reflexivity.
    + rewrite IH. cbn [rev]. rewrite filter_app', <- app_assoc. cbn [filter]. destruct (alnum c); reflexivity.
Qed.
Lemma alnum_match s : ~ In 10%N s -> (match re_match ALNUM_REGEX s with Some _ => true | None => false end) = forallb alnum s && negb (str_eqb s []).
Proof.
  intro Hn. destruct (re_match ALNUM_REGEX s) as [[g r]|] eqn:E.
  - apply re_match_sound in E. unfold ALNUM_REGEX in E. apply rmat_seq_inv in E as (s1&cs1&M&M2). apply rmat_plus_inv in M as (a&Ha&->&Hf&_).
    apply rmat_end_inv in M2 as (_&_&[->| ->]); [|destruct Hn; apply in_or_app; right; left; reflexivity]. rewrite app_nil_r, Hf. destruct a; [congruence|reflexivity].
  - symmetry. destruct (forallb alnum s) eqn:Hf; [|reflexivity]. destruct s as [|c s]; [reflexivity|]. exfalso.
    assert (M : rmat ALNUM_REGEX (c :: s) [] [] []).
    { unfold ALNUM_REGEX. apply rmat_seq_inv. exists [], []. split; [apply rmat_plus_inv; exists (c :: s); rewrite app_nil_r; repeat split; [discriminate|exact Hf]|apply rmat_end_inv; auto]. }
    apply re_match_complete in M as (g&r&M). congruence.
Qed.

Lemma filter_all {A} (p : A -> bool) l : forallb p l = true -> filter p l = l.
Proof. induction l as [|x l IH]; intro H; [reflexivity|]. cbn in *. apply andb_prop in H as (H1&H2). rewrite H1, IH by exact H2. reflexivity. Qed.
Lemma short_token_plain sha1 s : ~ In 10%N s -> deb_short_token sha1 s false = Ok (firstn 20 (filter letter_digit s)).
Proof.
  intro Hn. unfold deb_short_token. rewrite alnum_match by exact Hn. destruct (_ && _) eqn:E.
  - apply andb_prop in E as (El&E). apply andb_prop in E as (Ef&_). apply Nat.leb_le in El. change (filter letter_digit s) with (filter alnum s). rewrite filter_all by exact Ef. rewrite firstn_all2 by exact El. reflexivity.
  - rewrite split_ws_filter. reflexivity.
Qed.

(** Lengths and characters of tokens, with or without the checksum. *)
Definition short_ok (t : str) : Prop := (length t <= 20)%nat /\ forallb letter_digit t = true.
Lemma forallb_firstn {A} (p : A -> bool) n : forall l, forallb p l = true -> forallb p (firstn n l) = true.
Proof. induction n as [|n IH]; intros l H; [reflexivity|]. destruct l as [|x l]; [reflexivity|]. cbn in *. apply andb_prop in H as (H1&H2). rewrite H1. apply IH, H2. Qed.
Lemma forallb_filter {A} (p : A -> bool) l : forallb p (filter p l) = true.
Proof. apply forallb_forall. intros x Hx. apply filter_In in Hx. apply Hx. Qed.
Lemma b32_alnum d : (forall x, In x d -> (x < 256)%N) -> short_ok (b32_4 d) /\ (length (b32_4 d) <= 4)%nat.
Proof.
  intro H. destruct d as [|b0 [|b1 [|b2 r]]]; cbn [b32_4]; try (split; [split|]; cbn; (lia || reflexivity)).
  assert (H0 : (b0 < 256)%N) by (apply H; left; reflexivity). assert (H1 : (b1 < 256)%N) by (apply H; right; left; reflexivity). assert (H2 : (b2 < 256)%N) by (apply H; right; right; left; reflexivity).
  assert (Q : forall v, (v < 32)%N -> letter_digit (b32_char v) = true).
  { intros v Hv. unfold b32_char, letter_digit. destruct (N.ltb_spec v 26); lia. }
  split; [split; [cbn; lia|]|cbn; lia]. cbn [map forallb]. rewrite !Q; [reflexivity|..].
  - pose proof (N.mod_upper_bound b1 2 ltac:(lia)). assert (b2 / 16 < 16)%N by (apply N.div_lt_upper_bound; lia). lia.
  - apply N.mod_upper_bound. lia.
  - pose proof (N.mod_upper_bound b0 8 ltac:(lia)). assert (b1 / 64 < 4)%N by (apply N.div_lt_upper_bound; lia). lia.
  - apply N.div_lt_upper_bound; lia.
Qed.
Definition bytes_only (sha1 : hash) : Prop := forall s x, In x (sha1 s) -> (x < 256)%N.
Lemma short_token_ok sha1 s b t : bytes_only sha1 -> ~ In 10%N s -> deb_short_token sha1 s b = Ok t -> short_ok t.
Proof.
  intros Hb Hn. unfold deb_short_token. rewrite alnum_match by exact Hn. destruct (_ && _) eqn:E.
  - intro H. apply ok_inj in H. subst t. apply andb_prop in E as (El&E). apply andb_prop in E as (Ef&_). apply Nat.leb_le in El. split; [exact El|exact Ef].
  - rewrite split_ws_filter. cbn [rev filter app]. assert (Hf : forallb letter_digit (filter alnum s) = true) by apply (forallb_filter letter_digit). destruct b.
    + intro H. apply bind_ok in H as (c&Ec&H). apply ok_inj in H. subst t. unfold trunc_sha in Ec. apply bind_ok in Ec as (bs&_&Ec). apply ok_inj in Ec. subst c.
      destruct (b32_alnum (sha1 bs) (Hb bs)) as ((_&B1)&B2). split.
      * rewrite app_length, firstn_length. lia.
      * rewrite forallb_app, B1, forallb_firstn by exact Hf. reflexivity.
    + intro H. apply ok_inj in H. subst t. split; [rewrite firstn_length; lia|apply forallb_firstn, Hf].
Qed.
Lemma trunc_sha_err sha1 s e : trunc_sha sha1 s = Err e -> e = UnicodeError.
Proof. unfold trunc_sha, utf8_encode. destruct (forallb scalar s); cbn [bind]; intro H; [discriminate|injection H as <-; reflexivity]. Qed.

(** *** None of the above *)
Lemma lower_eq c : lower c = ascii_lower c. Proof. reflexivity. Qed.
Lemma ci_prefix_spec p s : ci_prefix p s = true <-> exists w b, s = w ++ b /\ map ascii_lower w = p.
Proof.
  revert s. induction p as [|x p IH]; intro s; cbn [ci_prefix].
  - split; [|reflexivity]. intros _. exists [], s. split; reflexivity.
  - destruct s as [|y s].
    + split; [discriminate|]. intros (w&b0&E&Ew). destruct w; [discriminate|discriminate].
    + rewrite andb_true_iff, IH, N.eqb_eq. split.
      * intros (->&w&b0&->&<-). exists (y :: w), b0. split; reflexivity.
      * intros (w&b0&E&Ew). destruct w as [|z w]; [discriminate|]. injection E as -> ->. injection Ew as <- <-. split; [reflexivity|]. eauto.
Qed.
Lemma sub_nota_none s : (forall a w b, s = a ++ w ++ b -> ~ is_nota w) -> sub_nota 0 s = s.
Proof.
  induction s as [|c s IH]; intro H; [reflexivity|]. cbn [sub_nota]. destruct (ci_prefix k_nota (c :: s)) eqn:E.
  - exfalso. apply ci_prefix_spec in E as (w&b0&E&Ew). apply (H [] w b0); [exact E|exact Ew].
  - f_equal. apply IH. intros a w b0 ->. apply (H (c :: a) w b0). reflexivity.
Qed.
Lemma sub_nota_skip s : forall k, (length s <= k)%nat -> sub_nota k s = [].
Proof. induction s as [|c s IH]; intros k H; [reflexivity|]. cbn in H. destruct k as [|k]; [lia|]. cbn [sub_nota]. apply IH. lia. Qed.
Lemma sub_nota_whole s : is_nota s -> sub_nota 0 s = u "NOTA".
Proof.
  intro H. destruct s as [|c s]; [discriminate|]. cbn [sub_nota].
  assert (E : ci_prefix k_nota (c :: s) = true) by (apply ci_prefix_spec; exists (c :: s), []; split; [rewrite app_nil_r; reflexivity|exact H]). rewrite E.
  assert (El : length s = 16%nat). { unfold is_nota in H. apply (f_equal (@length N)) in H. rewrite map_length in H. cbn in H. lia. }
  rewrite sub_nota_skip by (cbn; lia). reflexivity.
Qed.
Lemma nota_abbrev name : nota_free name -> ~ In 10%N name -> ~ In 10%N (sub_nota 0 name) /\ abbreviation name = firstn 20 (filter letter_digit (sub_nota 0 name)).
Proof.
  intros H Hn. unfold abbreviation. destruct (str_eqb_spec (map ascii_lower name) (u "none of the above")) as [E|E].
  - rewrite sub_nota_whole by exact E. split; [cbn; intuition discriminate|reflexivity].
  - destruct H as [H|H]; [congruence|]. rewrite sub_nota_none by exact H. split; [exact Hn|reflexivity].
Qed.
Lemma sub_nota_In c s : forall k, In c (sub_nota k s) -> In c s \/ In c (u "NOTA").
Proof.
  induction s as [|x s IH]; intros k H; [destruct H|]. cbn [sub_nota] in H. destruct k as [|k].
  - destruct (ci_prefix k_nota (x :: s)).
    + apply in_app_or in H as [H|H]; [right; exact H|]. apply IH in H as [H|H]; [left; right; exact H|right; exact H].
    + destruct H as [->|H]; [left; left; reflexivity|]. apply IH in H as [H|H]; [left; right; exact H|right; exact H].
  - apply IH in H as [H|H]; [left; right; exact H|right; exact H].
Qed.
