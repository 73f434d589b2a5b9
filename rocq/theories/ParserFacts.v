(** * ParserFacts: lemmas about the ABIF reader *)

From Verif Require Import PyBase PyFacts Jabmod Regex RegexFacts WordTable ScoreModel ParserModel ParserSpec.
Local Open Scope Z_scope.

(** ** Characters and strings *)

Lemma space_cases c : is_space c = true ->
  In c [9;10;11;12;13;28;29;30;31;32;133;160;5760;8192;8193;8194;8195;8196;8197;8198;8199;8200;8201;8202;8232;8233;8239;8287;12288]%N.
Proof. unfold is_space. intro H. cbn [In]. lia. Qed.

Lemma digit_not_space c : is_digit c = true -> is_space c = false.
Proof.
  intro H. destruct (is_space c) eqn:E; [|reflexivity]. apply space_cases in E. cbn [In] in E.
  repeat (destruct E as [E|E]; [subst; vm_compute in H; discriminate|]). destruct E.
Qed.

Lemma linebreak_space c : is_linebreak c = true -> is_space c = true.
Proof. unfold is_linebreak, is_space. lia. Qed.

Lemma lstrip_first s : (forall c r, s = c :: r -> is_space c = false) -> lstrip s = s.
Proof. destruct s as [|c r]; intro H; cbn; [reflexivity|]. rewrite (H c r eq_refl). reflexivity. Qed.

Lemma rstrip_last s : (forall c r, s = r ++ [c] -> is_space c = false) -> rstrip s = s.
Proof.
  intro H. unfold rstrip. rewrite lstrip_first; [apply rev_involutive|]. intros c r E. apply (H c (rev r)).
  rewrite <- (rev_involutive s), E. reflexivity.
Qed.

Lemma lstrip_app_blank a s : forallb is_space a = true -> lstrip (a ++ s) = lstrip s.
Proof. induction a as [|c a IH]; cbn; intro H; [reflexivity|]. apply andb_prop in H as [-> H]. auto. Qed.

Lemma forallb_rev {A} (p : A -> bool) l : forallb p (rev l) = forallb p l.
Proof.
  induction l as [|x l IH]; cbn; [reflexivity|]. rewrite forallb_app, IH. cbn. rewrite andb_true_r. apply andb_comm.
Qed.

Lemma rstrip_app_blank a s : forallb is_space a = true -> rstrip (s ++ a) = rstrip s.
Proof. intro H. unfold rstrip. rewrite rev_app_distr, lstrip_app_blank by (rewrite forallb_rev; exact H). reflexivity. Qed.

Lemma lstrip_blank a : forallb is_space a = true -> lstrip a = [].
Proof. intro H. rewrite <- (app_nil_r a), lstrip_app_blank by exact H. reflexivity. Qed.

Lemma strip_blank a : forallb is_space a = true -> strip a = [].
Proof. intro H. unfold strip. rewrite lstrip_blank by exact H. reflexivity. Qed.

Lemma lstrip_suffix s : exists a, s = a ++ lstrip s /\ forallb is_space a = true.
Proof.
  induction s as [|c r IH]; [exists []; auto|]. cbn. destruct (is_space c) eqn:E.
  - destruct IH as (a&Ea&Ha). exists (c :: a). cbn. rewrite E, <- Ea. auto.
  - exists []. auto.
Qed.

Lemma lstrip_nospace_first s c r : lstrip s = c :: r -> is_space c = false.
Proof.
  induction s as [|d s IH]; cbn; [discriminate|]. destruct (is_space d) eqn:E; [auto|]. congruence.
Qed.

Lemma lstrip_idem s : lstrip (lstrip s) = lstrip s.
Proof. apply lstrip_first. intros c r E. exact (lstrip_nospace_first _ _ _ E). Qed.

Lemma rstrip_prefix s : exists a, s = rstrip s ++ a /\ forallb is_space a = true.
Proof.
  destruct (lstrip_suffix (rev s)) as (a&Ea&Ha). exists (rev a). split.
  - unfold rstrip. rewrite <- rev_app_distr, <- Ea. symmetry; apply rev_involutive.
  - rewrite forallb_rev. exact Ha.
Qed.

Lemma strip_id_first n : strip n = n -> forall c r, n = c :: r -> is_space c = false.
Proof.
  intros H c r E. destruct (is_space c) eqn:Ec; [|reflexivity]. exfalso.
  unfold strip in H. subst n. cbn [lstrip] in H. rewrite Ec in H.
  destruct (rstrip_prefix (lstrip r)) as (a&Ea&_). destruct (lstrip_suffix r) as (b&Eb&_).
  apply (f_equal (@List.length N)) in H. apply (f_equal (@List.length N)) in Ea. apply (f_equal (@List.length N)) in Eb.
  rewrite app_length in Ea, Eb. cbn [List.length] in H. lia.
Qed.

Lemma strip_id_last n : strip n = n -> forall c r, n = r ++ [c] -> is_space c = false.
Proof.
  intros H c r E. destruct (is_space c) eqn:Ec; [|reflexivity]. exfalso.
  assert (Hl : lstrip n = n) by (apply lstrip_first; apply strip_id_first; exact H).
  unfold strip in H. rewrite Hl in H. subst n.
  rewrite rstrip_app_blank in H by (cbn; rewrite Ec; reflexivity).
  destruct (rstrip_prefix r) as (a&Ea&_). apply (f_equal (@List.length N)) in H. apply (f_equal (@List.length N)) in Ea.
  rewrite app_length in *. cbn [List.length] in H. lia.
Qed.

Lemma strip_pad a n b : forallb is_space a = true -> forallb is_space b = true -> strip n = n ->
  strip (a ++ n ++ b) = n.
Proof.
  intros Ha Hb Hn. unfold strip. rewrite lstrip_app_blank by exact Ha.
  destruct n as [|c r]; [cbn [app]; rewrite lstrip_blank by exact Hb; reflexivity|].
  rewrite lstrip_first.
  - rewrite rstrip_app_blank by exact Hb. apply rstrip_last. apply strip_id_last. exact Hn.
  - intros c' r' E. injection E as <- _. exact (strip_id_first _ Hn c r eq_refl).
Qed.

(** A string whose first and last characters are not white space is its own strip. *)
Lemma strip_id n : (forall c r, n = c :: r -> is_space c = false) -> (forall c r, n = r ++ [c] -> is_space c = false) ->
  strip n = n.
Proof. intros H1 H2. unfold strip. rewrite lstrip_first by exact H1. apply rstrip_last. exact H2. Qed.

Lemma strip_strip s : strip (strip s) = strip s.
Proof.
  destruct (lstrip_suffix s) as (a&Ea&Ha). destruct (rstrip_prefix (lstrip s)) as (b&Eb&Hb).
  apply strip_id.
  - intros c r E. unfold strip in E. rewrite E in Eb. cbn in Eb. exact (lstrip_nospace_first _ _ _ Eb).
  - intros c r E. unfold strip, rstrip in E. assert (E' : lstrip (rev (lstrip s)) = c :: rev r).
    { rewrite <- (rev_involutive (lstrip (rev (lstrip s)))), E, rev_app_distr. reflexivity. }
    exact (lstrip_nospace_first _ _ _ E').
Qed.

(** ** int() of a numeral *)

Lemma digits_val_ok ds : forall acc need, forallb is_digit ds = true -> (ds <> [] \/ need = false) ->
  exists n, digits_val ds acc need = Some n.
Proof.
  induction ds as [|c r IH]; intros acc need H Hn; cbn [digits_val].
  - destruct Hn as [Hn|Hn]; [congruence|]. subst. eauto.
  - cbn in H. apply andb_prop in H as [Hc Hr]. unfold is_digit in Hc. destruct (digit_val c); [|discriminate].
    apply IH; auto.
Qed.

Lemma py_int_nosign s : strip s = s -> (forall c r, s = c :: r -> c <> 45%N /\ c <> 43%N) ->
  py_int s = of_option ValueError (option_map Z.of_N (digits_val s 0 true)).
Proof.
  intros Hs Hc. unfold py_int. rewrite Hs. destruct s as [|c r]; [reflexivity|].
  destruct (Hc c r eq_refl) as [H1 H2]. destruct c as [|p]; [reflexivity|].
  do 6 (destruct p; try reflexivity; try congruence).
Qed.

Lemma digits_strip ds : forallb is_digit ds = true -> strip ds = ds.
Proof.
  intro H. rewrite forallb_forall in H. apply strip_id.
  - intros c r ->. apply digit_not_space, H. left; reflexivity.
  - intros c r ->. apply digit_not_space, H. apply in_or_app; right; left; reflexivity.
Qed.

Lemma py_int_numeral ds : numeral ds -> exists n, digits_val ds 0 true = Some n /\ py_int ds = Ok (Z.of_N n).
Proof.
  intros [Hne Hd]. destruct (digits_val_ok ds 0 true Hd (or_introl Hne)) as [n En]. exists n. split; [exact En|].
  rewrite py_int_nosign, En; [reflexivity|apply digits_strip; exact Hd|].
  intros c r ->. cbn in Hd. apply andb_prop in Hd as [Hc _].
  split; intros ->; vm_compute in Hc; discriminate.
Qed.

Lemma py_int_numeral_nonneg ds z : numeral ds -> py_int ds = Ok z -> 0 <= z.
Proof. intros H E. destruct (py_int_numeral ds H) as (n&_&En). rewrite E in En. apply ok_inj in En. lia. Qed.

(** ** Lines *)

Lemma splitlines_aux_one_line s : forall cur st, one_line (rev cur) ->
  forall l, In l (splitlines_aux s cur st) -> one_line l.
Proof.
  assert (H0 : one_line (rev [])) by (intros c Hc; destruct Hc).
  assert (Hgen : forall n s, (length s <= n)%nat -> forall cur st, one_line (rev cur) ->
     forall l, In l (splitlines_aux s cur st) -> one_line l).
  { induction n as [|n IH]; intros s' Hlen cur st Hcur l Hl.
    - destruct s'; [|cbn in Hlen; lia]. cbn in Hl. destruct st; [|destruct Hl]. destruct Hl as [<-|[]]. exact Hcur.
    - destruct s' as [|c r]; cbn [splitlines_aux] in Hl.
      + destruct st; [|destruct Hl]. destruct Hl as [<-|[]]. exact Hcur.
      + cbn in Hlen. destruct (is_linebreak c) eqn:Ec.
        * destruct Hl as [<-|Hl]; [exact Hcur|].
          destruct r as [|c' r']; [destruct Hl|]. cbn in Hlen.
          destruct (N.eqb c 13 && N.eqb c' 10)%bool; revert Hl; apply IH; auto; cbn; lia.
        * revert Hl. apply IH; [lia|]. intros x Hx. cbn in Hx. apply in_app_or in Hx as [Hx|[<-|[]]]; auto. }
  intros cur st Hcur l. apply (Hgen (length s) s (le_n _) cur st Hcur).
Qed.

Lemma splitlines_one_line s l : In l (splitlines s) -> one_line l.
Proof. apply splitlines_aux_one_line. intros c Hc; destruct Hc. Qed.

Lemma splitlines_aux_cons_line l : forall cur st rest, one_line l ->
  splitlines_aux (l ++ 10%N :: rest) cur st = (rev cur ++ l) :: splitlines_aux rest [] false.
Proof.
  induction l as [|c r IH]; intros cur st rest Hl; cbn [app splitlines_aux].
  - assert (E : is_linebreak 10 = true) by reflexivity. rewrite E. rewrite app_nil_r. f_equal.
    destruct rest as [|c' r']; [reflexivity|]. reflexivity.
  - rewrite (Hl c) by (left; reflexivity). rewrite IH.
    + cbn [rev]. rewrite <- app_assoc. reflexivity.
    + intros x Hx; apply Hl; right; exact Hx.
Qed.

Lemma splitlines_cons_line l rest : one_line l -> splitlines (l ++ 10%N :: rest) = l :: splitlines rest.
Proof. intro H. unfold splitlines. rewrite splitlines_aux_cons_line by exact H. reflexivity. Qed.

Lemma splitlines_unlines ls : (forall l, In l ls -> one_line l) -> splitlines (unlines ls) = ls.
Proof.
  induction ls as [|l ls IH]; intro H; [reflexivity|]. cbn [unlines flat_map]. rewrite <- app_assoc. cbn [app].
  rewrite splitlines_cons_line by (apply H; left; reflexivity). f_equal. apply IH. intros; apply H; right; assumption.
Qed.

Lemma splitlines_last l : one_line l -> l <> [] -> splitlines l = [l].
Proof.
  intros H Hne. unfold splitlines.
  assert (G : forall l cur st, one_line l -> (l <> [] \/ st = true) -> splitlines_aux l cur st = [rev cur ++ l]).
  { clear. induction l as [|c r IH]; intros cur st Hl Hs; cbn [splitlines_aux].
    - destruct Hs as [Hs|Hs]; [congruence|]. subst. rewrite app_nil_r. reflexivity.
    - rewrite (Hl c) by (left; reflexivity). rewrite IH; [cbn [rev]; rewrite <- app_assoc; reflexivity| |auto].
      intros x Hx; apply Hl; right; exact Hx. }
  apply G; auto.
Qed.

Lemma one_line_lstrip l : one_line l -> one_line (lstrip l).
Proof.
  intros H c Hc. apply H. destruct (lstrip_suffix l) as (a&Ea&_). rewrite Ea. apply in_or_app; right; exact Hc.
Qed.

Lemma one_line_no_nl l : one_line l -> ~ In 10%N l.
Proof. intros H Hi. specialize (H _ Hi). vm_compute in H. discriminate. Qed.

Lemma before_hash_comment s : s = before_hash s ++ match comment_of s with Some c => c | None => [] end.
Proof.
  induction s as [|c r IH]; cbn; [reflexivity|]. destruct (N.eqb c 35); cbn; [reflexivity|]. f_equal. exact IH.
Qed.

Lemma before_hash_none s c : In c (before_hash s) -> c <> 35%N.
Proof.
  induction s as [|d r IH]; cbn; [tauto|]. destruct (N.eqb_spec d 35); cbn; [tauto|]. intros [->|H]; auto.
Qed.

Lemma comment_of_head s c : comment_of s = Some c -> exists r, c = 35%N :: r.
Proof.
  induction s as [|d r IH]; cbn; [discriminate|]. destruct (N.eqb_spec d 35) as [->|]; [intro H; inversion H; eauto|auto].
Qed.

Lemma strip_comment_ok line : ~ In 10%N line -> strip_comment line = (before_hash line, comment_of line).
Proof.
  intro Hnl. unfold strip_comment. destruct (re_match COMMENT_REGEX line) as [[g s']|] eqn:E.
  - apply re_match_sound in E. unfold COMMENT_REGEX, RSeqs in E.
    rewrite rmat_seq_inv in E. destruct E as (s1&g1&E1&E).
    rewrite rmat_seq_inv in E. destruct E as (s2&g2&E2&E).
    rewrite rmat_seq_inv in E. destruct E as (s3&g3&E3&E).
    rewrite rmat_seq_inv in E. destruct E as (s4&g4&E4&E).
    rewrite rmat_grp_inv in E1. destruct E1 as (a&h1&Ea&->&E1).
    rewrite rmat_star_inv in E1. destruct E1 as (a'&Ea'&Ha&->).
    rewrite rmat_grp_inv in E2. destruct E2 as (b&h2&Eb&->&E2).
    rewrite rmat_plus_inv in E2. destruct E2 as (b'&Hb'&Eb'&Hb&->).
    rewrite rmat_grp_inv in E3. destruct E3 as (w&h3&Ew&->&E3).
    rewrite rmat_star_inv in E3. destruct E3 as (w'&Ew'&_&->).
    rewrite rmat_grp_inv in E4. destruct E4 as (t&h4&Et&->&E4).
    rewrite rmat_star_inv in E4. destruct E4 as (t'&Et'&_&->).
    rewrite rmat_end_inv in E. destruct E as (->&->&E). cbn [group Nat.eqb].
    rewrite Ea in Ea'. apply app_inv_tail in Ea'. subst a'.
    rewrite Eb in Eb'. apply app_inv_tail in Eb'. subst b'.
    assert (E4 : s4 = []).
    { destruct E as [->| ->]; [reflexivity|]. exfalso. apply Hnl. subst. rewrite !in_app_iff. right; right; right; right; left; reflexivity. }
    subst s4. rewrite app_nil_r in Et. subst s3. subst s2. subst s1.
    destruct b as [|x b]; [congruence|]. cbn [forallb] in Hb. apply andb_prop in Hb as [Hx _]. apply N.eqb_eq in Hx. subst x.
    assert (Hs : forall a r, forallb (none_of [ch_hash]) a = true ->
      before_hash (a ++ 35%N :: r) = a /\ comment_of (a ++ 35%N :: r) = Some (35%N :: r)).
    { clear. induction a as [|c a IH]; intros r H; cbn [app before_hash comment_of].
      - auto.
      - cbn in H. apply andb_prop in H as [Hc H]. apply none_of_In in Hc. cbn in Hc.
        destruct (N.eqb_spec c 35) as [->|n]; [exfalso; apply Hc; left; reflexivity|].
        destruct (IH r H) as [-> ->]. auto. }
    subst line. cbn [app]. unfold ch_hash. destruct (Hs a (b ++ w ++ t) Ha) as [-> ->]. reflexivity.
  - assert (Hno : comment_of line = None).
    { destruct (comment_of line) as [c|] eqn:Ec; [|reflexivity]. exfalso.
      destruct (comment_of_head _ _ Ec) as [r ->].
      assert (Hs := before_hash_comment line). rewrite Ec in Hs.
      destruct (re_match_complete COMMENT_REGEX line [] ((4%nat, r) :: (3%nat, []) :: (2%nat, [35%N]) :: (1%nat, before_hash line) :: [])) as (g'&s''&E'); [|congruence].
      unfold COMMENT_REGEX, RSeqs. rewrite Hs at 1.
      eapply M_seq; [apply (M_grp 1 _ (before_hash line)); constructor|].
      { rewrite forallb_forall. intros x Hx. apply none_of_In. cbn. apply before_hash_none in Hx. unfold ch_hash. intros [H|[]]; congruence. }
      eapply M_seq; [apply (M_grp 2 _ [35%N]); rewrite rmat_plus_inv; exists [35%N]; repeat split; discriminate|].
      eapply M_seq; [apply (M_grp 3 _ []); apply (M_star _ []); reflexivity|].
      cbn [app]. rewrite <- (app_nil_r r) at 1.
      eapply M_seq; [apply (M_grp 4 _ r); constructor|constructor].
      rewrite forallb_forall. intros x Hx. unfold any_char. rewrite negb_true_iff, N.eqb_neq. intros ->.
      apply Hnl. rewrite Hs. apply in_or_app. right; right. exact Hx. }
    rewrite Hno. assert (Hs := before_hash_comment line). rewrite Hno, app_nil_r in Hs. rewrite <- Hs. reflexivity.
Qed.

Lemma take_drop p s : s = take_while p s ++ drop_while p s /\ forallb p (take_while p s) = true /\ stops p (drop_while p s).
Proof.
  induction s as [|c r IH]; cbn; [auto|]. destruct (p c) eqn:E; cbn.
  - rewrite E. destruct IH as (IH1&IH2&IH3). rewrite <- IH1. auto.
  - auto.
Qed.

Lemma take_drop_app p a b : forallb p a = true -> stops p b -> take_while p (a ++ b) = a /\ drop_while p (a ++ b) = b.
Proof.
  intros Ha Hb. destruct (take_drop p (a ++ b)) as (E&H1&H2).
  destruct (split_unique p _ _ _ _ E Ha H1 Hb H2) as [<- <-]. auto.
Qed.

Lemma vote_parts_spec s ds rest : vote_parts s = Some (ds, rest) <->
  s = ds ++ 58%N :: rest /\ numeral ds.
Proof.
  unfold vote_parts. split.
  - destruct (take_drop is_digit s) as (E&H1&H2). destruct (take_while is_digit s) as [|c t]; [discriminate|].
    destruct (drop_while is_digit s) as [|x r]; [discriminate|]. intro H.
    destruct (N.eqb_spec x 58) as [->|]; [|discriminate]. apply some_inj in H. injection H as <- <-. split; [exact E|]. split; [discriminate|exact H1].
  - intros [-> [Hne Hd]].
    destruct (take_drop_app is_digit ds (58%N :: rest) Hd) as [-> ->]; [reflexivity|].
    destruct ds as [|c t]; [congruence|]. reflexivity.
Qed.

Definition vote_match (s : str) : option (str * str) :=
  match re_match VOTELINE_REGEX s with Some (g, _) => Some (group 1 g, group 2 g) | None => None end.

Lemma vote_match_ok s : ~ In 10%N s -> vote_match s = vote_parts s.
Proof.
  intro Hnl. unfold vote_match. destruct (re_match VOTELINE_REGEX s) as [[g s']|] eqn:E.
  - apply re_match_sound in E. unfold VOTELINE_REGEX, RSeqs in E.
    rewrite rmat_seq_inv in E. destruct E as (s1&g1&E1&E).
    rewrite rmat_seq_inv in E. destruct E as (s2&g2&E2&E).
    rewrite rmat_seq_inv in E. destruct E as (s3&g3&E3&E).
    rewrite rmat_grp_inv in E1. destruct E1 as (a&h1&Ea&->&E1).
    rewrite rmat_plus_inv in E1. destruct E1 as (a'&Hne&Ea'&Ha&->).
    rewrite Ea in Ea'. apply app_inv_tail in Ea'. subst a'.
    apply rmat_chr_inv in E2. destruct E2 as (c&->&Hc&->). apply N.eqb_eq in Hc. subst c.
    rewrite rmat_grp_inv in E3. destruct E3 as (t&h4&Et&->&E3).
    rewrite rmat_star_inv in E3. destruct E3 as (t'&Et'&_&->).
    rewrite rmat_end_inv in E. destruct E as (->&->&E). cbn [group Nat.eqb].
    assert (E4 : s3 = []).
    { destruct E as [->| ->]; [reflexivity|]. exfalso. apply Hnl. subst. rewrite in_app_iff. cbn. rewrite in_app_iff. right; right; right; left; reflexivity. }
    subst s3. rewrite app_nil_r in Et. subst s2.
    symmetry. apply vote_parts_spec. split; [exact Ea|split; assumption].
  - destruct (vote_parts s) as [[ds rest]|] eqn:Ev; [|reflexivity]. exfalso.
    apply vote_parts_spec in Ev as [Es [Hne Hd]].
    destruct (re_match_complete VOTELINE_REGEX s [] [(2%nat, rest); (1%nat, ds)]) as (g'&s''&E'); [|congruence].
    unfold VOTELINE_REGEX, RSeqs. rewrite Es.
    eapply M_seq; [apply (M_grp 1 _ ds); rewrite rmat_plus_inv; exists ds; auto|].
    eapply M_seq; [constructor; reflexivity|].
    rewrite <- (app_nil_r rest) at 1.
    eapply M_seq; [apply (M_grp 2 _ rest); constructor|constructor].
    rewrite forallb_forall. intros x Hx. unfold any_char. rewrite negb_true_iff, N.eqb_neq. intros ->.
    apply Hnl. rewrite Es. apply in_or_app. right; right. exact Hx.
Qed.

Lemma candline_first s g s' : re_match CANDLINE_REGEX s = Some (g, s') -> exists r, s = 61%N :: r.
Proof.
  intro E. apply re_match_sound in E. unfold CANDLINE_REGEX, RSeqs in E.
  rewrite rmat_seq_inv in E. destruct E as (s1&g1&E1&E). apply rmat_chr_inv in E1. destruct E1 as (c&->&Hc&->).
  apply N.eqb_eq in Hc. subst. eauto.
Qed.
Lemma metadata_first s g s' : re_match METADATA_REGEX s = Some (g, s') -> exists r, s = 123%N :: r.
Proof.
  intro E. apply re_match_sound in E. unfold METADATA_REGEX, RSeqs in E.
  rewrite rmat_seq_inv in E. destruct E as (s1&g1&E1&E). apply rmat_chr_inv in E1. destruct E1 as (c&->&Hc&->).
  apply N.eqb_eq in Hc. subst. eauto.
Qed.

Lemma vote_not_other s ds rest : vote_parts s = Some (ds, rest) ->
  re_match CANDLINE_REGEX s = None /\ re_match METADATA_REGEX s = None.
Proof.
  intro H. apply vote_parts_spec in H as [-> [Hne Hd]]. destruct ds as [|c ds]; [congruence|]. cbn in Hd.
  apply andb_prop in Hd as [Hc _]. split.
  - destruct (re_match CANDLINE_REGEX _) as [[g s']|] eqn:E; [|reflexivity]. apply candline_first in E as [r E].
    inversion E; subst. vm_compute in Hc. discriminate.
  - destruct (re_match METADATA_REGEX _) as [[g s']|] eqn:E; [|reflexivity]. apply metadata_first in E as [r E].
    inversion E; subst. vm_compute in Hc. discriminate.
Qed.

Definition vid_match (lc : option str) : option str :=
  match lc with
  | Some c => match re_match VOTERID_REGEX c with Some (g, _) => Some (group 2 g) | None => None end
  | None => None
  end.

Lemma strip_prefix_spec p s r : strip_prefix p s = Some r <-> s = p ++ r.
Proof.
  revert s; induction p as [|x p IH]; intro s; cbn; [split; congruence|].
  destruct s as [|y s]; [split; discriminate|]. destruct (N.eqb_spec x y) as [->|n].
  - rewrite IH. split; [intros ->; reflexivity|intro E; inversion E; reflexivity].
  - split; [discriminate|intro E; inversion E; congruence].
Qed.

Lemma star_go_exact {R} p (k : str -> option R) a b x :
  forallb p a = true -> stops p b -> k b = Some x -> star_go p k (a ++ b) = Some x.
Proof.
  induction a as [|c a IH]; cbn [app forallb star_go]; intros Ha Hb Hk.
  - destruct b as [|c b]; cbn [star_go]; [exact Hk|]. cbn in Hb. rewrite Hb. exact Hk.
  - apply andb_prop in Ha as [Hc Ha]. rewrite Hc, IH by assumption. reflexivity.
Qed.

Lemma rm_word {R} w s cs (k : str -> caps -> option R) : rm (RWord w) (w ++ s) cs k = k s cs.
Proof.
  revert s cs; induction w as [|c w IH]; intros s cs; cbn [RWord rm app]; [reflexivity|].
  unfold RLit. cbn [rm]. rewrite N.eqb_refl. apply IH.
Qed.

Lemma vid_match_ok lc : vid_match lc = voter_id lc.
Proof.
  destruct lc as [c|]; [|reflexivity]. unfold vid_match, voter_id.
  destruct (strip_prefix (u "##VID:") c) as [r|] eqn:Ep.
  - apply strip_prefix_spec in Ep. subst c.
    unfold VOTERID_REGEX, RSeqs, re_match. cbn [rm]. rewrite rm_word.
    destruct (take_drop (fun x => negb (is_space x)) r) as (Er&H1&H2).
    destruct (take_while _ r) as [|x t]; cbn [forallb] in H1;
      generalize dependent (drop_while (fun x => negb (is_space x)) r); intros b Er H2; subst r.
    + cbn [app]. unfold RPlus. destruct b as [|y q]; cbn [rm]; [reflexivity|].
      cbn in H2. unfold non_space. rewrite H2. reflexivity.
    + apply andb_prop in H1 as [Hx H1]. unfold RPlus. cbn [rm app]. unfold non_space at 1. rewrite Hx.
      erewrite (star_go_exact non_space _ t b); [|exact H1|exact H2|reflexivity].
      cbn [group Nat.eqb]. f_equal. rewrite app_comm_cons. apply firstn_pre.
  - rewrite re_match_none; [reflexivity|]. intros s' g M. unfold VOTERID_REGEX, RSeqs in M.
    rewrite rmat_seq_inv in M. destruct M as (s1&g1&M&_).
    rewrite rmat_grp_inv in M. destruct M as (a&h1&Ea&->&M). rewrite rmat_word_inv in M. destruct M as [M _].
    apply strip_prefix_spec in M. congruence.
Qed.
