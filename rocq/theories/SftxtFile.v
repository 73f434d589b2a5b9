(** * SftxtFile: the whole conversion of San Francisco files *)

From Coq Require Import Lia.
From Verif Require Import PyBase PyFacts Jabmod Spec Regex RegexFacts ParserModel ParserSpec ParserFacts ParserFile ParserText ParserLines TextFacts UrlText JsonText JsonFacts RoundtripFile WriterModel ConsolidateFacts PropsConvert.
From Verif Require Import DebtallyModel ImportSpec PreflibFacts DebtallyFacts SftxtModel SftxtSpec SftxtFacts PropsSftxt.
Local Open Scope Z_scope.

(** ** Tokens *)
Definition token_char (c : N) : bool := alnum c || (c =? 95)%N || (c =? 10)%N.
Lemma underscores_chars s : forall b c, In c (underscores b s) -> alnum c = true \/ c = 95%N.
Proof.
  induction s as [|x s IH]; intros b c H; [destruct H|]. cbn [underscores] in H. destruct (alnum x) eqn:E.
  - destruct H as [<-|H]; [left; exact E|apply (IH _ _ H)].
  - destruct b; [apply (IH _ _ H)|]. destruct H as [<-|H]; [right; reflexivity|apply (IH _ _ H)].
Qed.
Lemma sub_write_in_chars s : forall k c, In c (sub_write_in k s) -> In c s \/ alnum c = true \/ c = 95%N.
Proof.
  induction s as [|x s IH]; intros k c H; [destruct H|]. cbn [sub_write_in] in H. destruct k as [|k].
  - destruct (is_prefix k_write_in (x :: s)).
    + apply in_app_or in H as [H|H]; [cbn in H; right; repeat destruct H as [<-|H]; try destruct H; auto|]. destruct (IH _ _ H); [left; right; assumption|auto].
    + destruct H as [<-|H]; [left; left; reflexivity|]. destruct (IH _ _ H); [left; right; assumption|auto].
  - destruct (IH _ _ H); [left; right; assumption|auto].
Qed.
Lemma firstn_In {A} n : forall (l : list A) x, In x (firstn n l) -> In x l.
Proof. induction n as [|n IH]; intros [|y l] x H; try destruct H as []; [left; assumption|right; apply IH; assumption]. Qed.
Lemma sf_token_chars s c : In c (sf_short_token s) -> alnum c = true \/ c = 95%N \/ (c = 10%N /\ In 10%N s).
Proof.
  unfold sf_short_token. destruct (length s <=? 20)%nat; cbn [andb].
  - destruct (re_match ALNUM_REGEX s) as [[g r]|] eqn:E.
    + intro H. apply re_match_sound in E. unfold ALNUM_REGEX in E. apply rmat_seq_inv in E as (s1&cs1&M&M2). apply rmat_plus_inv in M as (a&Ha&->&Hf&_).
      assert (Hs : forall x, In x s1 -> x = 10%N) by (apply rmat_end_inv in M2 as (_&_&[->| ->]); [intros x []|intros x [<-|[]]; reflexivity]).
      apply in_app_or in H as [H|H]; [left; rewrite forallb_forall in Hf; apply Hf, H|]. right. right. pose proof (Hs c H) as ->. split; [reflexivity|]. apply in_or_app. right; exact H.
    + intro H. apply firstn_In in H. apply sub_write_in_chars in H as [H|[H|H]]; auto. apply underscores_chars in H as [H|H]; auto.
  - intro H. apply firstn_In in H. apply sub_write_in_chars in H as [H|[H|H]]; auto. apply underscores_chars in H as [H|H]; auto.
Qed.
Lemma sf_token_length s : (length (sf_short_token s) <= 20)%nat.
Proof.
  unfold sf_short_token. destruct (_ && _) eqn:E; [apply andb_prop in E as (E&_); apply Nat.leb_le, E|]. rewrite firstn_length. lia.
Qed.
Lemma sf_token_scalar s : forallb scalar (sf_short_token s) = true.
Proof. apply forallb_forall. intros c H. apply sf_token_chars in H as [H|[->|(->&_)]]; [|reflexivity|reflexivity]. unfold alnum in H. unfold scalar. lia. Qed.
Lemma sf_token_not_none s : sf_short_token s <> k_none.
Proof. intro E. assert (H : In 40%N (sf_short_token s)) by (rewrite E; left; reflexivity). apply sf_token_chars in H as [H|[H|(H&_)]]; discriminate. Qed.

(** ** The master file *)
Definition row_of (line : str) : row := fields_from 0 lookup_fields line.
Lemma row_fields line : field (u "Record_Type") (row_of line) = Ok (chars 0 10 line) /\ field (u "Id") (row_of line) = Ok (chars 10 17 line) /\ field (u "Description") (row_of line) = Ok (chars 17 67 line).
Proof. repeat split; reflexivity. Qed.
(** Not in /repo: the description of the last candidate line with this id. *)
Fixpoint last_desc (ls : list lookup) (i : str) : option str :=
  match ls with
  | [] => None
  | x :: r => match last_desc r i with
              | Some n => Some n
              | None => if str_eqb (lk_type x) (u "Candidate") && str_eqb (lk_id x) i then Some (lk_desc x) else None
              end
  end.
Lemma named_last ls i : named ls i = match last_desc ls i with Some n => Some (Some n) | None => if str_eqb i (u "0000000") then Some None else None end.
Proof.
  induction ls as [|x ls IH]; [reflexivity|]. cbn [named last_desc]. rewrite IH. destruct (last_desc ls i); [reflexivity|].
  destruct (str_eqb i (u "0000000")); destruct (str_eqb (lk_type x) (u "Candidate") && str_eqb (lk_id x) i); reflexivity.
Qed.
(** Not in /repo: the id of the first contest line. *)
Fixpoint first_id (ls : list lookup) : option str :=
  match ls with [] => None | x :: r => if str_eqb (lk_type x) (u "Contest") then Some (lk_id x) else first_id r end.
Lemma first_id_contest ls c : first_id ls = Some c <-> first_contest ls c.
Proof.
  split.
  - induction ls as [|x ls IH]; [discriminate|]. cbn [first_id]. destruct (str_eqb_spec (lk_type x) (u "Contest")) as [E|E].
    + intro H. apply some_inj in H. exists [], x, ls. repeat split; auto.
    + intro H. destruct (IH H) as (b0&y&a&->&H1&H2&H3). exists (x :: b0), y, a. repeat split; auto. intros z [<-|Hz]; auto.
  - intros (b0&x&a&->&H1&H2&H3). induction b0 as [|y b0 IH]; cbn [app first_id].
    + rewrite H1, <- H2. reflexivity.
    + destruct (str_eqb_spec (lk_type y) (u "Contest")) as [E|E]; [destruct (H3 y (or_introl eq_refl) E)|]. apply IH. intros z Hz. apply H3. right; exact Hz.
Qed.
Lemma chars_nonempty line : (83 <= length line)%nat -> exists c r, chars 10 17 line = c :: r.
Proof.
  intro H. assert (L : length (chars 10 17 line) = 7%nat).
  { unfold chars. change (N.to_nat 17 - N.to_nat 10)%nat with 7%nat. change (N.to_nat 10) with 10%nat. rewrite firstn_length, skipn_length. lia. }
  destruct (chars 10 17 line) as [|c r]; [discriminate|eauto].
Qed.
Lemma pool_run lines : forall pool0 cid0, (forall l, In l lines -> (83 <= length l)%nat) -> NoDup (dkeys pool0) ->
  exists pool, foldM candpool_step (map row_of lines) (pool0, cid0) =
      Ok (pool, match cid0 with Some (_ :: _) => cid0 | _ => match first_id (map lookup_of lines) with Some c => Some c | None => cid0 end end) /\
    NoDup (dkeys pool) /\
    (forall i, dget i pool = match last_desc (map lookup_of lines) i with Some n => Some (Some n) | None => dget i pool0 end).
Proof.
  induction lines as [|l lines IH]; intros pool0 cid0 H Hn.
  - exists pool0. cbn. split; [|auto]. destruct cid0 as [[|? ?]|]; reflexivity.
  - cbn [map foldM first_id last_desc]. destruct (row_fields l) as (F1&F2&F3). unfold candpool_step at 1. rewrite F1. cbn [bind].
    set (x := lookup_of l). assert (Et : strip (chars 0 10 l) = lk_type x) by reflexivity. rewrite Et.
    destruct (chars_nonempty l (H l (or_introl eq_refl))) as (i0&ir&Ei).
    assert (Hrec : forall l', In l' lines -> (83 <= length l')%nat) by (intros; apply H; right; assumption).
    destruct (str_eqb_spec (lk_type x) (u "Candidate")) as [E|E].
    + rewrite F2, F3. cbn [bind]. destruct (str_eqb_spec (lk_type x) (u "Contest")) as [E'|_]; [exfalso; rewrite E in E'; discriminate|]. cbn [bind andb].
      destruct (IH (dset (chars 10 17 l) (Some (strip (chars 17 67 l))) pool0) cid0 Hrec (NoDup_dset _ _ _ Hn)) as (pool&P1&P2&P3).
      exists pool. split; [exact P1|]. split; [exact P2|]. intro i. rewrite P3. destruct (last_desc (map lookup_of lines) i); [reflexivity|].
      rewrite dget_dset. change (chars 10 17 l) with (lk_id x). change (strip (chars 17 67 l)) with (lk_desc x).
      destruct (str_eqb_spec i (lk_id x)) as [E1|E1], (str_eqb_spec (lk_id x) i) as [E2|E2]; try congruence; reflexivity.
    + cbn [bind andb]. destruct (str_eqb_spec (lk_type x) (u "Contest")) as [E'|E'].
      * destruct cid0 as [[|c0 cr]|].
        -- rewrite F2. cbn [bind]. rewrite Ei. destruct (IH pool0 (Some (i0 :: ir)) Hrec Hn) as (pool&P1&P2&P3). exists pool. change (lk_id x) with (chars 10 17 l). rewrite Ei. split; [exact P1|]. split; [exact P2|].
           intro i. rewrite P3. destruct (last_desc (map lookup_of lines) i); reflexivity.
        -- cbn [bind]. destruct (IH pool0 (Some (c0 :: cr)) Hrec Hn) as (pool&P1&P2&P3). exists pool. split; [exact P1|]. split; [exact P2|]. intro i. rewrite P3. destruct (last_desc (map lookup_of lines) i); reflexivity.
        -- rewrite F2. cbn [bind]. rewrite Ei. destruct (IH pool0 (Some (i0 :: ir)) Hrec Hn) as (pool&P1&P2&P3). exists pool. change (lk_id x) with (chars 10 17 l). rewrite Ei. split; [exact P1|]. split; [exact P2|].
           intro i. rewrite P3. destruct (last_desc (map lookup_of lines) i); reflexivity.
      * cbn [bind]. destruct (IH pool0 cid0 Hrec Hn) as (pool&P1&P2&P3). exists pool. split; [exact P1|]. split; [exact P2|]. intro i. rewrite P3. destruct (last_desc (map lookup_of lines) i); reflexivity.
Qed.
Lemma pool_of lines : (forall l, In l lines -> (83 <= length l)%nat) ->
  exists pool, lookuplines2candpool (map row_of lines) None = Ok (pool, first_id (map lookup_of lines)) /\ NoDup (dkeys pool) /\
    forall i, dget i pool = named (map lookup_of lines) i.
Proof.
  intro H. destruct (pool_run lines [(zero_id, None)] None H) as (pool&P1&P2&P3); [constructor; [intros []|constructor]|].
  exists pool. split; [refine (eq_trans P1 _); destruct (first_id _); reflexivity|]. split; [exact P2|].
  intro i. rewrite P3, named_last. destruct (last_desc _ i); [reflexivity|]. cbn [dget]. fold zero_id. destruct (str_eqb_spec i zero_id); reflexivity.
Qed.

(** ** Votelines *)
Lemma step_token pool verbose x v prefs : line_vote pool x v ->
  prefs_step verbose prefs v = match token_on (fun i => dget i pool) verbose x with Some t => dset t (ranked (sv_rank v)) prefs | None => prefs end.
Proof.
  intros (_&H&_). unfold prefs_step, token_on. rewrite H. destruct (sv_cand v) as [[|c r]|]; cbn [truthy].
  - fold k_none. destruct (str_eqb_spec k_none k_none); [|congruence]. destruct verbose; reflexivity.
  - destruct (str_eqb_spec (sf_short_token (c :: r)) k_none) as [E|_]; [destruct (sf_token_not_none _ E)|]. reflexivity.
  - fold k_none. destruct (str_eqb_spec k_none k_none); [|congruence]. destruct verbose; reflexivity.
Qed.
(** Not in /repo: what the ranks collected from one ballot must be. *)
Definition ranks_of (name_of : str -> option (option str)) (verbose : bool) (g : list image) (prefs : dict pref) : Prop :=
  forall tok p, dget tok prefs = Some p <->
    exists before x after r, g = before ++ x :: after /\ token_on name_of verbose x = Some tok /\ py_int (im_rank x) = Ok r /\ p = ranked r /\
      forall y, In y after -> token_on name_of verbose y <> Some tok.
Lemma ranks_fold pool verbose g : forall vs, Forall2 (line_vote pool) g vs ->
  NoDup (map fst (fold_left (prefs_step verbose) vs [])) /\ ranks_of (fun i => dget i pool) verbose g (fold_left (prefs_step verbose) vs []).
Proof.
  induction g as [|x g IH] using rev_ind; intros vs F.
  - inversion F; subst. cbn [fold_left map]. split; [constructor|]. intros tok p. split; [discriminate|]. intros (b0&x&a&r&E&_). destruct b0; discriminate.
  - apply Forall2_app_inv_l in F as (vs1&vs2&F1&F2&->). inversion F2 as [|? v ? ? Hv F3]; subst. inversion F3; subst. rewrite fold_left_app. cbn [fold_left]. destruct (IH vs1 F1) as (N1&R1).
    set (d := fold_left (prefs_step verbose) vs1 []) in *. rewrite (step_token pool verbose x v d Hv). destruct (token_on (fun i => dget i pool) verbose x) as [t|] eqn:Et.
    + split; [apply (NoDup_dset t); exact N1|]. intros tok p. rewrite dget_dset. destruct Hv as (Hr&_). destruct (str_eqb_spec tok t) as [->|Ne].
      * split.
        -- intro H. apply some_inj in H. subst p. exists g, x, [], (sv_rank v). repeat split; auto.
        -- intros (b0&y&a&r&E&E1&E2&->&E3). destruct a as [|z a] using rev_ind.
           ++ apply app_inj_tail in E as (_&->). rewrite Hr in E2. apply ok_inj in E2. subst r. reflexivity.
           ++ clear IHa. rewrite app_comm_cons, app_assoc in E. apply app_inj_tail in E as (_&->). exfalso. apply (E3 z); [apply in_or_app; right; left; reflexivity|exact Et].
      * rewrite (R1 tok p). split; intros (b0&y&a&r&E&E1&E2&E3&E4).
        -- exists b0, y, (a ++ [x]), r. split; [rewrite E, <- app_assoc; reflexivity|]. repeat split; auto. intros z Hz. apply in_app_or in Hz as [Hz|[<-|[]]]; [apply E4, Hz|]. rewrite Et. congruence.
        -- destruct a as [|z a _] using rev_ind.
           ++ apply app_inj_tail in E as (_&->). congruence.
           ++ rewrite app_comm_cons, app_assoc in E. apply app_inj_tail in E as (->&->). exists b0, y, a, r. repeat split; auto. intros w Hw. apply E4. apply in_or_app. left; exact Hw.
    + split; [exact N1|]. intros tok p. rewrite (R1 tok p). split; intros (b0&y&a&r&E&E1&E2&E3&E4).
      * exists b0, y, (a ++ [x]), r. split; [rewrite E, <- app_assoc; reflexivity|]. repeat split; auto. intros z Hz. apply in_app_or in Hz as [Hz|[<-|[]]]; [apply E4, Hz|]. rewrite Et. discriminate.
      * destruct a as [|z a _] using rev_ind.
        -- apply app_inj_tail in E as (_&->). congruence.
        -- rewrite app_comm_cons, app_assoc in E. apply app_inj_tail in E as (->&->). exists b0, y, a, r. repeat split; auto. intros w Hw. apply E4. apply in_or_app. left; exact Hw.
Qed.
Lemma ballot_line pool verbose g b0 : ballot_is pool g b0 -> exists v, ballot_voteline verbose b0 = Ok v /\ line_of_group (fun i => dget i pool) verbose g v.
Proof.
  intros (x&r&vs&Eg&->&F). unfold ballot_voteline. cbn [sb_votes of_option bind]. eexists. split; [reflexivity|]. unfold line_of_group. cbn [v_qty v_prefs].
  destruct (ranks_fold pool verbose g vs F) as (H1&H2). split; [reflexivity|]. split; [exact H1|exact H2].
Qed.
Lemma ballot_lines pool verbose gs bs : Forall2 (ballot_is pool) gs bs -> exists vs, mapM (ballot_voteline verbose) bs = Ok vs /\ Forall2 (line_of_group (fun i => dget i pool) verbose) gs vs.
Proof.
  induction 1 as [|g b0 gs bs H F IH]; [exists []; split; [reflexivity|constructor]|]. destruct IH as (vs&E&Fv). destruct (ballot_line pool verbose g b0 H) as (v&Ev&Hv).
  exists (v :: vs). cbn [mapM]. rewrite Ev. cbn [bind]. rewrite E. cbn [bind]. split; [reflexivity|constructor; assumption].
Qed.
Lemma line_of_group_ext n1 n2 verbose g v : (forall i, n1 i = n2 i) -> line_of_group n1 verbose g v -> line_of_group n2 verbose g v.
Proof.
  intros E (H1&H2&H3). assert (T : forall x, token_on n1 verbose x = token_on n2 verbose x) by (intro x; unfold token_on; rewrite E; reflexivity).
  split; [exact H1|]. split; [exact H2|]. intros tok p. rewrite (H3 tok p). split; intros (b0&y&a&r&E0&E1&E2&E3&E4); exists b0, y, a, r; (split; [exact E0|]).
  - rewrite <- T. repeat split; auto. intros z Hz. rewrite <- T. apply E4, Hz.
  - rewrite T. repeat split; auto. intros z Hz. rewrite T. apply E4, Hz.
Qed.
Lemma group_line_clean n verbose g v : line_of_group n verbose g v -> clean_line v.
Proof.
  intros (_&H2&H3). split; [exact H2|]. intros c p Hin. apply (dget_In_nodup _ _ _ H2) in Hin. apply H3 in Hin as (b0&x&a&r&_&Et&_&->&_). split; [|split; intros ? E; discriminate E].
  unfold token_on in Et. destruct (n (im_cand x)) as [[[|c0 cr]|]|]; try (destruct verbose; [apply some_inj in Et; subst c; reflexivity|discriminate]).
  apply some_inj in Et. subst c. apply sf_token_scalar.
Qed.

(** ** Success means that everything was fine *)
Lemma foldM_all_ok {S A} (f : S -> A -> result S) l : forall s s', foldM (fun st r => bind r (fun x => f st x)) l s = Ok s' -> exists xs, l = map Ok xs.
Proof.
  induction l as [|r l IH]; intros s s' H; [exists []; reflexivity|]. cbn [foldM] in H. destruct r as [x|e]; [|discriminate]. cbn [bind] in H.
  apply bind_ok in H as (s1&_&H). destruct (IH _ _ H) as (xs&->). exists (x :: xs). reflexivity.
Qed.
Lemma run_good pool contest xs : forall p st st', loop_state pool contest p st -> run pool (Some contest) (stream xs) st = Ok st' -> forall x, In x xs -> good pool contest x.
Proof.
  induction xs as [|x xs IH]; intros p st st' H E y Hy; [destruct Hy|]. unfold run, stream in E. cbn [map foldM bind] in E.
  assert (Hg : good pool contest x).
  { intro Ec. destruct (C50_line_cases pool x) as [Hv|(e&He)]; [exact Hv|]. rewrite (loop_error pool contest e p x st H Ec He) in E. discriminate. }
  destruct Hy as [<-|Hy]; [exact Hg|]. destruct (loop_step pool contest p x st H Hg) as (st1&E1&H1). rewrite E1 in E. cbn [bind] in E. apply (IH (p ++ [x]) st1 st' H1 E y Hy).
Qed.
Lemma no_contest pool lines : run pool None (stream lines) ([], emptyballot) = Ok ([], emptyballot).
Proof. induction lines as [|x lines IH]; [reflexivity|]. unfold run, stream in *. cbn [map foldM bind]. rewrite step_other by discriminate. cbn [bind]. exact IH. Qed.
