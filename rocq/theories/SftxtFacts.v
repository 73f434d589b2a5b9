(** * SftxtFacts: reading fixed-width lines, grouping ballot images *)

From Coq Require Import Lia.
From Verif Require Import PyBase PyFacts Jabmod Spec Regex RegexFacts ParserModel ParserSpec ParserFacts ParserFile ParserText ParserLines TextFacts JsonText JsonFacts RoundtripFile WriterModel DebtallyModel ImportSpec PreflibFacts DebtallyFacts PropsNameq SftxtModel SftxtSpec.
Local Open Scope Z_scope.

Lemma skipn_skipn {A} (a : nat) : forall b (l : list A), skipn a (skipn b l) = skipn (b + a) l.
Proof. induction b as [|b IH]; intro l; [reflexivity|]. destruct l as [|x l]; [destruct a; reflexivity|]. cbn. apply IH. Qed.

(** ** Fixed widths *)
Section Fixed.
Context {R : Type}.
Implicit Types (k : str -> caps -> option R).
Lemma rm_rep n : forall s cs k, ~ In 10%N s -> rm (RRep n any_char) s cs k = if (n <=? length s)%nat then k (skipn n s) cs else None.
Proof.
  induction n as [|n IH]; intros s cs k Hs; [reflexivity|]. destruct s as [|c s]; [reflexivity|].
  change (rm (RRep (S n) any_char) (c :: s) cs k) with (if any_char c then rm (RRep n any_char) s cs k else None).
  assert (Hc : any_char c = true) by (unfold any_char; apply negb_true_iff, N.eqb_neq; intros ->; apply Hs; left; reflexivity).
  rewrite Hc, IH by (intro H; apply Hs; right; exact H). reflexivity.
Qed.
Lemma rm_grp_rep i n s cs k : ~ In 10%N s ->
  rm (RGrp i (RRep n any_char)) s cs k = if (n <=? length s)%nat then k (skipn n s) ((i, firstn n s) :: cs) else None.
Proof.
  intro Hs. change (rm (RGrp i (RRep n any_char)) s cs k) with (rm (RRep n any_char) s cs (fun s' cs' => k s' ((i, firstn (length s - length s') s) :: cs'))).
  rewrite rm_rep by exact Hs. destruct (Nat.leb_spec n (length s)) as [H|H]; [|reflexivity]. rewrite skipn_length.
  replace (length s - (length s - n))%nat with n by lia. reflexivity.
Qed.
Lemma rm_seqs r l s cs k : rm (RSeqs (r :: l)) s cs k = rm r s cs (fun s' cs' => rm (RSeqs l) s' cs' k).
Proof. destruct l; reflexivity. Qed.
End Fixed.

Fixpoint groups_of (i : nat) (ws : list nat) : list regex :=
  match ws with [] => [] | w :: r => RGrp i (RRep w any_char) :: groups_of (S i) r end.
Fixpoint cuts (i : nat) (ws : list nat) (s : str) (cs : caps) : caps :=
  match ws with [] => cs | w :: r => cuts (S i) r (skipn w s) ((i, firstn w s) :: cs) end.
Definition nsum (l : list nat) : nat := fold_right Nat.add 0%nat l.
Lemma match_widths ws : forall i s cs, ~ In 10%N s ->
  (if (nsum ws <=? length s)%nat then Some (cuts i ws s cs, skipn (nsum ws) s) else None) =
  rm (RSeqs (groups_of i ws)) s cs (fun s' cs' => Some (cs', s')).
Proof.
  induction ws as [|w ws IH]; intros i s cs Hs; [reflexivity|]. cbn [groups_of]. rewrite rm_seqs, rm_grp_rep by exact Hs.
  cbn [nsum fold_right cuts]. fold (nsum ws). destruct (Nat.leb_spec w (length s)) as [H|H].
  - rewrite <- IH.
    + rewrite skipn_length. destruct (Nat.leb_spec (w + nsum ws) (length s)) as [H1|H1], (Nat.leb_spec (nsum ws) (length s - w)) as [H2|H2]; try lia; [|reflexivity].
      rewrite skipn_skipn. reflexivity.
    + intro Hin. apply Hs. rewrite <- (firstn_skipn w s). apply in_or_app. right; exact Hin.
  - destruct (Nat.leb_spec (w + nsum ws) (length s)); [lia|reflexivity].
Qed.
Lemma group_cuts_other ws : forall i s cs j, (j < i)%nat -> group j (cuts i ws s cs) = group j cs.
Proof.
  induction ws as [|w ws IH]; intros i s cs j H; [reflexivity|]. cbn [cuts]. rewrite IH by lia. cbn [group]. destruct (Nat.eqb_spec i j); [lia|reflexivity].
Qed.
Fixpoint pieces (ws : list nat) (s : str) : list str :=
  match ws with [] => [] | w :: r => firstn w s :: pieces r (skipn w s) end.
Lemma groups_cuts ws : forall i s cs, map (fun j => group j (cuts i ws s cs)) (seq i (length ws)) = pieces ws s.
Proof.
  induction ws as [|w ws IH]; intros i s cs; [reflexivity|]. cbn [length seq map cuts pieces]. rewrite group_cuts_other by lia. cbn [group]. rewrite Nat.eqb_refl. f_equal. apply IH.
Qed.

Lemma fold_dset_fresh {V} (kvs : list (str * V)) : forall d, NoDup (map fst d ++ map fst kvs) -> fold_left (fun d kv => dset (fst kv) (snd kv) d) kvs d = d ++ kvs.
Proof.
  induction kvs as [|[k v] kvs IH]; intros d H; [rewrite app_nil_r; reflexivity|]. cbn [fold_left fst snd map] in *.
  rewrite dkeys_dset_nIn.
  - rewrite IH; [rewrite <- app_assoc; reflexivity|]. rewrite map_app, <- app_assoc. exact H.
  - intro Hin. apply NoDup_remove_2 in H. apply H. apply in_or_app. left; exact Hin.
Qed.
Lemma combine_seq_fold ns g : forall i d, fold_left (fun d inm => dset (snd inm) (group (fst inm) g) d) (combine (seq i (length ns)) ns) d =
  fold_left (fun d kv => dset (fst kv) (snd kv) d) (combine ns (map (fun j => group j g) (seq i (length ns)))) d.
Proof. induction ns as [|n ns IH]; intros i d; [reflexivity|]. cbn [length seq combine map fold_left fst snd]. apply IH. Qed.

(** ** Field specifications *)
Fixpoint widths (a : N) (fs : list fieldspec) : list nat :=
  match fs with [] => [] | f :: r => (N.to_nat (fs_last f) - N.to_nat a)%nat :: widths (fs_last f) r end.
Lemma widths_length fs : forall a, length (widths a fs) = length fs.
Proof. induction fs as [|f fs IH]; intro a; [reflexivity|]. cbn. rewrite IH. reflexivity. Qed.
Lemma widths_sum fs : forall a, positions_ok a fs -> (N.to_nat a + nsum (widths a fs) = N.to_nat (last_position a fs))%nat.
Proof. induction fs as [|f fs IH]; intros a H; cbn [widths nsum fold_right last_position]; [lia|]. destruct H as (H1&H2). fold (nsum (widths (fs_last f) fs)). specialize (IH _ H2). lia. Qed.
Lemma pieces_fields fs : forall a line s, positions_ok a fs -> s = skipn (N.to_nat a) line -> combine (map fs_name fs) (pieces (widths a fs) s) = fields_from a fs line.
Proof.
  induction fs as [|f fs IH]; intros a line s H ->; [reflexivity|]. destruct H as (H1&H2). cbn [map widths pieces combine fields_from]. f_equal.
  apply IH; [exact H2|]. rewrite skipn_skipn. f_equal. lia.
Qed.

Definition name_plain (s : str) : Prop := one_line s /\ ~ In 44%N s.
Lemma n2s_nocomma n : ~ In 44%N (n2s n). Proof. intro H. apply n2s_chars in H. lia. Qed.
Lemma fs_line_split f : name_plain (fs_name f) -> split_on 44 (fs_line f) = [fs_name f; n2s (fs_last f); n2s (fs_len f)].
Proof.
  intros (_&H). unfold fs_line. cbn [app]. rewrite split_on_app by exact H. rewrite split_on_app by apply n2s_nocomma. rewrite split_on_none by apply n2s_nocomma. reflexivity.
Qed.
Lemma fs_line_one_line f : name_plain (fs_name f) -> one_line (fs_line f).
Proof.
  intros (H&_). unfold fs_line. apply one_line_app; [exact H|]. apply one_line_app; [intros c [<-|[]]; reflexivity|]. apply one_line_app; [apply digits_one_line|].
  apply one_line_app; [intros c [<-|[]]; reflexivity|apply digits_one_line].
Qed.
Definition fs_dict (f : fieldspec) : dict str := [(u "fieldname", fs_name f); (u "lastchar", n2s (fs_last f)); (u "length", n2s (fs_len f))].
Lemma filter_nonempty (ls : list str) : (forall l, In l ls -> l <> []) -> filter (fun l => match l with [] => false | _ => true end) ls = ls.
Proof. induction ls as [|l ls IH]; intro H; [reflexivity|]. cbn [filter]. destruct l; [destruct (H [] (or_introl eq_refl) eq_refl)|]. rewrite IH; [reflexivity|]. intros x Hx; apply H; right; exact Hx. Qed.
Lemma spec_dicts fs : (forall f, In f fs -> name_plain (fs_name f)) -> csv_dicts (fs_text fs) = map fs_dict fs.
Proof.
  intro H. unfold csv_dicts, fs_text. rewrite splitlines_unlines.
  - rewrite filter_nonempty.
    + rewrite map_map. apply map_ext_in. intros f Hf. rewrite fs_line_split by (apply H, Hf). reflexivity.
    + intros l [<-|Hl]; [discriminate|]. apply in_map_iff in Hl as (f&<-&Hf). unfold fs_line. destruct (fs_name f); discriminate.
  - intros l [<-|Hl]; [apply printable_line; reflexivity|]. apply in_map_iff in Hl as (f&<-&Hf). apply fs_line_one_line, H, Hf.
Qed.
Lemma spec_loop_eq fs : forall a i, positions_ok a fs -> (forall f, In f fs -> fs_len f <> 0%N) ->
  spec_loop (Z.of_N a) i (map fs_dict fs) = Ok (groups_of i (widths a fs), map fs_name fs).
Proof.
  induction fs as [|f fs IH]; intros a i H Hl; [reflexivity|]. destruct H as (H1&H2). cbn [map]. cbn [spec_loop].
  change (dget (u "lastchar") (fs_dict f)) with (Some (n2s (fs_last f))). change (dget (u "fieldname") (fs_dict f)) with (Some (fs_name f)). change (dget (u "length") (fs_dict f)) with (Some (n2s (fs_len f))).
  cbn [of_option bind]. rewrite !py_int_n2s. cbn [bind]. rewrite Z.sub_diag.
  destruct (Z.eqb_spec 0 (Z.of_N (fs_len f))) as [E|_]; [exfalso; apply (Hl f (or_introl eq_refl)); lia|].
  rewrite IH; [|exact H2|intros x Hx; apply Hl; right; exact Hx]. cbn [bind widths groups_of]. do 2 f_equal. do 3 f_equal. lia.
Qed.
Lemma spec_read fs : (forall f, In f fs -> name_plain (fs_name f) /\ fs_len f <> 0%N) -> positions_ok 0 fs ->
  sftxt_read_fieldspec (fs_text fs) = Ok (RSeqs (groups_of 1 (widths 0 fs)), map fs_name fs).
Proof.
  intros H Hp. unfold sftxt_read_fieldspec. rewrite spec_dicts by (intros f Hf; apply H, Hf). pose proof (spec_loop_eq fs 0 1 Hp (fun f Hf => proj2 (H f Hf))) as E. change (Z.of_N 0) with 0 in E. rewrite E. reflexivity.
Qed.
Lemma row_read fs line : positions_ok 0 fs -> NoDup (map fs_name fs) -> ~ In 10%N line ->
  read_row (RSeqs (groups_of 1 (widths 0 fs)), map fs_name fs) line =
    if (N.to_nat (last_position 0 fs) <=? length line)%nat then Ok (fields_from 0 fs line) else Err ValueError.
Proof.
  intros Hp Hn Hl. unfold read_row, re_match. cbn [fst snd]. rewrite <- match_widths by exact Hl. rewrite <- (widths_sum fs 0 Hp).
  change (N.to_nat 0) with 0%nat. cbn [Nat.add]. destruct (nsum (widths 0 fs) <=? length line)%nat; [|reflexivity]. f_equal. rewrite combine_seq_fold, map_length, <- (widths_length fs 0), groups_cuts.
  rewrite (pieces_fields fs 0 line line Hp eq_refl). rewrite fold_dset_fresh; [reflexivity|]. cbn [map app].
  assert (E : map fst (fields_from 0 fs line) = map fs_name fs). { generalize 0%N as a. clear. induction fs as [|f fs IH]; intro a; [reflexivity|]. cbn. rewrite IH. reflexivity. }
  rewrite E. exact Hn.
Qed.

(** ** Grouping *)


Lemma field_image x : 
  field (u "Contest_Id") (image_dict x) = Ok (im_contest x) /\ field (u "Pref_Voter_Id") (image_dict x) = Ok (im_voter x) /\ field (u "Serial_Number") (image_dict x) = Ok (im_serial x) /\
  field (u "Tally_Type_Id") (image_dict x) = Ok (im_tally x) /\ field (u "Precinct_Id") (image_dict x) = Ok (im_precinct x) /\ field (u "Vote_Rank") (image_dict x) = Ok (im_rank x) /\
  field (u "Candidate_Id") (image_dict x) = Ok (im_cand x) /\ field (u "Over_Vote") (image_dict x) = Ok (im_over x) /\ field (u "Under_Vote") (image_dict x) = Ok (im_under x).
Proof. repeat split; reflexivity. Qed.
Lemma image_vote_eq pool x : image_vote pool (image_dict x) =
  bind (py_int (im_rank x)) (fun rank => bind (of_option KeyError (dget (im_cand x) pool)) (fun cand =>
    if str_eqb (im_over x) (u "1") && str_eqb (im_under x) (u "1") then Err ValueError
    else Ok (SfVote rank cand (if str_eqb (im_over x) (u "1") then Some (u "overvote") else if str_eqb (im_under x) (u "1") then Some (u "undervote") else None)))).
Proof.
  unfold image_vote. destruct (field_image x) as (_&_&_&_&_&F6&F7&F8&F9). rewrite F6. cbn [bind]. destruct (py_int (im_rank x)); [|reflexivity]. cbn [bind]. rewrite F7. cbn [bind].
  destruct (dget (im_cand x) pool); [|reflexivity]. cbn [of_option bind]. rewrite F8, F9. reflexivity.
Qed.
Lemma image_vote_ok pool x v : image_vote pool (image_dict x) = Ok v <-> line_vote pool x v.
Proof.
  rewrite image_vote_eq. unfold line_vote. split.
  - intro H. apply bind_ok in H as (rank&Er&H). apply bind_ok in H as (cand&Ec&H). destruct (str_eqb (im_over x) (u "1") && str_eqb (im_under x) (u "1")) eqn:Eb; [discriminate|].
    apply ok_inj in H. subst v. cbn [sv_rank sv_cand sv_exception]. split; [exact Er|]. split; [destruct (dget (im_cand x) pool); [apply ok_inj in Ec; subst; reflexivity|discriminate]|]. split; [|reflexivity].
    intros (H1&H2). rewrite H1, H2 in Eb. discriminate.
  - intros (H1&H2&H3&H4). rewrite H1, H2. cbn [bind of_option]. destruct (str_eqb_spec (im_over x) (u "1")) as [E1|E1], (str_eqb_spec (im_under x) (u "1")) as [E2|E2]; cbn [andb];
      [destruct H3; auto|..]; rewrite <- H4; destruct v; reflexivity.
Qed.
Lemma image_vote_err pool x e : image_vote pool (image_dict x) = Err e <-> line_error pool x e.
Proof.
  rewrite image_vote_eq. unfold line_error. destruct (py_int (im_rank x)) as [r|e0] eqn:Er; cbn [bind].
  - destruct (dget (im_cand x) pool) as [c|]; cbn [of_option bind].
    + destruct (str_eqb_spec (im_over x) (u "1")) as [E1|E1], (str_eqb_spec (im_under x) (u "1")) as [E2|E2]; cbn [andb]; split; intro H; try discriminate; try (destruct H as (_&H1&H2); congruence).
      * injection H as <-. auto.
      * destruct H as (->&_). reflexivity.
    + split; intro H; [injection H as <-; reflexivity|subst; reflexivity].
  - assert (Ee : e0 = ValueError).
    { exact (py_int_err _ _ Er). }
    subst e0. split; intro H; [injection H as <-; reflexivity|subst; reflexivity].
Qed.

Definition ballot_for (x : image) (vs : list sf_vote) : sf_ballot :=
  SfBallot (Some (im_contest x)) (Some (im_voter x)) (Some (im_serial x)) (Some (im_tally x)) (Some (im_precinct x)) (Some vs).
Lemma step_other pool contest st x : (forall c, contest = Some c -> im_contest x <> c) -> ballots_step pool contest st (image_dict x) = Ok st.
Proof.
  intro H. destruct st as [done this]. unfold ballots_step. destruct (field_image x) as (F1&_). rewrite F1. cbn [bind].
  destruct contest as [c|]; [|reflexivity]. destruct (str_eqb_spec (im_contest x) c) as [E|E]; [destruct (H c eq_refl E)|reflexivity].
Qed.
Lemma step_mine pool contest done this x : im_contest x = contest ->
  ballots_step pool (Some contest) (done, this) (image_dict x) =
    bind (image_vote pool (image_dict x)) (fun v =>
      if match sb_voter this with Some w => str_eqb w (im_voter x) | None => false end
      then bind (of_option KeyError (sb_votes this)) (fun vs => Ok (done, with_votes this (vs ++ [v])))
      else Ok (match sb_voter this with Some _ => done ++ [this] | None => done end, ballot_for x [v])).
Proof.
  intros <-. unfold ballots_step. destruct (field_image x) as (F1&F2&F3&F4&F5&_). rewrite F1. cbn [bind]. destruct (str_eqb_spec (im_contest x) (im_contest x)) as [_|n]; [|congruence].
  cbn [negb]. rewrite F2. cbn [bind]. destruct (match sb_voter this with Some w => str_eqb w (im_voter x) | None => false end).
  - cbn [bind]. reflexivity.
  - rewrite F3, F4, F5. cbn [bind]. reflexivity.
Qed.

Lemma neighbours_snoc gs g h : neighbours_differ (gs ++ [g]) -> (forall x y, In x g -> In y h -> im_voter x <> im_voter y) -> neighbours_differ ((gs ++ [g]) ++ [h]).
Proof.
  induction gs as [|a gs IH]; intros H1 H2; [cbn; auto|]. cbn [app] in *. destruct gs as [|b gs]; cbn [app] in *; destruct H1 as (H1&H1'); (split; [exact H1|]); apply IH; assumption.
Qed.
Lemma neighbours_last gs g g' : neighbours_differ (gs ++ [g]) -> (forall y, In y g' -> exists x, In x g /\ im_voter x = im_voter y) -> neighbours_differ (gs ++ [g']).
Proof.
  induction gs as [|a gs IH]; intros H1 H2; [exact I|]. cbn [app] in *. destruct gs as [|b gs]; cbn [app] in *; destruct H1 as (H1&H1'); (split; [|apply IH; assumption]).
  - intros x y Hx Hy E. destruct (H2 y Hy) as (z&Hz&Ez). apply (H1 x z Hx Hz). congruence.
  - exact H1.
Qed.

Lemma mine_app c a b : mine c (a ++ b) = mine c a ++ mine c b.
Proof. unfold mine. apply filter_app. Qed.
Definition loop_state (pool : dict (option str)) (contest : str) (p : list image) (st : list sf_ballot * sf_ballot) : Prop :=
  (mine contest p = [] /\ st = ([], emptyballot)) \/
  exists gs g, ballots_of (mine contest p) (gs ++ [g]) /\ Forall2 (ballot_is pool) gs (fst st) /\ ballot_is pool g (snd st).
Definition run (pool : dict (option str)) (contest : option str) (lines : list (result row)) st :=
  foldM (fun st r => bind r (fun line => ballots_step pool contest st line)) lines st.

Lemma loop_step pool contest p x st : loop_state pool contest p st -> good pool contest x ->
  exists st', ballots_step pool (Some contest) st (image_dict x) = Ok st' /\ loop_state pool contest (p ++ [x]) st'.
Proof.
  intros H Hg. destruct (str_eqb_spec (im_contest x) contest) as [E|E].
  - destruct (Hg E) as (v&Hv). pose proof (proj2 (image_vote_ok pool x v) Hv) as Ev. destruct st as [done this].
    rewrite step_mine by exact E. rewrite Ev. cbn [bind].
    assert (Em : mine contest (p ++ [x]) = mine contest p ++ [x]) by (rewrite mine_app; unfold mine at 2; cbn [filter]; destruct (str_eqb_spec (im_contest x) contest); [reflexivity|congruence]).
    destruct H as [(Hp&Est)|(gs&g&(B1&B2&B3)&F&B)].
    + injection Est as -> ->. cbn [emptyballot sb_voter]. eexists. split; [reflexivity|]. right. exists [], [x]. rewrite Em, Hp. split; [|split].
      * split; [reflexivity|]. split; [|exact I]. intros g [<-|[]]. split; [discriminate|]. intros a b0 [<-|[]] [<-|[]]; reflexivity.
      * constructor.
      * exists x, [], [v]. cbn [snd]. split; [reflexivity|]. split; [reflexivity|]. constructor; [exact Hv|constructor].
    + destruct B as (y&r&vs&Eg&Eb&Fv). cbn [fst snd] in *. subst this. cbn [sb_voter sb_votes of_option bind].
      assert (Hone : forall a, In a g -> im_voter a = im_voter y).
      { intros a Ha. apply (B2 g); [apply in_or_app; right; left; reflexivity|exact Ha|rewrite Eg; left; reflexivity]. }
      destruct (str_eqb_spec (im_voter y) (im_voter x)) as [Ey|Ey].
      * eexists. split; [reflexivity|]. right. exists gs, (g ++ [x]). cbn [fst snd]. rewrite Em. split; [|split; [exact F|]].
        -- split; [|split].
           ++ rewrite concat_app. rewrite concat_app in B1. cbn [concat] in *. rewrite app_nil_r in *. rewrite app_assoc, B1. reflexivity.
           ++ intros h Hh. apply in_app_or in Hh as [Hh|[<-|[]]]; [apply B2; apply in_or_app; left; exact Hh|]. split; [rewrite Eg; discriminate|].
              assert (Hall : forall a, In a (g ++ [x]) -> im_voter a = im_voter y) by (intros a Ha; apply in_app_or in Ha as [Ha|[<-|[]]]; [apply Hone, Ha|auto]).
              intros a b0 Ha Hb. rewrite (Hall a Ha), (Hall b0 Hb). reflexivity.
           ++ apply (neighbours_last gs g); [exact B3|]. intros z Hz. apply in_app_or in Hz as [Hz|[<-|[]]]; [exists z; auto|]. exists y. split; [rewrite Eg; left; reflexivity|exact Ey].
        -- exists y, (r ++ [x]), (vs ++ [v]). split; [rewrite Eg; reflexivity|]. split; [reflexivity|]. apply Forall2_app; [exact Fv|constructor; [exact Hv|constructor]].
      * eexists. split; [reflexivity|]. right. exists (gs ++ [g]), [x]. cbn [fst snd]. rewrite Em. split; [|split].
        -- split; [|split].
           ++ rewrite concat_app. cbn [concat]. rewrite B1. reflexivity.
           ++ intros h Hh. apply in_app_or in Hh as [Hh|[<-|[]]]; [apply B2, Hh|]. split; [discriminate|]. intros a b0 [<-|[]] [<-|[]]; reflexivity.
           ++ apply neighbours_snoc; [exact B3|]. intros a b0 Ha [<-|[]]. rewrite (Hone a Ha). exact Ey.
        -- apply Forall2_app; [exact F|]. constructor; [exists y, r, vs; auto|constructor].
        -- exists x, [], [v]. split; [reflexivity|]. split; [reflexivity|]. constructor; [exact Hv|constructor].
  - rewrite step_other by (intros c Ec; injection Ec as <-; exact E). eexists. split; [reflexivity|].
    assert (Em : mine contest (p ++ [x]) = mine contest p) by (rewrite mine_app; unfold mine at 2; cbn [filter]; destruct (str_eqb_spec (im_contest x) contest); [congruence|apply app_nil_r]).
    unfold loop_state. rewrite Em. exact H.
Qed.
Lemma loop_run pool contest xs : forall p st, loop_state pool contest p st -> (forall x, In x xs -> good pool contest x) ->
  exists st', run pool (Some contest) (stream xs) st = Ok st' /\ loop_state pool contest (p ++ xs) st'.
Proof.
  induction xs as [|x xs IH]; intros p st H Hg; [exists st; rewrite app_nil_r; split; [reflexivity|exact H]|].
  destruct (loop_step pool contest p x st H (Hg x (or_introl eq_refl))) as (st1&E1&H1). destruct (IH (p ++ [x]) st1 H1) as (st2&E2&H2); [intros y Hy; apply Hg; right; exact Hy|].
  exists st2. split; [|rewrite <- app_assoc in H2; exact H2]. unfold run, stream. cbn [map foldM]. cbn [bind]. rewrite E1. exact E2.
Qed.
Lemma loop_error pool contest e p x st : loop_state pool contest p st -> im_contest x = contest -> line_error pool x e ->
  ballots_step pool (Some contest) st (image_dict x) = Err e.
Proof. intros _ E H. destruct st as [done this]. rewrite step_mine by exact E. rewrite (proj2 (image_vote_err pool x e) H). reflexivity. Qed.
