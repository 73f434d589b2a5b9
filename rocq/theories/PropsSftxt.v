(** * Properties C50-C52: San Francisco ballot images (abiflib/sftxt.py) *)

From Coq Require Import Lia.
From Verif Require Import PyBase PyFacts Jabmod Spec Regex RegexFacts ParserModel ParserSpec ParserFacts ParserFile ParserText ParserLines PropsParser TextFacts UrlText JsonText JsonFacts RoundtripFile WriterModel ConsolidateFacts PropsConvert.
From Verif Require Import DebtallyModel ImportSpec PreflibFacts DebtallyFacts SftxtModel SftxtSpec SftxtFacts.
Local Open Scope Z_scope.

(** ** C52 *)
(** A usable field specification: plain, different names; positions that do not decrease; lengths not 0. *)
Definition spec_ok (fs : list fieldspec) : Prop :=
  (forall f, In f fs -> one_line (fs_name f) /\ ~ In 44%N (fs_name f) /\ fs_len f <> 0%N) /\ positions_ok 0 fs /\ NoDup (map fs_name fs).
Lemma spec_ok_read fs : spec_ok fs -> sftxt_read_fieldspec (fs_text fs) = Ok (RSeqs (groups_of 1 (widths 0 fs)), map fs_name fs).
Proof. intros (H1&H2&_). apply spec_read; [|exact H2]. intros f Hf. destruct (H1 f Hf) as (A&B&C). split; [split; assumption|exact C]. Qed.
Lemma one_line_no10 l : one_line l -> ~ In 10%N l.
Proof. intros H Hin. specialize (H _ Hin). discriminate. Qed.

(** A whole text: every line is cut into the fields of the specification, field i being the characters
    after position lastchar(i-1) up to position lastchar(i); if some line is shorter than the last
    position: ValueError. *)
Theorem C52_fields_exact : forall fs blob, spec_ok fs ->
  read_sftxt_blob (fs_text fs) blob =
    if forallb (fun line => (N.to_nat (last_position 0 fs) <=? length line)%nat) (splitlines blob)
    then Ok (map (fields_from 0 fs) (splitlines blob)) else Err ValueError.
Proof.
  intros fs blob H. unfold read_sftxt_blob. rewrite (spec_ok_read fs H). cbn [bind]. destruct H as (_&Hp&Hn).
  assert (Hone : forall l, In l (splitlines blob) -> ~ In 10%N l) by (intros l Hl; apply one_line_no10, (splitlines_one_line blob), Hl).
  induction (splitlines blob) as [|l ls IH]; [reflexivity|]. cbn [mapM forallb map].
  rewrite (row_read fs l Hp Hn (Hone l (or_introl eq_refl))). destruct (N.to_nat (last_position 0 fs) <=? length l)%nat; cbn [bind andb]; [|reflexivity].
  rewrite IH by (intros x Hx; apply Hone; right; exact Hx). match goal with |- context [forallb ?p ls] => destruct (forallb p ls) end; reflexivity.
Qed.
Print Assumptions C52_fields_exact.

(** The line-by-line reader gives the same for each line, up to its first failure. *)
Theorem C52_stream_exact : forall fs blob, spec_ok fs -> blob <> [] ->
  read_sftxt_str (fs_text fs) blob =
    map (fun line => if (N.to_nat (last_position 0 fs) <=? length line)%nat then Ok (fields_from 0 fs line) else Err ValueError) (splitlines blob).
Proof.
  intros fs blob H Hb. unfold read_sftxt_str. rewrite (spec_ok_read fs H). destruct H as (_&Hp&Hn). destruct blob as [|c b0]; [congruence|].
  apply map_ext_in. intros l Hl. apply (row_read fs l Hp Hn). apply one_line_no10, (splitlines_one_line (c :: b0)), Hl.
Qed.
Print Assumptions C52_stream_exact.

(** Nothing is lost or repeated: the fields put together are the beginning of the line, up to the last position;
    and each field has as many characters as its positions say. *)
Lemma fields_concat fs : forall a line, positions_ok a fs ->
  concat (map snd (fields_from a fs line)) = firstn (N.to_nat (last_position a fs) - N.to_nat a) (skipn (N.to_nat a) line).
Proof.
  assert (M : forall fs a, positions_ok a fs -> (N.to_nat a <= N.to_nat (last_position a fs))%nat).
  { induction fs0 as [|f fs0 IH]; intros a H; [cbn; lia|]. destruct H as (H1&H2). specialize (IH _ H2). cbn [last_position]. lia. }
  induction fs as [|f fs IH]; intros a line H.
  - cbn [fields_from map concat last_position]. rewrite Nat.sub_diag. reflexivity.
  - destruct H as (H1&H2). cbn [fields_from map concat last_position snd]. rewrite IH by exact H2. specialize (M _ _ H2). unfold chars.
    set (s := skipn (N.to_nat a) line). replace (skipn (N.to_nat (fs_last f)) line) with (skipn (N.to_nat (fs_last f) - N.to_nat a) s).
    + replace (N.to_nat (last_position (fs_last f) fs) - N.to_nat a)%nat with ((N.to_nat (fs_last f) - N.to_nat a) + (N.to_nat (last_position (fs_last f) fs) - N.to_nat (fs_last f)))%nat by lia.
      generalize (N.to_nat (fs_last f) - N.to_nat a)%nat as n, (N.to_nat (last_position (fs_last f) fs) - N.to_nat (fs_last f))%nat as k. clearbody s. clear.
      intros n k. revert s. induction n as [|n IH]; intros s; [reflexivity|]. destruct s as [|c s]; [destruct k; reflexivity|]. cbn. rewrite IH. reflexivity.
    + unfold s. rewrite skipn_skipn. f_equal. lia.
Qed.
Theorem C52_lossless : forall fs line, positions_ok 0 fs ->
  concat (map snd (fields_from 0 fs line)) = firstn (N.to_nat (last_position 0 fs)) line.
Proof. intros fs line H. rewrite fields_concat by exact H. change (N.to_nat 0) with 0%nat. rewrite Nat.sub_0_r. reflexivity. Qed.
Print Assumptions C52_lossless.

(** The two specifications in use. *)
Definition image_fields : list fieldspec :=
  [ FieldSpec (u "Contest_Id") 7 7; FieldSpec (u "Pref_Voter_Id") 16 9; FieldSpec (u "Serial_Number") 23 7; FieldSpec (u "Tally_Type_Id") 26 3;
    FieldSpec (u "Precinct_Id") 33 7; FieldSpec (u "Vote_Rank") 36 3; FieldSpec (u "Candidate_Id") 43 7; FieldSpec (u "Over_Vote") 44 1; FieldSpec (u "Under_Vote") 45 1 ].
Definition lookup_fields : list fieldspec :=
  [ FieldSpec (u "Record_Type") 10 10; FieldSpec (u "Id") 17 7; FieldSpec (u "Description") 67 50; FieldSpec (u "List_Order") 74 7;
    FieldSpec (u "Candidates_Contest_Id") 81 7; FieldSpec (u "Is_WriteIn") 82 1; FieldSpec (u "Is_Provisional") 83 1 ].
Lemma spec_ok_image : spec_ok image_fields.
Proof.
  split; [|split].
  - intros f Hf. repeat destruct Hf as [<-|Hf]; try destruct Hf; (split; [apply printable_line; reflexivity|split; [|discriminate]]); cbn; intuition discriminate.
  - cbn. repeat split; lia.
  - repeat constructor; cbn; intuition discriminate.
Qed.
Lemma spec_ok_lookup : spec_ok lookup_fields.
Proof.
  split; [|split].
  - intros f Hf. repeat destruct Hf as [<-|Hf]; try destruct Hf; (split; [apply printable_line; reflexivity|split; [|discriminate]]); cbn; intuition discriminate.
  - cbn. repeat split; lia.
  - repeat constructor; cbn; intuition discriminate.
Qed.
Lemma image_text : BALLOTIMAGE_FIELDSPEC = fs_text image_fields. Proof. vm_compute. reflexivity. Qed.
Lemma lookup_text : MASTERLOOKUP_FIELDSPEC = fs_text lookup_fields. Proof. vm_compute. reflexivity. Qed.

(** Ballot image lines: characters 1-7 the contest, 8-16 the voter, ..., 45 the undervote flag. *)
Theorem C52_image_lines : forall blob, blob <> [] ->
  read_sftxt_str BALLOTIMAGE_FIELDSPEC blob =
    map (fun line => if (45 <=? length line)%nat then Ok (image_dict (image_of line)) else Err ValueError) (splitlines blob).
Proof. intros blob H. rewrite image_text. exact (C52_stream_exact image_fields blob spec_ok_image H). Qed.
Print Assumptions C52_image_lines.

(** The check of the declared lengths does not work: a specification with wrong lengths is accepted, and
    one declaring length 0 raises IndexError instead of an error naming the field. *)
Theorem C52_length_refuted :
  (exists fs, spec_ok fs /\ (exists f, In f fs /\ fs_len f = 3%N) /\ fs = [FieldSpec (u "A") 7 3] /\
     read_sftxt_blob (fs_text fs) (u "abcdefgh") = Ok [[(u "A", u "abcdefg")]]) /\
  (exists fs, fs = [FieldSpec (u "A") 7 0] /\ read_sftxt_blob (fs_text fs) (u "abcdefgh") = Err IndexError).
Proof.
  split.
  - eexists. split; [|split; [|split; [reflexivity|vm_compute; reflexivity]]].
    + split; [|split; [cbn; repeat split; lia|repeat constructor; cbn; intuition discriminate]]. intros f [<-|[]]. split; [apply printable_line; reflexivity|]. split; [cbn; intuition discriminate|discriminate].
    + eexists. split; [left; reflexivity|reflexivity].
  - eexists. split; [reflexivity|vm_compute; reflexivity].
Qed.
Print Assumptions C52_length_refuted.

(** ** C50 *)
(** The lines of the chosen contest are divided into runs of one voter; each run gives one ballot with
    the votes of its lines, in order.  No line is lost, none is used twice. *)
Theorem C50_grouped : forall pool contest lines, (forall x, In x lines -> good pool contest x) -> mine contest lines <> [] ->
  exists gs bs, convert_to_ballots pool (Some contest) (stream lines) = Ok bs /\ ballots_of (mine contest lines) gs /\ Forall2 (ballot_is pool) gs bs.
Proof.
  intros pool contest lines Hg Hm. destruct (loop_run pool contest lines [] ([], emptyballot)) as ([done this]&E&H); [left; auto|exact Hg|].
  cbn [app] in H. destruct H as [(H&_)|(gs&g&B&F&G)]; [congruence|]. exists (gs ++ [g]), (done ++ [this]). split; [|split; [exact B|]].
  - unfold convert_to_ballots. fold (run pool (Some contest) (stream lines)). unfold run in E. rewrite E. reflexivity.
  - apply Forall2_app; [exact F|constructor; [exact G|constructor]].
Qed.
Print Assumptions C50_grouped.

(** This division is the only one of its kind. *)
Lemma groups_unique : forall lines gs hs, ballots_of lines gs -> ballots_of lines hs -> gs = hs.
Proof.
  assert (P : forall gs hs rest, neighbours_differ gs -> neighbours_differ hs -> (forall g, In g gs -> one_voter g) -> (forall g, In g hs -> one_voter g) -> concat gs = rest -> concat hs = rest -> gs = hs).
  { induction gs as [|g gs IH]; intros hs rest N1 N2 O1 O2 E1 E2.
    - destruct hs as [|h hs]; [reflexivity|]. destruct (O2 h (or_introl eq_refl)) as (H&_). cbn in E1, E2. destruct h; [congruence|]. subst rest. discriminate.
    - destruct hs as [|h hs]. { destruct (O1 g (or_introl eq_refl)) as (H&_). cbn in E1, E2. destruct g; [congruence|]. subst rest. discriminate. }
      cbn [concat] in E1, E2.
      assert (K : forall (g h : list image) gs' hs', one_voter g -> one_voter h -> (forall g', In g' gs' -> one_voter g') -> neighbours_differ (g :: gs') -> neighbours_differ (h :: hs') ->
                    g ++ concat gs' = h ++ concat hs' -> (length g <= length h)%nat -> g = h).
      { clear. intros g h gs' hs' Og Oh Ogs Ng Nh E L.
        assert (Eh : h = g ++ skipn (length g) h).
        { assert (F : firstn (length g) (g ++ concat gs') = firstn (length g) (h ++ concat hs')) by (rewrite E; reflexivity).
          rewrite firstn_app, Nat.sub_diag, firstn_all, firstn_O, app_nil_r in F. rewrite firstn_app in F. replace (length g - length h)%nat with 0%nat in F by lia. rewrite firstn_O, app_nil_r in F.
          rewrite F at 1. symmetry. apply firstn_skipn. }
        remember (skipn (length g) h) as t. clear Heqt. subst h. destruct t as [|x t]; [rewrite app_nil_r; reflexivity|]. exfalso.
        rewrite <- app_assoc in E. apply app_inv_head in E. destruct gs' as [|g' gs']; [discriminate|].
        destruct Og as (Hne&Og). destruct g as [|a g]; [congruence|]. destruct (Ogs g' (or_introl eq_refl)) as (Hn'&_). destruct g' as [|a' g']; [congruence|].
        cbn [concat app] in E. injection E as -> _. destruct Ng as (Ng&_). apply (Ng a x (or_introl eq_refl) (or_introl eq_refl)).
        apply Oh; [left; reflexivity|]. apply in_or_app. right. left; reflexivity. }
      assert (Egh : g = h).
      { destruct (Nat.le_ge_cases (length g) (length h)) as [L|L].
        - apply (K g h gs hs); auto; [apply O1; left; reflexivity|apply O2; left; reflexivity|intros; apply O1; right; assumption|congruence].
        - symmetry. apply (K h g hs gs); auto; [apply O2; left; reflexivity|apply O1; left; reflexivity|intros; apply O2; right; assumption|congruence]. }
      subst h. f_equal. apply (IH hs (concat gs)).
      + destruct gs; [exact I|apply N1].
      + destruct hs; [exact I|apply N2].
      + intros; apply O1; right; assumption.
      + intros; apply O2; right; assumption.
      + reflexivity.
      + rewrite <- E2 in E1. apply app_inv_head in E1. auto. }
  intros lines gs hs (E1&O1&N1) (E2&O2&N2). apply (P gs hs lines); assumption.
Qed.
Theorem C50_grouping_unique : forall lines gs hs, ballots_of lines gs -> ballots_of lines hs -> gs = hs.
Proof. exact groups_unique. Qed.
Print Assumptions C50_grouping_unique.

(** The first line of the contest that stands for no vote ends the conversion, with the error that says why. *)
Theorem C50_bad_line : forall pool contest before x after e, (forall y, In y before -> good pool contest y) -> im_contest x = contest -> line_error pool x e ->
  convert_to_ballots pool (Some contest) (stream (before ++ x :: after)) = Err e.
Proof.
  intros pool contest before x after e Hg Hx He. destruct (loop_run pool contest before [] ([], emptyballot)) as (st&E&H); [left; auto|exact Hg|].
  unfold convert_to_ballots. unfold run in E. unfold stream in *. rewrite map_app, foldM_app, E. cbn [bind map foldM]. rewrite (loop_error pool contest e ([] ++ before) x st H Hx He). reflexivity.
Qed.
Print Assumptions C50_bad_line.

(** Every line of the contest either stands for a vote or is in error. *)
Theorem C50_line_cases : forall pool x, (exists v, line_vote pool x v) \/ (exists e, line_error pool x e).
Proof.
  intros pool x. destruct (image_vote pool (image_dict x)) as [v|e] eqn:E.
  - left. exists v. apply image_vote_ok, E.
  - right. exists e. apply image_vote_err, E.
Qed.
Print Assumptions C50_line_cases.

(** Without a line of the contest the result is not empty: one ballot without any field or vote. *)
Theorem C50_no_lines : forall pool contest lines, mine contest lines = [] ->
  convert_to_ballots pool (Some contest) (stream lines) = Ok [emptyballot].
Proof.
  intros pool contest lines H. unfold convert_to_ballots, stream.
  assert (E : foldM (fun st r => bind r (fun line => ballots_step pool (Some contest) st line)) (map (fun x => Ok (image_dict x)) lines) ([], emptyballot) = Ok ([], emptyballot)).
  { induction lines as [|x lines IH]; [reflexivity|]. cbn [map foldM bind]. unfold mine in H. cbn [filter] in H. destruct (str_eqb_spec (im_contest x) contest) as [Ex|Ex]; [discriminate|].
    rewrite step_other by (intros c Ec; injection Ec as <-; exact Ex). cbn [bind]. apply IH, H. }
  rewrite E. reflexivity.
Qed.
Print Assumptions C50_no_lines.

(** Image lines of two contests; voter 2 has three lines, one of them blank, voter 3 comes back after voter 4. *)
Definition img (c v r cand o un : string) : image := Image (u c) (u v) (u "0000009") (u "001") (u "0000077") (u r) (u cand) (u o) (u un).
Definition sf_pool : dict (option str) := [(u "0000000", None); (u "0000007", Some (u "MARK LENO")); (u "0000008", Some (u "LONDON BREED"))].
Definition sf_images : list image :=
  [ img "0000020" "000000002" "001" "0000007" "0" "0"; img "0000020" "000000002" "002" "0000008" "0" "0"; img "0000020" "000000002" "003" "0000000" "0" "1";
    img "0000020" "000000003" "001" "0000008" "0" "0"; img "0000021" "000000005" "001" "0000099" "1" "1"; img "0000020" "000000003" "002" "0000000" "1" "0";
    img "0000020" "000000004" "001" "0000007" "0" "0"; img "0000020" "000000003" "001" "0000007" "0" "0" ].
Example C50_holds : (forall x, In x sf_images -> good sf_pool (u "0000020") x) /\ mine (u "0000020") sf_images <> [] /\
  exists bs, convert_to_ballots sf_pool (Some (u "0000020")) (stream sf_images) = Ok bs /\
    map sb_voter bs = [Some (u "000000002"); Some (u "000000003"); Some (u "000000004"); Some (u "000000003")].
Proof.
  split; [|split].
  - intros x Hx. repeat destruct Hx as [<-|Hx]; try destruct Hx; intro E; try discriminate E;
      match goal with |- exists v, line_vote ?p ?x v => destruct (image_vote p (image_dict x)) as [v|e] eqn:Ev; [exists v; apply image_vote_ok, Ev|vm_compute in Ev; discriminate Ev] end.
  - vm_compute. discriminate.
  - eexists. split; vm_compute; reflexivity.
Qed.
Example C50_bad : line_error sf_pool (img "0000020" "000000002" "001" "0000099" "0" "0") KeyError /\ line_error sf_pool (img "0000020" "000000002" "001" "0000007" "1" "1") ValueError /\
  line_error sf_pool (img "0000020" "000000002" "xyz" "0000007" "0" "0") ValueError.
Proof. split; [vm_compute; reflexivity|]. split; [vm_compute; auto|vm_compute; reflexivity]. Qed.
