(** * PropsSftxtMain: C71, the script abiflib/sftxt.py *)

From Coq Require Import Lia Permutation.
From Verif Require Import PyBase PyFacts Jabmod Spec Regex ParserModel ParserSpec ParserFacts TextFacts UrlText UrlFacts NameqFacts JsonText JsonFacts JsonParse JsonParseFacts WriterModel ConsolidateFacts PropsConvert.
From Verif Require Import DebtallyModel SftxtModel SftxtSpec SftxtFacts PropsSftxt SftxtFile PropsSftxtFile JabmodJson PropsJson ConvertModel PropsConvertText.
From Verif Require Import IrvModel ResultsJson HtmlModel CliModel PropsCli PropsCliMore PropsFormats ArgvModel ObjModel ObjFacts PropsObj SftxtMainModel.
Local Open Scope Z_scope.

(** ** Specification *)
(** What the image line says: the candidate (None: nobody) and the rank. *)
Definition mark_on (name_of : str -> option (option str)) (x : image) (m : option str * Z) : Prop :=
  name_of (im_cand x) = Some (fst m) /\ py_int (im_rank x) = Ok (snd m).
(** The files are there and fit: lines long enough; [contest] is the one asked for, or the first of the lookup file; it
    has image lines, and each stands for a vote.  The output goes to another file. *)
Record usable (fs : files) (a : sf_args) (lookups : list lookup) (images : list image) (contest : str) : Prop := Usable {
  us_lookup : exists t, sa_lookupfile a <> [] /\ fs (sa_lookupfile a) = Some t /\ (forall l, In l (file_lines t) -> (83 <= length l)%nat) /\ lookups = map lookup_of (file_lines t);
  us_image : exists t, sa_imagefile a <> [] /\ fs (sa_imagefile a) = Some t /\ (forall l, In l (file_lines t) -> (45 <= length l)%nat) /\ images = map image_of (file_lines t);
  us_out : forall o, sa_outfile a = Some o -> o <> sa_lookupfile a /\ o <> sa_imagefile a;
  us_contest : match sa_contestid a with Some (c :: r) => contest = c :: r | _ => first_contest lookups contest end;
  us_some : mine contest images <> [];
  us_votes : forall x, In x (mine contest images) -> votes_for (named lookups) x
}.
(** Where the records go: the file of -o, else standard output. *)
Definition output (a : sf_args) (o : sf_outcome) : option str :=
  match sa_outfile a with Some (c :: r) => so_files o (c :: r) | _ => Some (so_stdout o) end.

(** JSON: the object of one voter's lines. *)
Definition name_json (n : option str) : json := match n with Some s => JStr s | None => JNull end.
Definition mark_json (name_of : str -> option (option str)) (x : image) (j : json) : Prop :=
  exists c r, mark_on name_of x (c, r) /\
    j = JObj ([(u "rank", JInt r); (u "candidate", name_json c)] ++
              (if str_eqb (im_over x) (u "1") then [(u "exception", JStr (u "overvote"))] else if str_eqb (im_under x) (u "1") then [(u "exception", JStr (u "undervote"))] else [])).
Definition group_json (name_of : str -> option (option str)) (g : list image) (j : json) : Prop :=
  exists x r js, g = x :: r /\ Forall2 (mark_json name_of) g js /\
    j = JObj [(u "Contest_Id", JStr (im_contest x)); (u "Pref_Voter_Id", JStr (im_voter x)); (u "Serial_Number", JStr (im_serial x));
              (u "Tally_Type_Id", JStr (im_tally x)); (u "Precinct_Id", JStr (im_precinct x)); (u "votes", JArr js)].

(** The first mark for each candidate. *)
Definition is_name (a b : option str) : bool := match a, b with Some x, Some y => str_eqb x y | None, None => true | _, _ => false end.
Fixpoint first_marks (seen : list (option str)) (ms : list (option str * Z)) : list (option str * Z) :=
  match ms with
  | [] => []
  | (c, r) :: q => if existsb (is_name c) seen then first_marks seen q else (c, r) :: first_marks (c :: seen) q
  end.
(** The candidates on a csv96 line: the first mark's, and of the later ones those that are named and new. *)
Fixpoint new_names (seen : list (option str)) (ms : list (option str * Z)) : list (option str) :=
  match ms with
  | [] => []
  | (Some (x :: s), _) :: q => if existsb (is_name (Some (x :: s))) seen then new_names seen q else Some (x :: s) :: new_names (Some (x :: s) :: seen) q
  | _ :: q => new_names seen q
  end.
Definition csv_names (ms : list (option str * Z)) : list (option str) := match ms with [] => [] | (c, _) :: q => c :: new_names [c] q end.
(** The ids in the order of their numbers: nobody's id, then those of the candidate records. *)
Fixpoint once (seen : list str) (l : list str) : list str :=
  match l with [] => [] | x :: r => if memb x seen then once seen r else x :: once (x :: seen) r end.
Definition numbered_ids (lookups : list lookup) : list str :=
  once [] (u "0000000" :: map lk_id (filter (fun x => str_eqb (lk_type x) (u "Candidate")) lookups)).
Definition has_number (lookups : list lookup) (n : N) (c : option str) : Prop :=
  exists i, nth_error (numbered_ids lookups) (N.to_nat n) = Some i /\ named lookups i = Some c.
Fixpoint numbered_names (lookups : list lookup) (n : N) (ids : list str) : list str :=
  match ids with
  | [] => []
  | i :: r => match named lookups i with Some (Some (x :: s)) => [n2s n ++ u ", " ++ x :: s] | _ => [] end ++ numbered_names lookups (n + 1) r
  end.

(** ** Reading *)
Lemma file_lines_no10 t : forall l, In l (file_lines t) -> ~ In 10%N l.
Proof.
  induction t as [|c t IH]; intros l H; [destruct H|]. cbn [file_lines] in H. destruct (N.eqb_spec c 10) as [->|E].
  - destruct H as [<-|H]; [intros []|apply IH, H].
  - destruct (file_lines t) as [|l0 ls]; destruct H as [<-|H].
    + intros [X|[]]. exact (E X).
    + destruct H.
    + intros [X|Hx]; [exact (E X)|]. apply (IH l0); [left; reflexivity|exact Hx].
    + apply IH. right. exact H.
Qed.
Lemma file_lines_unlines ls : (forall l, In l ls -> ~ In 10%N l) -> file_lines (unlines ls) = ls.
Proof.
  unfold unlines. induction ls as [|l ls IH]; intro H; [reflexivity|]. cbn [flat_map]. rewrite <- app_assoc. cbn [app].
  assert (G : forall l0, ~ In 10%N l0 -> forall r, file_lines (l0 ++ 10%N :: r) = l0 :: file_lines r).
  { induction l0 as [|c l0 IH0]; intros Hl r; cbn [app file_lines]; [reflexivity|]. destruct (N.eqb_spec c 10) as [->|E]; [destruct Hl; left; reflexivity|]. rewrite IH0; [reflexivity|]. intro; apply Hl; right; assumption. }
  rewrite G by (apply H; left; reflexivity). f_equal. apply IH. intros; apply H; right; assumption.
Qed.
Lemma mapM_id_ok {A} (l : list A) : mapM (fun r : result A => r) (map Ok l) = Ok l.
Proof. induction l as [|x l IH]; [reflexivity|]. cbn [map mapM bind]. rewrite IH. reflexivity. Qed.
Lemma lookup_stream fs f t : f <> [] -> fs f = Some t -> (forall l, In l (file_lines t) -> (83 <= length l)%nat) ->
  exhaust (read_sftxt_file MASTERLOOKUP_FIELDSPEC fs f) = Ok (map row_of (file_lines t)).
Proof.
  intros Hf Ht Hl. unfold read_sftxt_file. rewrite lookup_text, (spec_ok_read lookup_fields spec_ok_lookup). destruct f as [|c f]; [congruence|]. rewrite Ht.
  unfold exhaust. rewrite <- mapM_id_ok. f_equal. rewrite map_map. apply map_ext_in. intros l Hin. pose proof spec_ok_lookup as (_&Hp&Hn).
  rewrite (row_read lookup_fields l Hp Hn (file_lines_no10 t l Hin)). specialize (Hl l Hin). apply Nat.leb_le in Hl. change (N.to_nat (last_position 0 lookup_fields)) with 83%nat. rewrite Hl. reflexivity.
Qed.
Lemma image_stream fs f t : f <> [] -> fs f = Some t -> (forall l, In l (file_lines t) -> (45 <= length l)%nat) ->
  read_sftxt_file BALLOTIMAGE_FIELDSPEC fs f = stream (map image_of (file_lines t)).
Proof.
  intros Hf Ht Hl. unfold read_sftxt_file. rewrite image_text, (spec_ok_read image_fields spec_ok_image). destruct f as [|c f]; [congruence|]. rewrite Ht.
  unfold stream. rewrite map_map. apply map_ext_in. intros l Hin. pose proof spec_ok_image as (_&Hp&Hn).
  rewrite (row_read image_fields l Hp Hn (file_lines_no10 t l Hin)). specialize (Hl l Hin). apply Nat.leb_le in Hl. change (N.to_nat (last_position 0 image_fields)) with 45%nat. rewrite Hl. reflexivity.
Qed.

(** ** The generator *)
Lemma step_yields pool cid done this line done1 this1 : ballots_step pool cid (done, this) line = Ok (done1, this1) ->
  done1 = done ++ yielded cid this line /\ ballots_step pool cid ([], this) line = Ok (yielded cid this line, this1).
Proof.
  unfold ballots_step, yielded. destruct (field (u "Contest_Id") line) as [c|e]; [|discriminate]. cbn [bind].
  destruct (match cid with Some c0 => str_eqb c c0 | None => false end); cbn [negb].
  2:{ intro H. injection H as <- <-. split; [destruct (field (u "Pref_Voter_Id") line); rewrite app_nil_r; reflexivity|destruct (field (u "Pref_Voter_Id") line); reflexivity]. }
  destruct (field (u "Pref_Voter_Id") line) as [v|e]; [|discriminate]. cbn [bind].
  destruct (sb_voter this) as [w|]; [destruct (str_eqb w v)|].
  - cbn [bind]. destruct (image_vote pool line) as [x|e]; [|discriminate]. cbn [bind]. destruct (of_option KeyError (sb_votes this)) as [vs|e]; [|discriminate]. cbn [bind]. intro H. injection H as <- <-. rewrite app_nil_r. split; reflexivity.
  - destruct (field (u "Serial_Number") line); [|discriminate]. cbn [bind]. destruct (field (u "Tally_Type_Id") line); [|discriminate]. cbn [bind]. destruct (field (u "Precinct_Id") line); [|discriminate]. cbn [bind].
    destruct (image_vote pool line) as [x|e]; [|discriminate]. cbn [bind sb_votes of_option]. intro H. injection H as <- <-. split; reflexivity.
  - destruct (field (u "Serial_Number") line); [|discriminate]. cbn [bind]. destruct (field (u "Tally_Type_Id") line); [|discriminate]. cbn [bind]. destruct (field (u "Precinct_Id") line); [|discriminate]. cbn [bind].
    destruct (image_vote pool line) as [x|e]; [|discriminate]. cbn [bind sb_votes of_option]. intro H. injection H as <- <-. rewrite app_nil_r. split; reflexivity.
Qed.
Lemma gen_run pool cid lines : forall done this done1 this1, run pool cid lines (done, this) = Ok (done1, this1) ->
  exists l, done1 = done ++ l /\ gen_ballots pool cid this lines = (l ++ [this1], None).
Proof.
  induction lines as [|[line|e] lines IH]; intros done this done1 this1 H; unfold run in H; cbn [foldM bind] in H.
  - injection H as <- <-. exists []. rewrite app_nil_r. split; reflexivity.
  - destruct (ballots_step pool cid (done, this) line) as [[d t]|e] eqn:E; [|discriminate]. cbn [bind] in H. apply step_yields in E as (->&E). apply IH in H as (l&->&G). exists (yielded cid this line ++ l). split; [rewrite app_assoc; reflexivity|].
    cbn [gen_ballots]. rewrite E, G, app_assoc. reflexivity.
  - discriminate.
Qed.
Lemma gen_converted pool cid lines bs : convert_to_ballots pool cid lines = Ok bs -> gen_ballots pool cid emptyballot lines = (bs, None).
Proof.
  unfold convert_to_ballots. intro H. apply bind_ok in H as ([d t]&E&H). apply ok_inj in H. subst bs. apply (gen_run _ _ _ [] emptyballot) in E as (l&->&G). exact G.
Qed.

(** ** The candidate pool *)
Lemma memb_iff x y l1 l2 : (forall z : str, In z l1 <-> In z l2) -> x = y -> memb x l1 = memb y l2.
Proof.
  intros H <-. destruct (memb x l1) eqn:E1, (memb x l2) eqn:E2; try reflexivity.
  - apply memb_In, H, memb_In in E1. congruence.
  - apply memb_In, H, memb_In in E2. congruence.
Qed.
Lemma once_ext l : forall s1 s2, (forall z, In z s1 <-> In z s2) -> once s1 l = once s2 l.
Proof.
  induction l as [|x l IH]; intros s1 s2 H; [reflexivity|]. cbn [once]. rewrite (memb_iff x x s1 s2 H eq_refl). destruct (memb x s2); [apply IH, H|]. f_equal. apply IH.
  intro z. cbn [In]. rewrite H. tauto.
Qed.
Lemma pool_keys lines : forall pool0 cid0 pool cid, foldM candpool_step (map row_of lines) (pool0, cid0) = Ok (pool, cid) ->
  dkeys pool = dkeys pool0 ++ once (dkeys pool0) (map lk_id (filter (fun x => str_eqb (lk_type x) (u "Candidate")) (map lookup_of lines))).
Proof.
  induction lines as [|l lines IH]; intros pool0 cid0 pool cid H; [injection H as <- <-; symmetry; apply app_nil_r|].
  cbn [map foldM] in H. destruct (row_fields l) as (F1&F2&F3). unfold candpool_step at 1 in H. rewrite F1 in H. cbn [bind] in H. rewrite F2, F3 in H. cbn [bind] in H.
  cbn [map filter]. set (x := lookup_of l). change (strip (chars 0 10 l)) with (lk_type x) in H. change (chars 10 17 l) with (lk_id x) in H.
  destruct (str_eqb (lk_type x) (u "Candidate")); cbn [bind] in H; cbn [map].
  - assert (H' : exists cid1, foldM candpool_step (map row_of lines) (dset (lk_id x) (Some (strip (chars 17 67 l))) pool0, cid1) = Ok (pool, cid)).
    { destruct (str_eqb (lk_type x) (u "Contest")); [destruct cid0 as [[|? ?]|]|]; cbn [bind] in H; eexists; exact H. }
    destruct H' as (cid1&H'). apply IH in H'. rewrite H'. clear H H' IH. cbn [once]. destruct (memb (lk_id x) (dkeys pool0)) eqn:E.
    + apply memb_In in E. rewrite (dkeys_dset_In _ _ _ E). reflexivity.
    + assert (E' : ~ In (lk_id x) (dkeys pool0)) by (intro X; apply memb_In in X; congruence). assert (K : dkeys (dset (lk_id x) (Some (strip (chars 17 67 l))) pool0) = dkeys pool0 ++ [lk_id x]) by (rewrite dkeys_dset_nIn by exact E'; unfold dkeys; rewrite map_app; reflexivity). rewrite K, <- app_assoc. cbn [app]. do 2 f_equal.
      apply once_ext. intro z. rewrite in_app_iff. cbn [In]. tauto.
  - destruct (str_eqb (lk_type x) (u "Contest")); [destruct cid0 as [[|? ?]|]|]; cbn [bind] in H; apply IH in H; exact H.
Qed.

(** ** Up to the output *)
Definition finish (fs : files) (a : sf_args) (r : str * str * option exn) : sf_outcome :=
  let '(text, printed, e) := r in
  match truthy (sa_outfile a) with
  | Some o => SfOutcome (with_file o text (with_file o [] fs)) printed e
  | None => SfOutcome fs (text ++ printed) e
  end.
Lemma with_file_other o t fs n : n <> o -> with_file o t fs n = fs n.
Proof. intro H. unfold with_file. destruct (str_eqb_spec n o); [congruence|reflexivity]. Qed.
Lemma with_file_same o t fs : with_file o t fs o = Some t.
Proof. unfold with_file. rewrite str_eqb_refl. reflexivity. Qed.
Lemma truthy_some o x : truthy o = Some x -> o = Some x.
Proof. destruct o as [[|c r]|]; cbn [truthy]; congruence. Qed.
Lemma output_finish fs a t p e : output a (finish fs a (t, p, e)) = Some (match truthy (sa_outfile a) with Some _ => t | None => t ++ p end).
Proof. unfold output, finish. destruct (sa_outfile a) as [[|c r]|]; cbn [truthy so_stdout so_files]; [reflexivity| |reflexivity]. apply with_file_same. Qed.
Lemma exn_finish fs a t p e : so_exn (finish fs a (t, p, e)) = e.
Proof. unfold finish. destruct (truthy (sa_outfile a)); reflexivity. Qed.

Lemma main_stage fs a lookups images contest : usable fs a lookups images contest -> exists pool gs bs t1 t2,
  (forall i, dget i pool = named lookups i) /\ NoDup (dkeys pool) /\ dkeys pool = numbered_ids lookups /\ ballots_of (mine contest images) gs /\ Forall2 (ballot_is pool) gs bs /\
  fs (sa_lookupfile a) = Some t1 /\ fs (sa_imagefile a) = Some t2 /\ lookups = map lookup_of (file_lines t1) /\ images = map image_of (file_lines t2) /\
  sftxt_main fs a = finish fs a (sf_body a pool (if sa_imagelines a then (map (fun x => RRow (image_dict x)) images, None) else (map RBallot bs, None)) t1 t2).
Proof.
  intros [(t1&Hf1&Ht1&Hl1&->) (t2&Hf2&Ht2&Hl2&->) Ho Hc Hs Hv].
  destruct (pool_run (file_lines t1) [(zero_id, None)] (sa_contestid a) Hl1) as (pool&P1&P2&P3); [constructor; [intros []|constructor]|].
  assert (P4 : forall i, dget i pool = named (map lookup_of (file_lines t1)) i). { intro i. rewrite P3, named_last. destruct (last_desc _ i); [reflexivity|]. cbn [dget]. fold zero_id. destruct (str_eqb_spec i zero_id); reflexivity. }
  assert (Ec : match sa_contestid a with Some (_ :: _) => sa_contestid a | _ => match first_id (map lookup_of (file_lines t1)) with Some c => Some c | None => sa_contestid a end end = Some contest).
  { destruct (sa_contestid a) as [[|c r]|]; [| subst contest; reflexivity |]; apply first_id_contest in Hc; rewrite Hc; reflexivity. }
  destruct (C50_grouped pool contest (map image_of (file_lines t2))) as (gs&bs&E&B&F); [apply (good_votes pool _ contest _ P4), Hv|exact Hs|].
  exists pool, gs, bs, t1, t2. split; [exact P4|]. split; [exact P2|]. split; [rewrite (pool_keys _ _ _ _ _ P1); reflexivity|]. split; [exact B|]. split; [exact F|]. split; [exact Ht1|]. split; [exact Ht2|]. split; [reflexivity|]. split; [reflexivity|].
  unfold sftxt_main. rewrite (lookup_stream fs _ t1 Hf1 Ht1 Hl1). cbn [bind].
  assert (P5 : lookuplines2candpool (map row_of (file_lines t1)) (sa_contestid a) = Ok (pool, Some contest)) by (refine (eq_trans P1 _); rewrite Ec; reflexivity). rewrite P5.
  set (fs1 := match truthy (sa_outfile a) with Some o => with_file o [] fs | None => fs end).
  assert (E1 : fs1 (sa_lookupfile a) = Some t1). { unfold fs1. destruct (truthy (sa_outfile a)) as [o|] eqn:T; [|exact Ht1]. apply truthy_some in T. destruct (Ho o T) as (N1&_). rewrite with_file_other by (intro X; apply N1; symmetry; exact X). exact Ht1. }
  assert (E2 : fs1 (sa_imagefile a) = Some t2). { unfold fs1. destruct (truthy (sa_outfile a)) as [o|] eqn:T; [|exact Ht2]. apply truthy_some in T. destruct (Ho o T) as (_&N1). rewrite with_file_other by (intro X; apply N1; symmetry; exact X). exact Ht2. }
  rewrite E1, E2, (image_stream fs1 _ t2 Hf2 E2 Hl2).
  assert (Er : gen_records (sa_imagelines a) pool (Some contest) (stream (map image_of (file_lines t2))) = if sa_imagelines a then (map (fun x => RRow (image_dict x)) (map image_of (file_lines t2)), None) else (map RBallot bs, None)).
  { unfold gen_records. destruct (sa_imagelines a).
    - clear. generalize (map image_of (file_lines t2)) as xs. induction xs as [|x xs IH]; [reflexivity|]. unfold stream in *. cbn [map gen_rows]. rewrite IH. reflexivity.
    - rewrite (gen_converted _ _ _ _ E). reflexivity. }
  rewrite Er. unfold finish, fs1. destruct (sf_body _ _ _ _ _) as [[text printed] e]. destruct (truthy (sa_outfile a)); reflexivity.
Qed.

(** ** Marks *)
Lemma Forall2_same_length {A B} {R : A -> B -> Prop} {l l'} (F : Forall2 R l l') : length l = length l'.
Proof. induction F; cbn [length]; congruence. Qed.
Lemma is_name_eq a b : is_name a b = true <-> a = b.
Proof. destruct a as [x|], b as [y|]; cbn [is_name]; try (split; [discriminate|discriminate]); [|split; reflexivity]. rewrite str_eqb_eq. split; [intros ->; reflexivity|congruence]. Qed.
Lemma name_eqb_is a b : name_eqb a b = is_name a b. Proof. reflexivity. Qed.
Definition vote_mark (v : sf_vote) : option str * Z := (sv_cand v, sv_rank v).
Lemma marks_of pool name_of g vs : (forall i, dget i pool = name_of i) -> Forall2 (line_vote pool) g vs -> Forall2 (mark_on name_of) g (map vote_mark vs).
Proof.
  intros E F. induction F as [|x v g vs (H1&H2&_) F IH]; [constructor|]. constructor; [|exact IH]. split; cbn [fst snd vote_mark]; [rewrite <- E; exact H2|exact H1].
Qed.
Lemma kept_first v0 v1 v2 : keep_first v2 (keep_first v1 [(sv_cand v0, sv_rank v0)]) = first_marks [] (map vote_mark [v0; v1; v2]).
Proof.
  unfold keep_first. cbn [map vote_mark first_marks existsb oget oset]. rewrite !name_eqb_is. destruct (is_name (sv_cand v1) (sv_cand v0)) eqn:E1; cbn [oget orb].
  - rewrite !name_eqb_is. destruct (is_name (sv_cand v2) (sv_cand v0)) eqn:E2; cbn [orb oset]; rewrite ?name_eqb_is, ?E2; reflexivity.
  - rewrite !name_eqb_is. destruct (is_name (sv_cand v2) (sv_cand v0)) eqn:E2, (is_name (sv_cand v2) (sv_cand v1)) eqn:E3; cbn [orb]; do 3 (cbn [oset oget]; rewrite ?name_eqb_is, ?E2, ?E3); reflexivity.
Qed.
Lemma votes_three {A} (vs : list A) : (3 <= length vs)%nat -> exists v0 v1 v2 r, vs = v0 :: v1 :: v2 :: r.
Proof. destruct vs as [|v0 [|v1 [|v2 r]]]; cbn [length]; intro H; try lia. eauto. Qed.
Lemma url_line_three pool name_of g b : (forall i, dget i pool = name_of i) -> ballot_is pool g b -> (3 <= length g)%nat ->
  exists ms, Forall2 (mark_on name_of) g ms /\ url_line (RBallot b) = urlencode (first_marks [] (firstn 3 ms)).
Proof.
  intros E (x&r&vs&_&->&F) H. exists (map vote_mark vs). split; [apply (marks_of pool); assumption|]. rewrite (Forall2_same_length F) in H. destruct (votes_three vs H) as (v0&v1&v2&q&->).
  unfold url_line. cbn [rec_votes sb_votes of_option bind vote_at nth_error]. rewrite kept_first. reflexivity.
Qed.
Lemma short_line pool g b line : ballot_is pool g b -> (length g < 3)%nat -> line = url_line \/ (exists revcand, line = csv96_line revcand /\ forall i c, dget i pool = Some c -> oget c revcand <> None) -> line (RBallot b) = Err IndexError.
Proof.
  intros (x&r&vs&->&->&F) H L. rewrite (Forall2_same_length F) in H. inversion F as [|? v ? vs' Hv F']; subst. cbn [length] in H.
  destruct L as [-> |(revcand&->&K)].
  - unfold url_line. cbn [rec_votes sb_votes of_option bind vote_at nth_error]. destruct vs' as [|v1 [|v2 q]]; [reflexivity|reflexivity|cbn [length] in H; lia].
  - unfold csv96_line. cbn [rec_votes sb_votes of_option bind vote_at nth_error]. destruct Hv as (_&Hc&_). destruct (oget (sv_cand v) revcand) as [n|] eqn:E; [|destruct (K _ _ Hc E)]. cbn [of_option bind].
    destruct vs' as [|v1 [|v2 q]]; [reflexivity| |cbn [length] in H; lia]. unfold vote_at. cbn [nth_error of_option bind]. inversion F' as [|? ? ? ? (_&Hc1&_) _]; subst. unfold csv_vote at 1.
    destruct (truthy (sv_cand v1)), (oget (sv_cand v1) [(sv_cand v, sv_rank v)]); try reflexivity. destruct (oget (sv_cand v1) revcand) as [n1|] eqn:E1; [cbn [of_option bind]; reflexivity|destruct (K _ _ Hc1 E1)].
Qed.

(** ** urlencode and parse_qs *)
Definition shown (n : option str) : str := match n with Some s => s | None => u "None" end.
Lemma z2s_quoted z : quote_plus (z2s z) = Ok (z2s z).
Proof.
  apply safe_fixed. apply forallb_forall. intros c Hc. pose proof (z2s_chars z) as G. rewrite forallb_forall in G. specialize (G c Hc). unfold int_char, ascii_digit in G. unfold always_safe, inr. lia.
Qed.
Lemma urlencode_parts ms : (forall m, In m ms -> forallb scalar (shown (fst m)) = true) ->
  exists ps, urlencode ms = Ok (join [38%N] ps) /\ Forall2 part_of (map (fun m => (shown (fst m), snd m)) ms) ps.
Proof.
  intro H. unfold urlencode.
  assert (G : exists ps, mapM (fun kv => bind (quote_plus (str_of (fst kv))) (fun k => bind (quote_plus (z2s (snd kv))) (fun v => Ok (k ++ [61%N] ++ v)))) ms = Ok ps /\ Forall2 part_of (map (fun m => (shown (fst m), snd m)) ms) ps).
  { induction ms as [|m ms IH]; [exists []; split; [reflexivity|constructor]|]. destruct IH as (ps&E&F); [intros; apply H; right; assumption|].
    destruct (quote_plus_ok (shown (fst m)) (H m (or_introl eq_refl))) as (q&Hq&_). exists ((q ++ [61%N] ++ z2s (snd m)) :: ps). split.
    - cbn [mapM]. change (str_of (fst m)) with (shown (fst m)). rewrite Hq. cbn [bind]. rewrite z2s_quoted. cbn [bind]. rewrite E. reflexivity.
    - cbn [map]. constructor; [|exact F]. exists q. split; [exact Hq|reflexivity]. }
  destruct G as (ps&E&F). exists ps. rewrite E. split; [reflexivity|exact F].
Qed.
Lemma first_marks_nodup ms : forall seen, NoDup (map fst (first_marks seen ms)) /\ (forall m, In m (first_marks seen ms) -> In m ms /\ ~ In (fst m) seen).
Proof.
  induction ms as [|[c r] ms IH]; intro seen; [split; [constructor|intros m []]|]. cbn [first_marks]. destruct (existsb (is_name c) seen) eqn:E.
  - destruct (IH seen) as (A&B). split; [exact A|]. intros m Hm. destruct (B m Hm). split; [right; assumption|assumption].
  - assert (Hc : ~ In c seen). { intro X. assert (Y : existsb (is_name c) seen = true) by (apply existsb_exists; exists c; split; [exact X|apply is_name_eq; reflexivity]). congruence. }
    destruct (IH (c :: seen)) as (A&B). split.
    + cbn [map fst]. constructor; [|exact A]. intro X. apply in_map_iff in X as (m&Em&Hm). destruct (B m Hm) as (_&N). apply N. left. symmetry. exact Em.
    + intros m [<-|Hm]; [split; [left; reflexivity|exact Hc]|]. destruct (B m Hm) as (B1&B2). split; [right; exact B1|]. intro X. apply B2. right. exact X.
Qed.
Lemma url_parsed ms : (forall m, In m ms -> forallb scalar (shown (fst m)) = true /\ fst m <> Some (u "None")) ->
  exists line, urlencode (first_marks [] ms) = Ok line /\ ~ In 10%N line /\ parse_qs line = map (fun m => (shown (fst m), [z2s (snd m)])) (first_marks [] ms).
Proof.
  intro H. destruct (first_marks_nodup ms []) as (N&I).
  destruct (urlencode_parts (first_marks [] ms)) as (ps&E&F); [intros m Hm; apply H, I, Hm|]. exists (join [38%N] ps). split; [exact E|]. split.
  - assert (G : forall p, In p ps -> ~ In 10%N p).
    { intros p Hp Hin. assert (exists kv, part_of kv p) as (kv&Hk). { clear - F Hp. induction F as [|a b l l' Hab _ IH]; [destruct Hp|]. destruct Hp as [<-|Hp]; [exists a; exact Hab|exact (IH Hp)]. }
      destruct Hk as (q&Hq&->). apply in_app_or in Hin as [Hin|[Hin|Hin]].
      - pose proof (quote_plus_chars _ _ Hq) as C. rewrite forallb_forall in C. specialize (C _ Hin). discriminate C.
      - discriminate.
      - pose proof (z2s_chars (snd kv)) as C. rewrite forallb_forall in C. specialize (C _ Hin). discriminate C. }
    clear - G. induction ps as [|p ps IH]; [intros []|]. destruct ps as [|p' ps]; [cbn [join]; apply G; left; reflexivity|].
    change (join [38%N] (p :: p' :: ps)) with (p ++ [38%N] ++ join [38%N] (p' :: ps)). intro X. apply in_app_or in X as [X|[X|X]]; [exact (G p (or_introl eq_refl) X)|discriminate|]. apply IH in X; [exact X|]. intros q Hq. apply G. right. exact Hq.
  - unfold parse_qs. rewrite (parse_parts _ _ F). rewrite map_map. cbn [fst snd]. rewrite parse_qs_nodup.
    + rewrite app_nil_l, map_map. reflexivity.
    + rewrite map_map. cbn [fst].
      assert (Hall : forall m, In m (first_marks [] ms) -> fst m <> Some (u "None")) by (intros m Hm; apply H, I, Hm). clear - N Hall. induction (first_marks [] ms) as [|m l IH]; [constructor|]. cbn [map] in *. inversion N as [|? ? N1 N2]; subst. constructor; [|apply IH; [exact N2|intros; apply Hall; right; assumption]].
      intro X. apply in_map_iff in X as (m'&Em&Hm'). apply N1. apply in_map_iff. exists m'. split; [|exact Hm']. pose proof (Hall m (or_introl eq_refl)) as A1. pose proof (Hall m' (or_intror Hm')) as A2. destruct (fst m) as [s|], (fst m') as [s'|]; cbn [shown] in Em; congruence.
    + intros k _ [].
Qed.

(** ** Numbers *)
Lemma oget_oset {V} k k' (v : V) d : oget k (oset k' v d) = if is_name k k' then Some v else oget k d.
Proof.
  induction d as [|[k0 w] d IH]; cbn [oset oget]; rewrite ?name_eqb_is.
  - destruct (is_name k k') eqn:E; reflexivity.
  - destruct (is_name k' k0) eqn:E0; cbn [oget]; rewrite ?name_eqb_is.
    + apply is_name_eq in E0. subst k0. destruct (is_name k k'); reflexivity.
    + rewrite IH. destruct (is_name k k0) eqn:E1; [|reflexivity]. destruct (is_name k k') eqn:E2; [|reflexivity]. apply is_name_eq in E1, E2. subst. rewrite (proj2 (is_name_eq k0 k0) eq_refl) in E0. discriminate.
Qed.
Lemma rev_cands_get pool c : forall n t, (exists idx i, nth_error pool idx = Some (i, c) /\ oget c (rev_cands n pool t) = Some (n + N.of_nat idx)%N) \/ (~ In c (map snd pool) /\ oget c (rev_cands n pool t) = oget c t).
Proof.
  induction pool as [|[i name] pool IH]; intros n t; cbn [rev_cands]; [right; split; [intros []|reflexivity]|].
  destruct (IH (n + 1)%N (oset name n t)) as [(idx&i'&E1&E2)|(N1&E)].
  - left. exists (S idx), i'. split; [exact E1|]. rewrite E2. f_equal. lia.
  - rewrite oget_oset in E. destruct (is_name c name) eqn:X.
    + apply is_name_eq in X. subst name. left. exists 0%nat, i. split; [reflexivity|]. rewrite E. f_equal. lia.
    + right. split; [|exact E]. intros [Y|Y]; [|exact (N1 Y)]. cbn [snd] in Y. subst name. rewrite (proj2 (is_name_eq c c) eq_refl) in X. discriminate.
Qed.
Lemma number_found pool lookups i c : (forall i, dget i pool = named lookups i) -> NoDup (dkeys pool) -> dkeys pool = numbered_ids lookups -> dget i pool = Some c ->
  exists n, oget c (rev_cands 0 pool []) = Some n /\ has_number lookups n c.
Proof.
  intros P N K H. destruct (rev_cands_get pool c 0 []) as [(idx&i'&E1&E2)|(N1&_)].
  - exists (N.of_nat idx). split; [rewrite E2; f_equal; lia|]. exists i'. rewrite Nat2N.id, <- K. unfold dkeys. split; [rewrite nth_error_map, E1; reflexivity|]. rewrite <- P. apply dget_In_nodup; [exact N|]. apply nth_error_In in E1. exact E1.
  - exfalso. apply N1. apply dget_In in H. apply in_map_iff. exists (i, c). split; [reflexivity|exact H].
Qed.
Lemma new_names_step seen c r q : new_names seen ((c, r) :: q) =
  if match c with Some (_ :: _) => negb (existsb (is_name c) seen) | _ => false end then c :: new_names (c :: seen) q else new_names seen q.
Proof. destruct c as [[|x s]|]; cbn [new_names]; [reflexivity| |reflexivity]. exact (match existsb (is_name (Some (x :: s))) seen as t return (if t then new_names seen q else Some (x :: s) :: new_names (Some (x :: s) :: seen) q) = (if negb t then Some (x :: s) :: new_names (Some (x :: s) :: seen) q else new_names seen q) with true => eq_refl | false => eq_refl end). Qed.
Lemma csv_line_three pool lookups g b : (forall i, dget i pool = named lookups i) -> NoDup (dkeys pool) -> dkeys pool = numbered_ids lookups -> ballot_is pool g b -> (3 <= length g)%nat ->
  exists ms ns, Forall2 (mark_on (named lookups)) g ms /\ csv96_line (rev_cands 0 pool []) (RBallot b) = Ok (join [62%N] (map n2s ns)) /\ Forall2 (has_number lookups) ns (csv_names (firstn 3 ms)).
Proof.
  intros P N K (x&r&vs&_&->&F) H. pose proof (marks_of pool (named lookups) g vs P F) as M. rewrite (Forall2_same_length F) in H. destruct (votes_three vs H) as (v0&v1&v2&q&->).
  assert (Hn : forall v, In v (v0 :: v1 :: v2 :: q) -> exists n, oget (sv_cand v) (rev_cands 0 pool []) = Some n /\ has_number lookups n (sv_cand v)).
  { intros v Hv. assert (exists y, line_vote pool y v) as (y&_&Hy&_). { clear - F Hv. induction F as [|a c l l' Hab _ IH]; [destruct Hv|]. destruct Hv as [<-|Hv]; [exists a; exact Hab|exact (IH Hv)]. }
    apply (number_found pool lookups (im_cand y)); assumption. }
  destruct (Hn v0 (or_introl eq_refl)) as (n0&E0&H0). destruct (Hn v1 (or_intror (or_introl eq_refl))) as (n1&E1&H1). destruct (Hn v2 (or_intror (or_intror (or_introl eq_refl)))) as (n2&E2&H2).
  eexists. unfold csv96_line. cbn [rec_votes sb_votes of_option bind vote_at nth_error]. rewrite E0. cbn [of_option bind].
  set (k1 := match truthy (sv_cand v1), oget (sv_cand v1) [(sv_cand v0, sv_rank v0)] with Some _, None => true | _, _ => false end).
  assert (S1 : csv_vote (rev_cands 0 pool []) v1 ([(sv_cand v0, sv_rank v0)], n2s n0) = Ok (if k1 then ([(sv_cand v0, sv_rank v0); (sv_cand v1, sv_rank v1)], n2s n0 ++ u ">" ++ n2s n1) else ([(sv_cand v0, sv_rank v0)], n2s n0))).
  { unfold csv_vote, k1. destruct (truthy (sv_cand v1)); [|reflexivity]. cbn [oget oset]. destruct (name_eqb (sv_cand v1) (sv_cand v0)); [reflexivity|]. rewrite E1. reflexivity. }
  rewrite S1. cbn [bind].
  set (seen := if k1 then [sv_cand v1; sv_cand v0] else [sv_cand v0]).
  set (k2 := match truthy (sv_cand v2) with Some _ => negb (existsb (is_name (sv_cand v2)) seen) | None => false end).
  exists (n0 :: (if k1 then [n1] else []) ++ (if k2 then [n2] else [])). split; [exact M|].
  assert (S2 : exists o, csv_vote (rev_cands 0 pool []) v2 (if k1 then ([(sv_cand v0, sv_rank v0); (sv_cand v1, sv_rank v1)], n2s n0 ++ u ">" ++ n2s n1) else ([(sv_cand v0, sv_rank v0)], n2s n0)) = Ok (o, join [62%N] (map n2s (n0 :: (if k1 then [n1] else []) ++ (if k2 then [n2] else []))))).
  { unfold csv_vote, k2, seen. destruct k1; destruct (truthy (sv_cand v2)); cbn [oget existsb]; change name_eqb with is_name; cbv beta iota.
    - destruct (is_name (sv_cand v2) (sv_cand v0)), (is_name (sv_cand v2) (sv_cand v1)); cbn [orb negb]; try (eexists; reflexivity). rewrite E2. eexists. cbn [of_option bind app map join]. rewrite <- !app_assoc. reflexivity.
    - eexists. reflexivity.
    - destruct (is_name (sv_cand v2) (sv_cand v0)); cbn [orb negb]; [eexists; reflexivity|]. rewrite E2. eexists. reflexivity.
    - eexists. reflexivity. }
  destruct S2 as (o&S2). split; [exact (f_equal (fun z => bind z (fun st => Ok (snd st))) S2)|].
  assert (Ek1 : k1 = match sv_cand v1 with Some (_ :: _) => negb (existsb (is_name (sv_cand v1)) [sv_cand v0]) | _ => false end).
  { unfold k1. cbn [oget existsb]. change name_eqb with is_name. generalize (is_name (sv_cand v1) (sv_cand v0)) as t. intro t. destruct (sv_cand v1) as [[|c0 s0]|], t; reflexivity. }
  cbn [map firstn vote_mark csv_names]. constructor; [exact H0|].
  assert (T : new_names [sv_cand v0] [vote_mark v1; vote_mark v2] = (if k1 then [sv_cand v1] else []) ++ (if k2 then [sv_cand v2] else [])).
  { unfold vote_mark. rewrite (new_names_step [sv_cand v0] (sv_cand v1)). rewrite <- Ek1.
    assert (Ek2 : k2 = match sv_cand v2 with Some (_ :: _) => negb (existsb (is_name (sv_cand v2)) seen) | _ => false end).
    { unfold k2. generalize (negb (existsb (is_name (sv_cand v2)) seen)) as t. intro t. destruct (sv_cand v2) as [[|c0 s0]|]; reflexivity. }
    rewrite Ek2. unfold seen. destruct k1; rewrite new_names_step; cbn [new_names app]; match goal with |- context [match sv_cand v2 with _ => _ end] => destruct (match sv_cand v2 with Some (_ :: _) => _ | _ => false end) end; reflexivity. }
  unfold vote_mark in T. refine (eq_ind_r (Forall2 (has_number lookups) _) _ T). apply Forall2_app; [destruct k1; [constructor; [exact H1|constructor]|constructor]|destruct k2; [constructor; [exact H2|constructor]|constructor]].
Qed.

(** ** JSON *)
Lemma vote_json_is pool name_of x v : (forall i, dget i pool = name_of i) -> line_vote pool x v -> mark_json name_of x (vote_json v).
Proof.
  intros E (H1&H2&_&H4). exists (sv_cand v), (sv_rank v). split; [split; [rewrite <- E; exact H2|exact H1]|]. unfold vote_json. rewrite H4. do 2 f_equal.
  destruct (str_eqb (im_over x) (u "1")); [reflexivity|]. destruct (str_eqb (im_under x) (u "1")); reflexivity.
Qed.
Lemma ballots_json pool name_of gs bs : (forall i, dget i pool = name_of i) -> Forall2 (ballot_is pool) gs bs -> Forall2 (group_json name_of) gs (map record_json (map RBallot bs)).
Proof.
  intros E F. rewrite map_map. induction F as [|g b gs bs (x&r&vs&->&->&Fv) F IH]; [constructor|]. constructor; [|exact IH].
  exists x, r, (map vote_json vs). split; [reflexivity|]. split; [|reflexivity]. clear - E Fv. induction Fv as [|y v g vs H F IH]; [constructor|]. constructor; [apply (vote_json_is pool); assumption|exact IH].
Qed.

(** --outputformat json: an array with one object for each voter of the contest, in the order of the file. *)
Theorem C71_json : forall fs a lookups images contest, usable fs a lookups images contest -> sa_outputformat a = u "json" -> sa_imagelines a = false ->
  exists gs js, ballots_of (mine contest images) gs /\ Forall2 (group_json (named lookups)) gs js /\
    output a (sftxt_main fs a) = Some (dumps_indent 4 (JArr js)) /\ so_exn (sftxt_main fs a) = None.
Proof.
  intros fs a lookups images contest U Hf Hi. destruct (main_stage _ _ _ _ _ U) as (pool&gs&bs&t1&t2&P&_&_&B&F&_&_&_&_&E). exists gs, (map record_json (map RBallot bs)). split; [exact B|]. split; [apply (ballots_json pool); assumption|].
  rewrite E, Hi. unfold sf_body. rewrite Hf, str_eqb_refl. cbn [fst snd]. rewrite output_finish, exn_finish, app_nil_r. destruct (truthy (sa_outfile a)); split; reflexivity.
Qed.
Print Assumptions C71_json.

Lemma line_chars t : forall l c, In l (file_lines t) -> In c l -> In c t.
Proof.
  induction t as [|x t IH]; intros l c Hl Hc; [destruct Hl|]. cbn [file_lines] in Hl. destruct (N.eqb x 10).
  - destruct Hl as [<-|Hl]; [destruct Hc|]. right. exact (IH l c Hl Hc).
  - destruct (file_lines t) as [|l0 ls].
    + destruct Hl as [<-|[]]. destruct Hc as [<-|[]]. left. reflexivity.
    + destruct Hl as [<-|Hl]; [destruct Hc as [<-|Hc]; [left; reflexivity|right; apply (IH l0 c); [left; reflexivity|exact Hc]]|]. right. apply (IH l c); [right; exact Hl|exact Hc].
Qed.
Lemma chars_In0 a b0 l c : In c (chars a b0 l) -> In c l.
Proof. unfold chars. intro H. apply firstn_In in H. rewrite <- (firstn_skipn (N.to_nat a) l). apply in_or_app. right; exact H. Qed.
Lemma text_sub t s : text t -> (forall c, In c s -> In c t) -> text s.
Proof. unfold text. rewrite !forallb_forall. intros H S c Hc. apply H, S, Hc. Qed.
Lemma image_texts t x : text t -> In x (map image_of (file_lines t)) -> text (im_contest x) /\ text (im_voter x) /\ text (im_serial x) /\ text (im_tally x) /\ text (im_precinct x).
Proof.
  intros H Hx. apply in_map_iff in Hx as (l&<-&Hl). cbn [image_of im_contest im_voter im_serial im_tally im_precinct].
  repeat split; (apply (text_sub t); [exact H|]); intros c Hc; apply chars_In0 in Hc; apply (line_chars t l c Hl Hc).
Qed.
Lemma named_text ls i s : (forall x, In x ls -> text (lk_desc x)) -> named ls i = Some (Some s) -> text s.
Proof.
  induction ls as [|x ls IH]; cbn [named]; intros H E; [destruct (str_eqb i (u "0000000")); discriminate|].
  destruct (named ls i) as [[n|]|] eqn:En.
  - apply some_inj, some_inj in E. subst n. apply IH; [intros; apply H; right; assumption|reflexivity].
  - destruct (str_eqb (lk_type x) (u "Candidate") && str_eqb (lk_id x) i); [|discriminate]. apply some_inj, some_inj in E. subst s. apply H. left. reflexivity.
  - destruct (str_eqb (lk_type x) (u "Candidate") && str_eqb (lk_id x) i); [|discriminate]. apply some_inj, some_inj in E. subst s. apply H. left. reflexivity.
Qed.
Lemma lookup_texts t x : text t -> In x (map lookup_of (file_lines t)) -> text (lk_desc x).
Proof. intros H Hx. apply in_map_iff in Hx as (l&<-&Hl). cbn [lookup_of lk_desc]. apply (text_sub t); [exact H|]. intros c Hc. apply chars_In in Hc. apply (line_chars t l c Hl Hc). Qed.
Fixpoint nodupb (l : list str) : bool := match l with [] => true | x :: r => negb (memb x r) && nodupb r end.
Lemma NoDup_dec_true l : nodupb l = true -> NoDup l.
Proof. induction l as [|x l IH]; intro H; [constructor|]. cbn [nodupb] in H. apply andb_prop in H as (H1&H2). constructor; [|apply IH, H2]. intro X. apply memb_In in X. rewrite X in H1. discriminate. Qed.
Lemma mark_json_ok name_of x j : (forall i s, name_of i = Some (Some s) -> text s) -> mark_json name_of x j -> json_text_ok j = true /\ nodup_keys j.
Proof.
  intros H (c&r&(Hc&_)&->). cbn [fst] in Hc.
  assert (N : json_text_ok (name_json c) = true). { destruct c as [s|]; [exact (H _ _ Hc)|reflexivity]. }
  assert (M : nodup_keys (name_json c)) by (destruct c; exact I).
  destruct (str_eqb (im_over x) (u "1")); [|destruct (str_eqb (im_under x) (u "1"))]; (split; [cbn [app json_text_ok forallb fst snd]; rewrite N; vm_compute; reflexivity|]); cbn [app nodup_keys map fst].
  1,2: split; [apply NoDup_dec_true; vm_compute; reflexivity|repeat split; exact M].
  split; [apply NoDup_dec_true; vm_compute; reflexivity|repeat split; exact M].
Qed.

Lemma group_json_ok name_of g j : (forall i s, name_of i = Some (Some s) -> text s) -> (forall x, In x g -> text (im_contest x) /\ text (im_voter x) /\ text (im_serial x) /\ text (im_tally x) /\ text (im_precinct x)) ->
  group_json name_of g j -> json_text_ok j = true /\ nodup_keys j.
Proof.
  intros H Hg (x&r&js&->&F&->). destruct (Hg x (or_introl eq_refl)) as (T1&T2&T3&T4&T5). unfold text in *.
  assert (A : forall y, In y js -> json_text_ok y = true /\ nodup_keys y).
  { clear - F H. induction F as [|x0 y0 g0 js M F IH]; [intros y []|]. intros z [<-|Hz]; [exact (mark_json_ok _ _ _ H M)|exact (IH z Hz)]. }
  split.
  - assert (T6 : json_text_ok (JArr js) = true) by (cbn [json_text_ok]; apply forallb_forall; intros y Hy; apply A, Hy).
    cbn [json_text_ok forallb fst snd]. cbn [json_text_ok] in T6. rewrite T1, T2, T3, T4, T5, T6. vm_compute. reflexivity.
  - cbn [nodup_keys map fst]. split; [apply NoDup_dec_true; vm_compute; reflexivity|]. repeat split. clear - A. induction js as [|y js IH]; [exact I|]. split; [apply A; left; reflexivity|apply IH; intros; apply A; right; assumption].
Qed.
(** If the files are Unicode text, json.load gives the array back. *)
Theorem C71_json_read_back : forall fs a lookups images contest gs js, usable fs a lookups images contest ->
  (forall t, fs (sa_lookupfile a) = Some t -> text t) -> (forall t, fs (sa_imagefile a) = Some t -> text t) ->
  ballots_of (mine contest images) gs -> Forall2 (group_json (named lookups)) gs js ->
  json_loads (dumps_indent 4 (JArr js)) = Ok (JArr js).
Proof.
  intros fs a lookups images contest gs js U H1 H2 B F. destruct U as [(t1&_&Ht1&_&->) (t2&_&Ht2&_&->) _ _ _ _]. specialize (H1 _ Ht1). specialize (H2 _ Ht2).
  assert (A : forall y, In y js -> json_text_ok y = true /\ nodup_keys y).
  { assert (G : forall g, In g gs -> forall x, In x g -> In x (map image_of (file_lines t2))).
    { intros g Hg x Hx. assert (Y : In x (mine contest (map image_of (file_lines t2)))) by (destruct B as (<-&_); apply in_concat; exists g; split; assumption). unfold mine in Y. apply filter_In in Y. apply Y. }
    clear - F G H1 H2. induction F as [|g j gs js M F IH]; [intros y []|]. intros y [<-|Hy].
    - apply (group_json_ok (named (map lookup_of (file_lines t1))) g j); [|intros x Hx; apply (image_texts t2); [exact H2|apply (G g); [left; reflexivity|exact Hx]]|exact M].
      intros i s Hn. apply (named_text _ _ _ (fun x Hx => lookup_texts t1 x H1 Hx) Hn).
    - apply IH; [intros; apply (G g0); [right; assumption|assumption]|exact Hy]. }
  apply loads_dumps.
  - cbn [json_text_ok]. apply forallb_forall. intros y Hy. apply A, Hy.
  - cbn [nodup_keys]. clear - A. induction js as [|y js IH]; [exact I|]. split; [apply A; left; reflexivity|apply IH; intros; apply A; right; assumption].
Qed.
Print Assumptions C71_json_read_back.

(** --imagelines: the lines of every contest, whatever --contestid says, each with its nine fields. *)
Theorem C71_imagelines : forall fs a lookups images contest, usable fs a lookups images contest -> sa_imagelines a = true ->
  (sa_outputformat a = u "json" ->
     output a (sftxt_main fs a) = Some (dumps_indent 4 (JArr (map (fun x => JObj
       [(u "Contest_Id", JStr (im_contest x)); (u "Pref_Voter_Id", JStr (im_voter x)); (u "Serial_Number", JStr (im_serial x)); (u "Tally_Type_Id", JStr (im_tally x));
        (u "Precinct_Id", JStr (im_precinct x)); (u "Vote_Rank", JStr (im_rank x)); (u "Candidate_Id", JStr (im_cand x)); (u "Over_Vote", JStr (im_over x)); (u "Under_Vote", JStr (im_under x))]) images))) /\
     so_exn (sftxt_main fs a) = None) /\
  (sa_outputformat a = u "urlencoded" -> output a (sftxt_main fs a) = Some [] /\ so_exn (sftxt_main fs a) = Some KeyError) /\
  (sa_outputformat a = u "csv96" -> so_exn (sftxt_main fs a) = Some KeyError).
Proof.
  intros fs a lookups images contest U Hi. pose proof (us_some _ _ _ _ _ U) as Hs. destruct (main_stage _ _ _ _ _ U) as (pool&gs&bs&t1&t2&_&_&_&_&_&_&_&_&_&E). rewrite E, Hi.
  assert (exists x r, images = x :: r) as (x&r&->) by (destruct images as [|x r]; [destruct Hs; reflexivity|eauto]). split; [|split]; intro Hf.
  - unfold sf_body. rewrite Hf, str_eqb_refl. cbn [fst snd]. rewrite output_finish, exn_finish, app_nil_r, map_map. destruct (truthy (sa_outfile a)); split; reflexivity.
  - unfold sf_body. rewrite Hf. replace (str_eqb (u "urlencoded") (u "json")) with false by reflexivity. replace (str_eqb (u "urlencoded") (u "abif")) with false by reflexivity. replace (str_eqb (u "urlencoded") (u "jabmod")) with false by reflexivity.
    rewrite str_eqb_refl. cbn [fst snd map dump url_line rec_votes bind]. rewrite output_finish, exn_finish. destruct (truthy (sa_outfile a)); split; reflexivity.
  - unfold sf_body. rewrite Hf. replace (str_eqb (u "csv96") (u "json")) with false by reflexivity. replace (str_eqb (u "csv96") (u "abif")) with false by reflexivity. replace (str_eqb (u "csv96") (u "jabmod")) with false by reflexivity. replace (str_eqb (u "csv96") (u "urlencoded")) with false by reflexivity.
    rewrite str_eqb_refl. cbn [fst snd map dump csv96_line rec_votes bind]. rewrite exn_finish. reflexivity.
Qed.
Print Assumptions C71_imagelines.

(** ** Lines *)
Lemma dump_ok line recs ls last : Forall2 (fun r s => line r = Ok s) recs ls -> dump line recs last = (unlines ls, last).
Proof. unfold unlines. intro F. induction F as [|r s recs ls H F IH]; [reflexivity|]. cbn [dump flat_map]. rewrite H, IH, <- app_assoc. reflexivity. Qed.
Lemma dump_fails line recs ls x e rest last : Forall2 (fun r s => line r = Ok s) recs ls -> line x = Err e -> dump line (recs ++ x :: rest) last = (unlines ls, Some e).
Proof. unfold unlines. intros F E. induction F as [|r s recs ls H F IH]; cbn [app dump flat_map]; [rewrite E; reflexivity|]. rewrite H, IH, <- app_assoc. reflexivity. Qed.
(** What a line of the urlencoded output says about a voter's image lines. *)
Definition url_of_group (name_of : str -> option (option str)) (g : list image) (line : str) : Prop :=
  exists ms, Forall2 (mark_on name_of) g ms /\ ~ In 10%N line /\ parse_qs line = map (fun m => (shown (fst m), [z2s (snd m)])) (first_marks [] (firstn 3 ms)).
(** A name that can be told from nobody. *)
Definition plain_name (n : option (option str)) : Prop := forall s, n = Some (Some s) -> text s /\ s <> u "None".
Lemma none_text : text (u "None"). Proof. vm_compute. reflexivity. Qed.
Lemma url_group pool name_of g b : (forall i, dget i pool = name_of i) -> (forall i, plain_name (name_of i)) -> ballot_is pool g b -> (3 <= length g)%nat ->
  exists line, url_line (RBallot b) = Ok line /\ url_of_group name_of g line.
Proof.
  intros E Hn B L. destruct (url_line_three pool name_of g b E B L) as (ms&M&->). destruct (url_parsed (firstn 3 ms)) as (line&E1&E2&E3).
  - intros m Hm. apply firstn_In in Hm. assert (exists x, mark_on name_of x m) as (x&Hx&_). { clear - M Hm. induction M as [|x y l l' H _ IH]; [destruct Hm|]. destruct Hm as [<-|Hm]; [exists x; exact H|exact (IH Hm)]. }
    destruct (fst m) as [s|]; cbn [shown]; [|split; [apply none_text|discriminate]]. destruct (Hn (im_cand x) s Hx) as (T1&T2). split; [exact T1|]. intro X. apply T2. congruence.
  - exists line. split; [exact E1|]. exists ms. auto.
Qed.
Lemma lines_of {P : list image -> str -> Prop} line pool gs bs : Forall2 (ballot_is pool) gs bs -> (forall g b, In g gs -> ballot_is pool g b -> exists s, line (RBallot b) = Ok s /\ P g s) ->
  exists ss, Forall2 P gs ss /\ Forall2 (fun r s => line r = Ok s) (map RBallot bs) ss.
Proof.
  intros F H. induction F as [|g b gs bs B F IH]; [exists []; split; constructor|]. destruct IH as (ss&F1&F2); [intros; apply H; [right; assumption|assumption]|].
  destruct (H g b (or_introl eq_refl) B) as (s&E&Ps). exists (s :: ss). split; constructor; assumption.
Qed.
Lemma split_groups (gs : list (list image)) : (forall g, In g gs -> (3 <= length g)%nat) \/ exists before g after, gs = before ++ g :: after /\ (length g < 3)%nat /\ forall h, In h before -> (3 <= length h)%nat.
Proof.
  induction gs as [|g gs IH]; [left; intros ? []|]. destruct (Nat.lt_ge_cases (length g) 3) as [L|L].
  - right. exists [], g, gs. split; [reflexivity|]. split; [exact L|intros ? []].
  - destruct IH as [IH|(b0&g0&a0&->&H1&H2)].
    + left. intros h [<-|Hh]; [exact L|exact (IH h Hh)].
    + right. exists (g :: b0), g0, a0. split; [reflexivity|]. split; [exact H1|]. intros h [<-|Hh]; [exact L|exact (H2 h Hh)].
Qed.

(** --outputformat urlencoded: one line for each voter with at least three image lines; parse_qs finds on it the ranks of
    the candidates of the first three, a candidate marked twice with the first rank.  The first voter with fewer lines
    ends the program with IndexError; the lines of the voters before are written. *)
Theorem C71_urlencoded : forall fs a lookups images contest, usable fs a lookups images contest -> sa_outputformat a = u "urlencoded" -> sa_imagelines a = false ->
  (forall i, plain_name (named lookups i)) ->
  exists gs ls, ballots_of (mine contest images) gs /\ output a (sftxt_main fs a) = Some (unlines ls) /\
    ((forall g, In g gs -> (3 <= length g)%nat) -> Forall2 (url_of_group (named lookups)) gs ls /\ so_exn (sftxt_main fs a) = None) /\
    (forall before g after, gs = before ++ g :: after -> (length g < 3)%nat -> (forall h, In h before -> (3 <= length h)%nat) ->
       Forall2 (url_of_group (named lookups)) before ls /\ so_exn (sftxt_main fs a) = Some IndexError).
Proof.
  intros fs a lookups images contest U Hf Hi Hn. destruct (main_stage _ _ _ _ _ U) as (pool&gs&bs&t1&t2&P&_&_&B&F&_&_&_&_&E). rewrite E, Hi.
  assert (Eb : forall recs, sf_body a pool (recs, None) t1 t2 = (fst (dump url_line recs None), [], snd (dump url_line recs None))).
  { intro recs. unfold sf_body. rewrite Hf. replace (str_eqb (u "urlencoded") (u "json")) with false by reflexivity. replace (str_eqb (u "urlencoded") (u "abif")) with false by reflexivity. replace (str_eqb (u "urlencoded") (u "jabmod")) with false by reflexivity.
    rewrite str_eqb_refl. cbn [fst snd]. destruct (dump url_line recs None); reflexivity. }
  rewrite Eb, output_finish, exn_finish, app_nil_r.
  assert (Eo : (match truthy (sa_outfile a) with Some _ => fst (dump url_line (map RBallot bs) None) | None => fst (dump url_line (map RBallot bs) None) end) = fst (dump url_line (map RBallot bs) None)) by (destruct (truthy (sa_outfile a)); reflexivity). rewrite Eo. clear Eo Eb E.
  destruct (split_groups gs) as [A|(before&g&after&->&L1&L2)].
  - destruct (lines_of url_line pool gs bs F (P := url_of_group (named lookups))) as (ss&F1&F2); [intros g b Hg Hb; apply (url_group pool); auto|].
    exists gs, ss. rewrite (dump_ok _ _ _ None F2). cbn [fst snd]. split; [exact B|]. split; [reflexivity|]. split; [intros _; split; [exact F1|reflexivity]|].
    intros before g after -> Hl _. specialize (A g (in_elt _ _ _)). lia.
  - apply Forall2_app_inv_l in F as (bs1&bs2&F1&F2&->). inversion F2 as [|? b ? bs3 Hb F3]; subst. rewrite map_app. cbn [map].
    destruct (lines_of url_line pool before bs1 F1 (P := url_of_group (named lookups))) as (ss&G1&G2); [intros h b0 Hh Hb0; apply (url_group pool); auto|].
    exists (before ++ g :: after), ss. rewrite (dump_fails url_line _ _ _ _ _ None G2 (short_line pool g b url_line Hb L1 (or_introl eq_refl))). cbn [fst snd]. split; [exact B|]. split; [reflexivity|]. split.
    + intro A. specialize (A g (in_elt _ _ _)). lia.
    + intros before' g' after' Eg L1' L2'. split; [|reflexivity]. replace before' with before; [exact G1|]. clear - Eg L1 L2 L1' L2'.
      revert before' Eg L2'. induction before as [|h before IH]; intros [|h' before'] Eg L2'.
      * reflexivity.
      * injection Eg as -> _. specialize (L2' h' (or_introl eq_refl)). lia.
      * injection Eg as -> _. specialize (L2 g' (or_introl eq_refl)). lia.
      * injection Eg as -> Eg. f_equal. apply IH; [intros; apply L2; right; assumption|exact Eg|intros; apply L2'; right; assumption].
Qed.
Print Assumptions C71_urlencoded.

(** --outputformat csv96 *)
Lemma header_lines lookups pool : forall n, (forall i c, In (i, c) pool -> named lookups i = Some c) -> csv_header n pool = unlines (numbered_names lookups n (map fst pool)).
Proof.
  induction pool as [|[i c] pool IH]; intros n H; [reflexivity|]. cbn [csv_header map fst numbered_names]. rewrite (H i c (or_introl eq_refl)), (IH (n + 1)%N) by (intros; apply H; right; assumption).
  destruct c as [[|x s]|]; cbn [truthy app]; try reflexivity. unfold unlines. cbn [flat_map]. rewrite <- !app_assoc. cbn [app]. rewrite <- !app_assoc. reflexivity.
Qed.
Lemma rev_cands_known pool i c : dget i pool = Some c -> oget c (rev_cands 0 pool []) <> None.
Proof.
  intros H. destruct (rev_cands_get pool c 0 []) as [(idx&i'&_&E)|(N1&_)]; [rewrite E; discriminate|]. exfalso. apply N1, in_map_iff. exists (i, c). split; [reflexivity|apply dget_In, H].
Qed.
(** What a line says about a voter's image lines: the numbers of the candidates of the first three, in order, each once
    and nobody not at all, except that the first mark always has its number. *)
Definition csv_of_group (lookups : list lookup) (g : list image) (line : str) : Prop :=
  exists ms ns, Forall2 (mark_on (named lookups)) g ms /\ line = join (u ">") (map n2s ns) /\ Forall2 (has_number lookups) ns (csv_names (firstn 3 ms)).
Theorem C71_csv96 : forall fs a lookups images contest, usable fs a lookups images contest -> sa_outputformat a = u "csv96" -> sa_imagelines a = false ->
  exists gs ls, ballots_of (mine contest images) gs /\ output a (sftxt_main fs a) = Some (unlines (numbered_names lookups 0 (numbered_ids lookups) ++ ls)) /\
    ((forall g, In g gs -> (3 <= length g)%nat) -> Forall2 (csv_of_group lookups) gs ls /\ so_exn (sftxt_main fs a) = None) /\
    (forall before g after, gs = before ++ g :: after -> (length g < 3)%nat -> (forall h, In h before -> (3 <= length h)%nat) ->
       Forall2 (csv_of_group lookups) before ls /\ so_exn (sftxt_main fs a) = Some IndexError).
Proof.
  intros fs a lookups images contest U Hf Hi. destruct (main_stage _ _ _ _ _ U) as (pool&gs&bs&t1&t2&P&N&K&B&F&_&_&_&_&E). rewrite E, Hi.
  set (line := csv96_line (rev_cands 0 pool [])).
  assert (Eb : forall recs, sf_body a pool (recs, None) t1 t2 = (csv_header 0 pool ++ fst (dump line recs None), [], snd (dump line recs None))).
  { intro recs. unfold sf_body. rewrite Hf. replace (str_eqb (u "csv96") (u "json")) with false by reflexivity. replace (str_eqb (u "csv96") (u "abif")) with false by reflexivity. replace (str_eqb (u "csv96") (u "jabmod")) with false by reflexivity. replace (str_eqb (u "csv96") (u "urlencoded")) with false by reflexivity.
    rewrite str_eqb_refl. cbn [fst snd]. fold line. destruct (dump line recs None); reflexivity. }
  rewrite Eb, output_finish, exn_finish, app_nil_r.
  assert (Eo : forall x : str, (match truthy (sa_outfile a) with Some _ => x | None => x end) = x) by (intro x; destruct (truthy (sa_outfile a)); reflexivity). rewrite Eo. clear Eo Eb E.
  assert (Eh : csv_header 0 pool = unlines (numbered_names lookups 0 (numbered_ids lookups))).
  { rewrite <- K. apply header_lines. intros i c Hin. rewrite <- P. apply dget_In_nodup; assumption. }
  rewrite Eh. assert (Eu : forall l1 l2, unlines l1 ++ unlines l2 = unlines (l1 ++ l2)) by (intros; unfold unlines; rewrite flat_map_app; reflexivity).
  assert (G : forall g b, ballot_is pool g b -> (3 <= length g)%nat -> exists s, line (RBallot b) = Ok s /\ csv_of_group lookups g s).
  { intros g b Hb L. destruct (csv_line_three pool lookups g b P N K Hb L) as (ms&ns&M&El&H). exists (join [62%N] (map n2s ns)). split; [exact El|]. exists ms, ns. split; [exact M|]. split; [reflexivity|exact H]. }
  destruct (split_groups gs) as [A|(before&g&after&->&L1&L2)].
  - destruct (lines_of line pool gs bs F (P := csv_of_group lookups)) as (ss&F1&F2); [intros g b Hg Hb; apply G; auto|].
    exists gs, ss. rewrite (dump_ok _ _ _ None F2). cbn [fst snd]. split; [exact B|]. split; [rewrite Eu; reflexivity|]. split; [intros _; split; [exact F1|reflexivity]|].
    intros before g after -> Hl _. specialize (A g (in_elt _ _ _)). lia.
  - apply Forall2_app_inv_l in F as (bs1&bs2&F1&F2&->). inversion F2 as [|? b ? bs3 Hb F3]; subst. rewrite map_app. cbn [map].
    destruct (lines_of line pool before bs1 F1 (P := csv_of_group lookups)) as (ss&G1&G2); [intros h b0 Hh Hb0; apply G; auto|].
    assert (Hx : line (RBallot b) = Err IndexError). { apply (short_line pool g b); [exact Hb|exact L1|]. right. exists (rev_cands 0 pool []). split; [reflexivity|]. intros i c Hc. apply (rev_cands_known pool i c Hc). }
    exists (before ++ g :: after), ss. rewrite (dump_fails line _ _ _ _ _ None G2 Hx). cbn [fst snd]. split; [exact B|]. split; [rewrite Eu; reflexivity|]. split.
    + intro A. specialize (A g (in_elt _ _ _)). lia.
    + intros before' g' after' Eg L1' L2'. split; [|reflexivity]. replace before' with before; [exact G1|]. clear - Eg L1 L2 L1' L2'.
      revert before' Eg L2'. induction before as [|h before IH]; intros [|h' before'] Eg L2'.
      * reflexivity.
      * injection Eg as -> _. specialize (L2' h' (or_introl eq_refl)). lia.
      * injection Eg as -> _. specialize (L2 g' (or_introl eq_refl)). lia.
      * injection Eg as -> Eg. f_equal. apply IH; [intros; apply L2; right; assumption|exact Eg|intros; apply L2'; right; assumption].
Qed.
Print Assumptions C71_csv96.

(** ** abif and jabmod *)
(** The lookup file can be read, the image file is there, and the output goes to another file. *)
Definition readable (fs : files) (a : sf_args) (master ballots : str) : Prop :=
  sa_lookupfile a <> [] /\ fs (sa_lookupfile a) = Some master /\ (forall l, In l (file_lines master) -> (83 <= length l)%nat) /\
  fs (sa_imagefile a) = Some ballots /\ (forall o, sa_outfile a = Some o -> o <> sa_lookupfile a /\ o <> sa_imagefile a).
(** What is left of the files: the output file, if there is one, with the text. *)
Definition files_with (a : sf_args) (text : str) (before after : files) : Prop :=
  forall n, after n = match sa_outfile a with Some (c :: r) => if str_eqb n (c :: r) then Some text else before n | _ => before n end.
Lemma readable_main fs a master ballots : readable fs a master ballots -> exists pool records, sftxt_main fs a = finish fs a (sf_body a pool records master ballots).
Proof.
  intros (H1&H2&H3&H4&H5). unfold sftxt_main. rewrite (lookup_stream fs _ master H1 H2 H3). cbn [bind].
  destruct (pool_run (file_lines master) [(zero_id, None)] (sa_contestid a) H3) as (pool&P1&_&_); [constructor; [intros []|constructor]|]. unfold lookuplines2candpool. fold zero_id.
  set (cid := match sa_contestid a with Some (_ :: _) => sa_contestid a | _ => match first_id (map lookup_of (file_lines master)) with Some c => Some c | None => sa_contestid a end end) in *.
  assert (P5 : lookuplines2candpool (map row_of (file_lines master)) (sa_contestid a) = Ok (pool, cid)) by exact P1. unfold lookuplines2candpool in P5. fold zero_id in P5. rewrite P5.
  set (fs1 := match truthy (sa_outfile a) with Some o => with_file o [] fs | None => fs end).
  assert (E1 : fs1 (sa_lookupfile a) = Some master). { unfold fs1. destruct (truthy (sa_outfile a)) as [o|] eqn:T; [|exact H2]. apply truthy_some in T. destruct (H5 o T) as (N1&_). rewrite with_file_other by (intro X; apply N1; symmetry; exact X). exact H2. }
  assert (E2 : fs1 (sa_imagefile a) = Some ballots). { unfold fs1. destruct (truthy (sa_outfile a)) as [o|] eqn:T; [|exact H4]. apply truthy_some in T. destruct (H5 o T) as (_&N1). rewrite with_file_other by (intro X; apply N1; symmetry; exact X). exact H4. }
  rewrite E1, E2. exists pool, (gen_records (sa_imagelines a) pool cid (read_sftxt_file BALLOTIMAGE_FIELDSPEC fs1 (sa_imagefile a))). unfold finish, fs1. destruct (sf_body _ _ _ _ _) as [[text printed] e]. destruct (truthy (sa_outfile a)); reflexivity.
Qed.
Lemma finish_files fs a t p e : files_with a t fs (so_files (finish fs a (t, p, e))).
Proof.
  intro n. unfold finish. destruct (sa_outfile a) as [[|c r]|]; cbn [truthy so_files]; [reflexivity| |reflexivity]. unfold with_file. destruct (str_eqb n (c :: r)); reflexivity.
Qed.
Lemma sf_consolidated master ballots m : convert_sftxt_to_jabmod master ballots false = Ok m -> sf_consolidate m = m.
Proof.
  intro H. destruct (C51_only_acceptable _ _ _ _ H) as (contest&(H1&H2&H3&H4&H5)&_).
  unfold convert_sftxt_to_jabmod in H. rewrite master_read in H by exact H1. cbn [bind] in H. destruct (pool_of (splitlines master) H1) as (pool&P1&P2&P3). rewrite P1 in H. cbn [bind] in H.
  apply first_id_contest in H3. rewrite H3 in H. rewrite ballots_read in H; [|apply (mine_nonempty contest), H4|exact H2].
  destruct (C50_grouped pool contest (map image_of (splitlines ballots))) as (gs&bs&E&B&F); [apply (good_votes pool _ contest _ P3), H5|exact H4|].
  rewrite E in H. cbn [bind] in H. destruct (ballot_lines pool false gs bs F) as (vs&Ev&Fv). rewrite Ev in H. cbn [bind] in H. apply ok_inj in H. subst m. unfold sf_consolidate. cbn [sf_votelines sf_candidates sf_metadata].
  f_equal. match goal with |- context [Jabmod ?md [] vs] => assert (Hc : clean (Jabmod md [] vs)); [|exact (f_equal j_votelines (C44_idempotent _ Hc))] end.
  intros w Hw. cbn [j_votelines] in Hw. clear - Fv Hw. induction Fv as [|g x gs vs H F IH]; [destruct Hw|]. destruct Hw as [<-|Hw]; [apply (group_line_clean _ _ _ _ H)|apply IH, Hw].
Qed.

(** --outputformat abif: standard output gets what convert_text_to_abif makes of the two texts, for the first contest
    of the lookup file.  --contestid, --imagelines and --consolidate make no difference, and the file of -o is left empty. *)
Theorem C71_abif : forall sha1 fs a master ballots, readable fs a master ballots -> sa_outputformat a = u "abif" ->
  files_with a [] fs (so_files (sftxt_main fs a)) /\
  match convert_text_to_abif sha1 (u "sftxt") [master; ballots] false false [] with
  | Ok text => so_stdout (sftxt_main fs a) = text ++ [10%N] /\ so_exn (sftxt_main fs a) = None
  | Err e => so_stdout (sftxt_main fs a) = [] /\ so_exn (sftxt_main fs a) = Some e
  end.
Proof.
  intros sha1 fs a master ballots R Hf. destruct (readable_main _ _ _ _ R) as (pool&records&E).
  assert (Et : convert_text_to_abif sha1 (u "sftxt") [master; ballots] false false [] = bind (convert_sftxt_to_jabmod master ballots false) (fun m => convert_jabmod_to_abif (jabmod_of_sf m))).
  { unfold convert_text_to_abif. vm_compute (str_eqb (u "sftxt") _). cbn [blob nth_error of_option bind]. destruct (convert_sftxt_to_jabmod master ballots false); reflexivity. }
  rewrite Et, E. unfold sf_body. rewrite Hf. replace (str_eqb (u "abif") (u "json")) with false by reflexivity. rewrite str_eqb_refl.
  assert (Ec : bind (convert_sftxt_to_jabmod master ballots false) (fun m => convert_jabmod_to_abif (jabmod_of_sf (if sa_consolidate a then sf_consolidate m else m))) = bind (convert_sftxt_to_jabmod master ballots false) (fun m => convert_jabmod_to_abif (jabmod_of_sf m))).
  { destruct (convert_sftxt_to_jabmod master ballots false) as [m|e] eqn:Em; [|reflexivity]. cbn [bind]. destruct (sa_consolidate a); [rewrite (sf_consolidated _ _ _ Em)|]; reflexivity. }
  rewrite Ec. destruct (bind (convert_sftxt_to_jabmod master ballots false) (fun m => convert_jabmod_to_abif (jabmod_of_sf m))) as [s|e].
  - split; [apply finish_files|]. rewrite exn_finish. split; [|reflexivity]. unfold finish. destruct (truthy (sa_outfile a)); reflexivity.
  - split; [apply finish_files|]. rewrite exn_finish. split; [|reflexivity]. unfold finish. destruct (truthy (sa_outfile a)); reflexivity.
Qed.
Print Assumptions C71_abif.
(** The votelines as JSON: the keys prefs and qty, in this order, and for each candidate the rank. *)
Definition ranks_json (v : voteline) : json :=
  JObj [(u "prefs", JObj (map (fun cp => (fst cp, JObj (match p_rank (snd cp) with Some r => [(u "rank", JInt r)] | None => [] end))) (v_prefs v))); (u "qty", JInt (v_qty v))].
Definition sf_json (m : sf_jabmod) : json :=
  JObj [(u "candidates", JObj (map (fun kv => (fst kv, name_json (snd kv))) (sf_candidates m))); (u "metadata", JObj (sf_metadata m)); (u "votelines", JArr (map ranks_json (sf_votelines m)))].
Definition rank_only (v : voteline) : Prop := forall c p, In (c, p) (v_prefs v) -> p_rating p = None /\ p_nextdelim p = None.
Lemma arranged_rank o p : any_order o -> p_rating p = None -> p_nextdelim p = None -> arranged o p = match p_rank p with Some r => [(u "rank", JInt r)] | None => [] end.
Proof.
  intros H E1 E2. assert (P : Permutation (arranged o p) (arranged [TheRank; TheRating; TheNext] p)) by (unfold arranged; apply Permutation_flat_map, H).
  assert (E : arranged [TheRank; TheRating; TheNext] p = match p_rank p with Some r => [(u "rank", JInt r)] | None => [] end) by (unfold arranged; cbn [flat_map thing_entry]; rewrite E1, E2, !app_nil_r; reflexivity). rewrite E in P.
  destruct (p_rank p); [apply Permutation_length_1_inv, Permutation_sym, P|apply Permutation_nil, Permutation_sym, P].
Qed.
Lemma merged_ranks j v : merged_line j v -> rank_only v -> j = ranks_json v.
Proof.
  intros (ps&->&F&_) R. unfold ranks_json. do 4 f_equal. unfold rank_only in R. induction F as [|[c d] [c' p] ps prefs (E&o&Ho&Ed) F IH]; [reflexivity|]. cbn [fst snd map] in *. subst c' d.
  destruct (R c p (or_introl eq_refl)) as (R1&R2). rewrite (arranged_rank o p Ho R1 R2). f_equal. apply IH. intros c0 p0 H0. apply (R c0 p0 (or_intror H0)).
Qed.
Lemma sf_rank_only master ballots m : convert_sftxt_to_jabmod master ballots false = Ok m -> forall v, In v (sf_votelines m) -> rank_only v.
Proof.
  intro H. unfold convert_sftxt_to_jabmod in H. apply bind_ok in H as (ls&_&H). apply bind_ok in H as ([pool contest]&_&H). apply bind_ok in H as (recs&_&H). apply bind_ok in H as (vls&Ev&H). apply ok_inj in H. subst m. cbn [sf_votelines].
  assert (R : forall v, In v vls -> rank_only v).
  { revert vls Ev. induction recs as [|b recs IH]; intros vls Ev; cbn [mapM] in Ev; [apply ok_inj in Ev; subst; intros v []|]. apply bind_ok in Ev as (v0&E0&Ev). apply bind_ok in Ev as (vs&E1&Ev). apply ok_inj in Ev. subst vls.
    intros v [<- | Hv]; [|exact (IH vs E1 v Hv)]. unfold ballot_voteline in E0. apply bind_ok in E0 as (votes&_&E0). apply ok_inj in E0. subst v0. unfold rank_only. cbn [v_prefs].
    assert (G : forall l d, (forall c p, In (c, p) d -> p_rating p = None /\ p_nextdelim p = None) -> forall c p, In (c, p) (fold_left (prefs_step false) l d) -> p_rating p = None /\ p_nextdelim p = None).
    { induction l as [|x l IHl]; intros d Hd; [exact Hd|]. cbn [fold_left]. apply IHl. intros c p Hc. unfold prefs_step in Hc. destruct (negb _ || false); [|exact (Hd c p Hc)]. apply ParserPrefs.dset_In in Hc as [Hc|Hc]; [|apply (Hd c p), Hc]. injection Hc as -> ->. split; reflexivity. }
    apply G. intros c p []. }
  intros v Hv. cbn [consolidate j_votelines] in Hv. rewrite consolidate_fold, map_map in Hv. apply in_map_iff in Hv as (w&<-&Hw). apply firsts_incl in Hw. exact (R w Hw).
Qed.
Lemma sf_object_json master ballots j m : convert_sftxt_to_jabmod master ballots false = Ok m -> sf_object j m -> j = sf_json m.
Proof.
  intros E (vs&->&F). unfold sf_json. do 6 f_equal. pose proof (sf_rank_only _ _ _ E) as R. revert R. induction F as [|a b vs l H F IH]; intro R; [reflexivity|]. cbn [map]. rewrite (merged_ranks a b H (R b (or_introl eq_refl))). f_equal. apply IH. intros v Hv. apply R. right. exact Hv.
Qed.
Lemma sf_json_again master ballots m : convert_sftxt_to_jabmod master ballots false = Ok m -> consolidate_obj (sf_json m) = Ok (sf_json m).
Proof.
  intro E. pose proof (sf_sim master ballots) as G. rewrite E in G. apply sr_ok in G as (j&_&Hj). assert (Ej := sf_object_json _ _ _ _ E Hj). subst j.
  destruct Hj as (vs&E0&F). unfold sf_json in E0. injection E0 as E0. subst vs.
  assert (P : Forall2 plain_line (map ranks_json (sf_votelines m)) (sf_votelines m)) by (clear -F; revert F; generalize (map ranks_json (sf_votelines m)) as js; intros js F; induction F; constructor; [apply merged_plain; assumption|assumption]).
  destruct (consolidate_object (sf_json m) _ _ (Jabmod (sf_metadata m) [] (sf_votelines m)) eq_refl eq_refl P) as (vs'&E2&F2). rewrite E2.
  pose proof (sf_consolidated _ _ _ E) as Ec. unfold sf_consolidate in Ec. apply (f_equal sf_votelines) in Ec. cbn [sf_votelines] in Ec. rewrite Ec in F2.
  assert (Ev : vs' = map ranks_json (sf_votelines m)).
  { pose proof (sf_rank_only _ _ _ E) as R. revert R. clear -F2. induction F2 as [|a b vs l H F IH]; intro R; [reflexivity|]. cbn [map]. rewrite (merged_ranks a b H (R b (or_introl eq_refl))). f_equal. apply IH. intros v Hv. apply R. right. exact Hv. }
  rewrite Ev. reflexivity.
Qed.
Lemma sf_printed master ballots : convert_sftxt_obj master ballots = match convert_sftxt_to_jabmod master ballots false with Ok m => Ok (sf_json m) | Err e => Err e end.
Proof.
  pose proof (sf_sim master ballots) as G. destruct (convert_sftxt_to_jabmod master ballots false) as [m|e] eqn:E.
  - apply sr_ok in G as (j&->&Hj). rewrite (sf_object_json _ _ _ _ E Hj). reflexivity.
  - destruct (convert_sftxt_obj master ballots); cbn [same_result] in G; [destruct G|subst; reflexivity].
Qed.
(** --outputformat jabmod: the same with the JSON text of the jabmod, byte for byte. *)
Theorem C71_jabmod : forall fs a master ballots, readable fs a master ballots -> sa_outputformat a = u "jabmod" ->
  files_with a [] fs (so_files (sftxt_main fs a)) /\
  match convert_sftxt_to_jabmod master ballots false with
  | Ok m => so_stdout (sftxt_main fs a) = dumps_indent 4 (sf_json m) ++ [10%N] /\ so_exn (sftxt_main fs a) = None
  | Err e => so_stdout (sftxt_main fs a) = [] /\ so_exn (sftxt_main fs a) = Some e
  end.
Proof.
  intros fs a master ballots R Hf. destruct (readable_main _ _ _ _ R) as (pool&records&E). rewrite E. unfold sf_body. rewrite Hf. replace (str_eqb (u "jabmod") (u "json")) with false by reflexivity. replace (str_eqb (u "jabmod") (u "abif")) with false by reflexivity. rewrite str_eqb_refl.
  rewrite sf_printed. destruct (convert_sftxt_to_jabmod master ballots false) as [m|e] eqn:Em; cbn [bind].
  - replace (if sa_consolidate a then consolidate_obj (sf_json m) else Ok (sf_json m)) with (Ok (sf_json m)) by (destruct (sa_consolidate a); [rewrite (sf_json_again _ _ _ Em)|]; reflexivity).
    split; [apply finish_files|]. rewrite exn_finish. split; [|reflexivity]. unfold finish. destruct (truthy (sa_outfile a)); reflexivity.
  - split; [apply finish_files|]. rewrite exn_finish. split; [|reflexivity]. unfold finish. destruct (truthy (sa_outfile a)); reflexivity.
Qed.
Print Assumptions C71_jabmod.
(** abiftool -f sftxt -t jabmod on the same two files prints the same bytes, and fails with the same exception. *)
Theorem C71_as_abiftool : forall s rn b fs a master ballots, readable fs a master ballots -> sa_outputformat a = u "jabmod" ->
  reads_files s b "sftxt" [master; ballots] -> a_to b = u "jabmod" ->
  o_stdout (main_exact s rn b) = so_stdout (sftxt_main fs a) /\ o_ending (main_exact s rn b) = match so_exn (sftxt_main fs a) with None => Done | Some e => Uncaught e end.
Proof.
  intros s rn b fs a master ballots R Hf Rb Et. destruct (C71_jabmod fs a master ballots R Hf) as (_&H). destruct (files_read s b _ _ Rb ltac:(cbn [length]; lia)) as (t&Er).
  assert (El : load_obj s b (u "sftxt") t [master; ballots] = convert_sftxt_obj master ballots) by (unfold load_obj; eval_fmt; reflexivity). rewrite sf_printed in El.
  destruct (convert_sftxt_to_jabmod master ballots false) as [m|e] eqn:Em; destruct H as (H1&H2); rewrite H1, H2.
  - rewrite (exact_ok s rn b (u "sftxt") t [master; ballots] _ (sf_json m) Et (proj1 Rb) ltac:(cbn; tauto) Er El). replace (if has "consolidate" (modifiers b) then consolidate_obj (sf_json m) else Ok (sf_json m)) with (Ok (sf_json m)) by (destruct (has "consolidate" (modifiers b)); [rewrite (sf_json_again _ _ _ Em)|]; reflexivity). split; reflexivity.
  - unfold main_exact. rewrite Et. change (negb (str_eqb (u "jabmod") (u "jabmod"))) with false. cbv iota. rewrite (proj1 Rb). change (memb (u "sftxt") validinfmts) with true. cbn [negb]. rewrite Er, El. cbn [o_stdout o_ending]. split; [|reflexivity]. destruct e; reflexivity.
Qed.
Print Assumptions C71_as_abiftool.

(** ** Files *)
(** With -o, the other formats print nothing; no file but the output file is changed. *)
Theorem C71_outfile : forall fs a lookups images contest, usable fs a lookups images contest -> In (sa_outputformat a) [u "json"; u "urlencoded"; u "csv96"] ->
  (exists text, files_with a text fs (so_files (sftxt_main fs a)) /\ output a (sftxt_main fs a) = Some text) /\
  (forall c r, sa_outfile a = Some (c :: r) -> so_stdout (sftxt_main fs a) = []).
Proof.
  intros fs a lookups images contest U Hf. destruct (main_stage _ _ _ _ _ U) as (pool&gs&bs&t1&t2&_&_&_&_&_&_&_&_&_&E). rewrite E.
  assert (exists t e, sf_body a pool (if sa_imagelines a then (map (fun x => RRow (image_dict x)) images, None) else (map RBallot bs, None)) t1 t2 = (t, [], e)) as (t&e&->).
  { generalize (if sa_imagelines a then (map (fun x => RRow (image_dict x)) images, @None exn) else (map RBallot bs, None)) as recs. intros [recs last]. unfold sf_body. cbn [fst snd].
    destruct Hf as [<-|[<-|[<-|[]]]].
    - rewrite str_eqb_refl. destruct last; eauto.
    - replace (str_eqb (u "urlencoded") (u "json")) with false by reflexivity. replace (str_eqb (u "urlencoded") (u "abif")) with false by reflexivity. replace (str_eqb (u "urlencoded") (u "jabmod")) with false by reflexivity. rewrite str_eqb_refl. destruct (dump url_line recs last). eauto.
    - replace (str_eqb (u "csv96") (u "json")) with false by reflexivity. replace (str_eqb (u "csv96") (u "abif")) with false by reflexivity. replace (str_eqb (u "csv96") (u "jabmod")) with false by reflexivity. replace (str_eqb (u "csv96") (u "urlencoded")) with false by reflexivity. rewrite str_eqb_refl. destruct (dump _ recs last). eauto. }
  split.
  - exists t. split; [apply finish_files|]. rewrite output_finish, app_nil_r. destruct (truthy (sa_outfile a)); reflexivity.
  - intros c r Ho. unfold finish. rewrite Ho. reflexivity.
Qed.
Print Assumptions C71_outfile.
(** Another format is a ValueError, and the output file has been emptied by then. *)
Theorem C71_unknown_format : forall fs a master ballots, readable fs a master ballots -> ~ In (sa_outputformat a) [u "json"; u "abif"; u "jabmod"; u "urlencoded"; u "csv96"] ->
  so_exn (sftxt_main fs a) = Some ValueError /\ so_stdout (sftxt_main fs a) = [] /\ files_with a [] fs (so_files (sftxt_main fs a)).
Proof.
  intros fs a master ballots R Hf. destruct (readable_main _ _ _ _ R) as (pool&records&E). rewrite E.
  assert (N : forall s, In s [u "json"; u "abif"; u "jabmod"; u "urlencoded"; u "csv96"] -> str_eqb (sa_outputformat a) s = false) by (intros s Hs; destruct (str_eqb_spec (sa_outputformat a) s) as [X|]; [rewrite X in Hf; destruct (Hf Hs)|reflexivity]).
  unfold sf_body. rewrite !N by (cbn [In]; tauto). split; [rewrite exn_finish; reflexivity|]. split; [unfold finish; destruct (truthy (sa_outfile a)); reflexivity|apply finish_files].
Qed.
Print Assumptions C71_unknown_format.
(** Without the lookup file, or with a line in it that is too short, nothing is written; without the image file the
    output file has been emptied. *)
Theorem C71_missing_file : forall fs a,
  (sa_lookupfile a <> [] -> fs (sa_lookupfile a) = None -> sftxt_main fs a = SfOutcome fs [] (Some FileNotFoundError)) /\
  (forall master, sa_lookupfile a <> [] -> fs (sa_lookupfile a) = Some master -> (exists l, In l (file_lines master) /\ (length l < 83)%nat) ->
     sftxt_main fs a = SfOutcome fs [] (Some ValueError)) /\
  (forall master, sa_lookupfile a <> [] -> fs (sa_lookupfile a) = Some master -> (forall l, In l (file_lines master) -> (83 <= length l)%nat) ->
     fs (sa_imagefile a) = None -> sa_outfile a <> Some (sa_imagefile a) ->
     so_exn (sftxt_main fs a) = Some FileNotFoundError /\ so_stdout (sftxt_main fs a) = [] /\ files_with a [] fs (so_files (sftxt_main fs a))).
Proof.
  intros fs a. split; [|split].
  - intros H1 H2. unfold sftxt_main, read_sftxt_file. rewrite lookup_text, (spec_ok_read lookup_fields spec_ok_lookup). destruct (sa_lookupfile a) as [|c r]; [congruence|]. rewrite H2. reflexivity.
  - intros master H1 H2 (l&Hl&Hs). unfold sftxt_main.
    assert (E : exhaust (read_sftxt_file MASTERLOOKUP_FIELDSPEC fs (sa_lookupfile a)) = Err ValueError).
    { unfold read_sftxt_file. rewrite lookup_text, (spec_ok_read lookup_fields spec_ok_lookup). destruct (sa_lookupfile a) as [|c r]; [congruence|]. rewrite H2. unfold exhaust.
      pose proof spec_ok_lookup as (_&Hp&Hn). pose proof (file_lines_no10 master) as H10. revert H10 Hl. generalize (file_lines master) as ls. induction ls as [|l0 ls IH]; intros H10 Hl; [destruct Hl|]. cbn [map mapM].
      rewrite (row_read lookup_fields l0 Hp Hn (H10 l0 (or_introl eq_refl))). change (N.to_nat (last_position 0 lookup_fields)) with 83%nat. destruct (Nat.leb_spec 83 (length l0)) as [L|L]; [|reflexivity].
      destruct Hl as [->|Hl]; [lia|]. cbn [bind]. rewrite IH; [reflexivity|intros; apply H10; right; assumption|exact Hl]. }
    rewrite E. reflexivity.
  - intros master H1 H2 H3 H4 H5. unfold sftxt_main. rewrite (lookup_stream fs _ master H1 H2 H3). cbn [bind].
    destruct (pool_run (file_lines master) [(zero_id, None)] (sa_contestid a) H3) as (pool&P1&_&_); [constructor; [intros []|constructor]|].
    match type of P1 with _ = Ok (_, ?cid) => assert (P5 : lookuplines2candpool (map row_of (file_lines master)) (sa_contestid a) = Ok (pool, cid)) by exact P1 end. rewrite P5.
    destruct (sa_outfile a) as [[|c r]|] eqn:Eo; cbn [truthy].
    + rewrite H2, H4. split; [reflexivity|]. split; [reflexivity|]. intro n. rewrite Eo. reflexivity.
    + assert (Ei : with_file (c :: r) [] fs (sa_imagefile a) = None) by (unfold with_file; destruct (str_eqb_spec (sa_imagefile a) (c :: r)); congruence). rewrite Ei.
      destruct (with_file (c :: r) [] fs (sa_lookupfile a)).
      * split; [reflexivity|]. split; [reflexivity|]. intro n. rewrite Eo. reflexivity.
      * split; [reflexivity|]. split; [reflexivity|]. intro n. rewrite Eo. reflexivity.
    + rewrite H2, H4. split; [reflexivity|]. split; [reflexivity|]. intro n. rewrite Eo. reflexivity.
Qed.
Print Assumptions C71_missing_file.

(** ** A run *)
Definition sf_fs (ballots : str) : files := fun n => if str_eqb n (u "master.txt") then Some sf_master else if str_eqb n (u "ballots.txt") then Some ballots else None.
Definition sf_run (fmt : string) (contestid : option str) : sf_args := SfArgs false (u "master.txt") (u "ballots.txt") (Some (u "out.txt")) contestid (u fmt) false.
Definition sheriff_line (v r c flags : string) : str := u "0000021" ++ u v ++ u "0000001" ++ u "002" ++ u "0000111" ++ u r ++ u c ++ u flags.
Definition sf_two : str := sf_file ++ unlines [sheriff_line "000000002" "001" "0000008" "00"; sheriff_line "000000002" "002" "0000007" "00"; sheriff_line "000000002" "003" "0000007" "00"; sheriff_line "000000002" "004" "0000007" "00"].
Lemma usable_check fs a t1 t2 contest : sa_lookupfile a <> [] -> fs (sa_lookupfile a) = Some t1 -> forallb (fun l => 83 <=? length l)%nat (file_lines t1) = true ->
  sa_imagefile a <> [] -> fs (sa_imagefile a) = Some t2 -> forallb (fun l => 45 <=? length l)%nat (file_lines t2) = true ->
  (forall o, sa_outfile a = Some o -> o <> sa_lookupfile a /\ o <> sa_imagefile a) ->
  (match sa_contestid a with Some (c :: r) => contest = c :: r | _ => first_contest (map lookup_of (file_lines t1)) contest end) ->
  mine contest (map image_of (file_lines t2)) <> [] ->
  forallb (fun x => match py_int (im_rank x), named (map lookup_of (file_lines t1)) (im_cand x) with Ok _, Some _ => negb (str_eqb (im_over x) (u "1") && str_eqb (im_under x) (u "1")) | _, _ => false end) (mine contest (map image_of (file_lines t2))) = true ->
  usable fs a (map lookup_of (file_lines t1)) (map image_of (file_lines t2)) contest.
Proof.
  intros A1 A2 A3 A4 A5 A6 A7 A8 A9 A10. constructor; try assumption.
  - exists t1. split; [exact A1|]. split; [exact A2|]. split; [|reflexivity]. rewrite forallb_forall in A3. intros l Hl. apply Nat.leb_le, A3, Hl.
  - exists t2. split; [exact A4|]. split; [exact A5|]. split; [|reflexivity]. rewrite forallb_forall in A6. intros l Hl. apply Nat.leb_le, A6, Hl.
  - intros x Hx. rewrite forallb_forall in A10. specialize (A10 x Hx). unfold votes_for. destruct (py_int (im_rank x)) as [r|]; [|discriminate]. destruct (named _ (im_cand x)); [|discriminate].
    split; [eauto|]. split; [discriminate|]. intros (E1&E2). rewrite E1, E2 in A10. discriminate.
Qed.
Lemma sf_names_plain i : plain_name (named (map lookup_of (file_lines sf_master)) i).
Proof.
  intros s H.
  assert (L : exists x, In x (map lookup_of (file_lines sf_master)) /\ lk_desc x = s).
  { revert H. generalize (map lookup_of (file_lines sf_master)) as ls. induction ls as [|x ls IH]; cbn [named]; intro H; [destruct (str_eqb i (u "0000000")); discriminate|].
    destruct (named ls i) as [[n|]|].
    - destruct (IH H) as (y&Hy&E). exists y. split; [right; exact Hy|exact E].
    - destruct (str_eqb (lk_type x) (u "Candidate") && str_eqb (lk_id x) i); [|discriminate]. apply some_inj, some_inj in H. exists x. split; [left; reflexivity|exact H].
    - destruct (str_eqb (lk_type x) (u "Candidate") && str_eqb (lk_id x) i); [|discriminate]. apply some_inj, some_inj in H. exists x. split; [left; reflexivity|exact H]. }
  destruct L as (x&Hx&<-). assert (C : forallb (fun x => forallb scalar (lk_desc x) && negb (str_eqb (lk_desc x) (u "None"))) (map lookup_of (file_lines sf_master)) = true) by (vm_compute; reflexivity).
  rewrite forallb_forall in C. specialize (C x Hx). apply andb_prop in C as (C1&C2). split; [exact C1|]. intro X. rewrite X, str_eqb_refl in C2. discriminate.
Qed.
Example C71_usable : usable (sf_fs sf_two) (sf_run "urlencoded" None) (map lookup_of (file_lines sf_master)) (map image_of (file_lines sf_two)) (u "0000020") /\
  usable (sf_fs sf_two) (sf_run "csv96" (Some (u "0000021"))) (map lookup_of (file_lines sf_master)) (map image_of (file_lines sf_two)) (u "0000021") /\
  (forall i, plain_name (named (map lookup_of (file_lines sf_master)) i)) /\ readable (sf_fs sf_two) (sf_run "abif" (Some (u "0000021"))) sf_master sf_two.
Proof.
  split; [|split; [|split; [apply sf_names_plain|]]].
  - apply usable_check; try (vm_compute; reflexivity); try (vm_compute; discriminate).
    + intros o Ho. apply some_inj in Ho. subst o. split; discriminate.
    + cbn [sf_run sa_contestid]. apply first_id_contest. vm_compute. reflexivity.
  - apply usable_check; try (vm_compute; reflexivity); try (vm_compute; discriminate).
    intros o Ho. apply some_inj in Ho. subst o. split; discriminate.
  - split; [discriminate|]. split; [reflexivity|]. split; [|split; [reflexivity|]].
    + assert (C : forallb (fun l => 83 <=? length l)%nat (file_lines sf_master) = true) by (vm_compute; reflexivity). rewrite forallb_forall in C. intros l Hl. apply Nat.leb_le, C, Hl.
    + intros o Ho. apply some_inj in Ho. subst o. split; discriminate.
Qed.
(** The Mayor's third voter has two image lines: the two lines before are written, then IndexError.  The Sheriff's ballot
    has a mark for JANE KIM and three for MARK LENO. *)
Example C71_run :
  let o := sftxt_main (sf_fs sf_two) (sf_run "urlencoded" None) in
  let o2 := sftxt_main (sf_fs sf_two) (sf_run "csv96" (Some (u "0000021"))) in
  so_files o (u "out.txt") = Some (unlines [u "MARK+LENO=1&JANE+KIM=2&None=3"; u "JANE+KIM=1&None=2&MARK+LENO=3"]) /\ so_exn o = Some IndexError /\
  so_files o2 (u "out.txt") = Some (unlines [u "1, MARK LENO"; u "2, JANE KIM"; u "2>1"]) /\ so_exn o2 = None.
Proof. split; [vm_compute; reflexivity|]. split; [vm_compute; reflexivity|]. split; vm_compute; reflexivity. Qed.

(** The same two files for abiftool: -f sftxt -t jabmod. *)
Example C71_as_abiftool_sample : exists s b, reads_files s b "sftxt" [sf_master; sf_file] /\ a_to b = u "jabmod" /\ readable (sf_fs sf_file) (sf_run "jabmod" None) sf_master sf_file /\
  o_ending (main_exact s cli_render b) = Done /\ o_stdout (main_exact s cli_render b) = so_stdout (sftxt_main (sf_fs sf_file) (sf_run "jabmod" None)).
Proof.
  exists (Surroundings (fun f => match sf_fs sf_file f with Some _ => true | None => false end) (fun f => match sf_fs sf_file f with Some t => Ok t | None => Err FileNotFoundError end) (Ok []) (fun _ => []) (Oracle (fun _ => O) (fun _ l => l))),
    (Args [u "master.txt"; u "ballots.txt"] (Some (u "sftxt")) (u "jabmod") None 160 false false).
  split; [split; [reflexivity|]|].
  - cbn [a_input_file]. repeat (constructor; [split; reflexivity|]). constructor.
  - split; [reflexivity|]. split; [|split; vm_compute; reflexivity].
    split; [discriminate|]. split; [reflexivity|]. split; [|split; [reflexivity|]].
    + assert (C : forallb (fun l => 83 <=? length l)%nat (file_lines sf_master) = true) by (vm_compute; reflexivity). rewrite forallb_forall in C. intros l Hl. apply Nat.leb_le, C, Hl.
    + intros o Ho. apply some_inj in Ho. subst o. split; discriminate.
Qed.

(** --contestid for the Sheriff: json has the Sheriff's ballot, abif the three ballots for Mayor, and they are not in
    the file asked for. *)
Theorem C71_contestid_refuted : exists fs a master ballots, readable fs a master ballots /\ sa_contestid a = Some (u "0000021") /\ sa_outputformat a = u "abif" /\
  (exists m, convert_sftxt_to_jabmod master ballots false = Ok m /\ sf_metadata m = [(k_ballotcount, JInt 3); (u "contestid", JStr (u "0000020"))] /\
     exists text, convert_jabmod_to_abif (jabmod_of_sf m) = Ok text /\ so_stdout (sftxt_main fs a) = text ++ [10%N]) /\
  sa_outfile a = Some (u "out.txt") /\ so_files (sftxt_main fs a) (u "out.txt") = Some [].
Proof.
  exists (sf_fs sf_two), (sf_run "abif" (Some (u "0000021"))), sf_master, sf_two. split; [apply C71_usable|]. split; [reflexivity|]. split; [reflexivity|]. split.
  - eexists. split; [vm_compute; reflexivity|]. split; [vm_compute; reflexivity|]. eexists. split; vm_compute; reflexivity.
  - split; [reflexivity|]. vm_compute. reflexivity.
Qed.
Print Assumptions C71_contestid_refuted.

(** A fourth choice is not printed: two voters who differ only there get the same line. *)
Theorem C71_fourth_mark_refuted : exists fs a lookups images contest g1 g2 l, usable fs a lookups images contest /\ ballots_of (mine contest images) [g1; g2] /\
  map (fun x => named lookups (im_cand x)) g1 <> map (fun x => named lookups (im_cand x)) g2 /\
  sa_outputformat a = u "urlencoded" /\ sa_imagelines a = false /\ output a (sftxt_main fs a) = Some (unlines [l; l]) /\ so_exn (sftxt_main fs a) = None.
Proof.
  set (ballots := unlines [image_line "000000002" "001" "0000007" "00"; image_line "000000002" "002" "0000000" "00"; image_line "000000002" "003" "0000000" "00"; image_line "000000002" "004" "0000008" "00";
                           image_line "000000003" "001" "0000007" "00"; image_line "000000003" "002" "0000000" "00"; image_line "000000003" "003" "0000000" "00"; image_line "000000003" "004" "0000000" "00"]).
  exists (sf_fs ballots), (sf_run "urlencoded" None), (map lookup_of (file_lines sf_master)), (map image_of (file_lines ballots)), (u "0000020").
  exists (firstn 4 (map image_of (file_lines ballots))), (skipn 4 (map image_of (file_lines ballots))), (u "MARK+LENO=1&None=2"). split; [|split; [|split; [|split; [reflexivity|split; [reflexivity|split; vm_compute; reflexivity]]]]].
  - apply usable_check; try (vm_compute; reflexivity); try (vm_compute; discriminate).
    + intros o Ho. apply some_inj in Ho. subst o. split; discriminate.
    + cbn [sf_run sa_contestid]. apply first_id_contest. vm_compute. reflexivity.
  - split; [vm_compute; reflexivity|].
    assert (K : forallb (fun x => str_eqb (im_voter x) (u "000000002")) (firstn 4 (map image_of (file_lines ballots))) = true /\ forallb (fun x => str_eqb (im_voter x) (u "000000003")) (skipn 4 (map image_of (file_lines ballots))) = true) by (split; vm_compute; reflexivity).
    destruct K as (K1&K2). rewrite forallb_forall in K1, K2. split.
    + intros g [<-|[<-|[]]]; (split; [vm_compute; discriminate|]); intros x y Hx Hy.
      * apply K1, str_eqb_eq in Hx. apply K1, str_eqb_eq in Hy. congruence.
      * apply K2, str_eqb_eq in Hx. apply K2, str_eqb_eq in Hy. congruence.
    + cbn [neighbours_differ]. split; [|exact I]. intros x y Hx Hy. apply K1, str_eqb_eq in Hx. apply K2, str_eqb_eq in Hy. intro E. rewrite Hx, Hy in E. discriminate.
  - vm_compute. discriminate.
Qed.
Print Assumptions C71_fourth_mark_refuted.
