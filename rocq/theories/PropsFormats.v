(** * PropsFormats: C86, the counts abiftool prints for PrefLib files, Debian tally sheets, nameq and San Francisco files *)

From Coq Require Import Lia Permutation.
From Verif Require Import PyBase PyFacts Jabmod PairwiseModel Spec PairwiseFacts PropsPairwise ScoreModel IrvModel.
From Verif Require Import ParserModel ParserSpec ParserFacts PropsParser UrlText JsonText JsonFacts WriterModel NameqModel TextFacts UrlFacts NameqFacts PropsNameq ConsolidateFacts PropsConvert RoundtripFacts RoundtripFile RoundtripParsed PropsRoundtrip.
From Verif Require Import PreflibModel DebtallyModel ImportSpec ImportFacts PreflibFacts DebtallyFacts PropsImport SftxtModel SftxtSpec SftxtFacts PropsSftxt SftxtFile PropsSftxtFile.
From Verif Require Import JsonParse JsonParseFacts JabmodJson PropsJson ResultsJson HtmlModel ConvertModel PropsConvertText CliModel PropsCli PropsCliMore PropsChars ScriptsModel PropsScripts PropsPipe PropsCounts PropsEnding.
Local Open Scope Z_scope.
Local Open Scope res_scope.

(** ** Specification *)
(** A run that reads the text t in the format fmt, from a file or from standard input. *)
Definition reads_text (s : surroundings) (a : args) (fmt : string) (t : str) : Prop :=
  input_format a = Ok (u fmt) /\
  ((exists f, a_input_file a = [f] /\ f <> dash /\ s_exists s f = true /\ s_read s f = Ok t) \/ (a_input_file a = [dash] /\ s_stdin s = Ok t)).
(** -t paircountjson, without the two modifiers that change what is printed or how it is counted. *)
Definition asks_counts (a : args) : Prop := a_to a = u "paircountjson" /\ ~ In (u "IRV") (modifiers a) /\ ~ In (u "consolidate") (modifiers a).
(** The run ends normally and prints a JSON object with a row for each of the candidates cs, in this order; in the row of x the member y is n x y. *)
Definition prints_counts (o : outcome) (cs : list str) (n : str -> str -> Z) : Prop :=
  o_ending o = Done /\ exists out rows, o_stdout o = out ++ [10%N] /\ json_loads out = Ok (JObj rows) /\ map fst rows = cs /\
    forall x y, In x cs -> In y cs -> x <> y -> exists row, dget x rows = Some row /\ jmember y row = Some (JInt (n x y)).
(** One candidate above another: at a smaller number, or at some number while the other is at none. *)
Definition above (x y : option Z) : bool := match x, y with Some i, Some j => i <? j | Some _, None => true | None, _ => false end.
(** The tier of an alternative, counted from 0. *)
Fixpoint tier_of (n : N) (tiers : list (list N)) : option Z :=
  match tiers with
  | [] => None
  | t :: r => if existsb (N.eqb n) t then Some 0 else option_map (Z.add 1) (tier_of n r)
  end.
(** The mark of option i (counted from 0); a number greater than that of the options is none. *)
Definition mark_of (options : nat) (marks : list (option N)) (i : nat) : option Z :=
  match nth_error marks i with Some (Some r) => if (N.to_nat r <=? options)%nat then Some (Z.of_N r) else None | _ => None end.
(** The number a nameq line gives to a name: the first value under this name. *)
Definition named_rank (line c : str) : option Z :=
  match dget c (parse_qs (strip line)) with Some (v :: _) => match py_int v with Ok r => Some r | Err _ => None end | _ => None end.

(** ** Runs *)
Lemma main_text s rn a fmt t : reads_text s a fmt t -> In (u fmt) validinfmts -> u fmt <> u "sftxt" -> u fmt <> u "jabmod" -> exists reads, main s rn a =
  match load s a (u fmt) t [] with
  | Ok m => match render s rn (a_to a) (a_width a) (modifiers a) (if has "consolidate" (modifiers a) then consolidate m else m) with Ok out => Outcome reads (println out) Done | Err e => Outcome reads [] (Uncaught e) end
  | Err e => Outcome reads (match e with VotelineExn => if str_eqb (u fmt) (u "abif") then println (u "ERROR: " ++ voteline_message t) else [] | _ => [] end) (Uncaught e)
  end.
Proof.
  intros (Ef&H) V N N2. assert (L : forall blobs, load s a (u fmt) t blobs = load s a (u fmt) t []).
  { intro blobs. unfold load. destruct (str_eqb_spec (u fmt) (u "sftxt")); [congruence|]. reflexivity. }
  unfold main. rewrite Ef. apply memb_In in V. rewrite V. cbn [negb]. unfold read_input. destruct H as [(f&A1&A2&A3&A4)|(A1&A2)]; rewrite A1.
  - destruct (str_eqb_spec f dash); [congruence|]. cbn [read_files]. rewrite A3, A4. cbn [app read_files]. rewrite L, (unnamed_other _ _ _ N N2). exists [f]. reflexivity.
  - rewrite str_eqb_refl, A2, (unnamed_other _ _ _ N N2). exists [dash]. reflexivity.
Qed.
Lemma counts_shown s rn a m : asks_counts a -> tallyable m -> (forall c, In c (cands m) -> text c) -> exists out rows, render s rn (a_to a) (a_width a) (modifiers a) m = Ok out /\
  json_loads out = Ok (JObj rows) /\ map fst rows = cands m /\ forall x y, In x (cands m) -> In y (cands m) -> x <> y -> exists row, dget x rows = Some row /\ jmember y row = Some (JInt (votes_over m x y)).
Proof.
  intros (Et&Hi&_) T Ht. pose proof (C01_pairwise_exact m T) as Ep. destruct (C64_paircount m _ T Ht Ep) as (j&Hj&(rows&->&Hr)&Hc). eexists _, rows. split; [|split; [exact Hj|split; [exact Hr|]]].
  - rewrite Et. unfold render. cbn [str_eqb u N.eqb N_of_ascii]. rewrite (has_false _ _ Hi), Ep. reflexivity.
  - intros x y Hx Hy n. destruct (Hc x Hx) as (row&R1&R2). exists row. split; [exact R1|]. rewrite (R2 y Hy). destruct (str_eqb_spec x y); [congruence|reflexivity].
Qed.
Lemma prints_of s rn a fmt t m : reads_text s a fmt t -> In (u fmt) validinfmts -> u fmt <> u "sftxt" -> u fmt <> u "jabmod" -> asks_counts a -> load s a (u fmt) t [] = Ok m -> tallyable m -> (forall c, In c (cands m) -> text c) ->
  prints_counts (main s rn a) (cands m) (votes_over m).
Proof.
  intros R V N N2 A El T Ht. destruct (main_text s rn a fmt t R V N N2) as (reads&E). rewrite El in E. rewrite (has_false _ _ (proj2 (proj2 A))) in E. destruct (counts_shown s rn a m A T Ht) as (out&rows&Er&H).
  rewrite Er in E. rewrite E. split; [reflexivity|]. exists out, rows. split; [reflexivity|exact H].
Qed.
Lemma prints_mono o cs n n' : prints_counts o cs n -> (forall x y, In x cs -> In y cs -> x <> y -> n x y = n' x y) -> prints_counts o cs n'.
Proof.
  intros (D&out&rows&H1&H2&H3&H4) E. split; [exact D|]. exists out, rows. split; [exact H1|]. split; [exact H2|]. split; [exact H3|]. intros x y Hx Hy Hn. rewrite <- (E x y Hx Hy Hn). exact (H4 x y Hx Hy Hn).
Qed.
(** Another list of candidates, the same one. *)
Lemma prefers_above v x y : prefers v x y = above (rank_on v x) (rank_on v y).
Proof. reflexivity. Qed.
Lemma tier_rank_bound tiers c : forall k r, tier_rank_from k tiers c = Some r -> k <= r < k + Z.of_nat (length tiers).
Proof.
  induction tiers as [|t tiers IH]; intros k r E; [discriminate|]. cbn [tier_rank_from] in E. cbn [length]. destruct (memb c t); [apply some_inj in E; lia|]. apply IH in E. lia.
Qed.
Lemma tiers_ranked q tiers v : votes_tiers q tiers v -> NoDup (concat tiers) -> Z.of_nat (length tiers) < maxsize - 1 -> line_ranked maxsize v = true.
Proof.
  intros (_&H&Hk) Hn Hl. apply forallb_forall. intros [c p] Hin. cbn [snd].
  assert (E : dget c (v_prefs v) = Some p) by (apply dget_In_nodup; [change (NoDup (dkeys (v_prefs v))); rewrite Hk; exact Hn|exact Hin]).
  specialize (H c). unfold rank_on in H. rewrite E in H. rewrite H. destruct (tier_rank tiers c) as [r|] eqn:Er.
  - apply tier_rank_bound in Er. apply Z.ltb_lt. lia.
  - exfalso. assert (Hc : In c (concat tiers)) by (rewrite <- Hk; exact (in_map fst _ _ Hin)). clear -Er Hc. unfold tier_rank in Er. revert Er Hc. generalize 1. induction tiers as [|t tiers IH]; intros k Er Hc; [destruct Hc|].
    cbn [tier_rank_from] in Er. destruct (memb c t) eqn:Em; [discriminate|]. cbn [concat] in Hc. apply in_app_or in Hc as [Hc|Hc]; [apply memb_In in Hc; congruence|]. exact (IH _ Er Hc).
Qed.

(** ** PrefLib *)
Lemma tier_of_place (f : N -> str) tiers n : (forall m, In m (concat tiers) -> f m = f n -> m = n) -> forall k, tier_rank_from k (map (map f) tiers) (f n) = option_map (Z.add k) (tier_of n tiers).
Proof.
  intros H k. revert k. induction tiers as [|t tiers IH]; intro k; [reflexivity|]. cbn [map tier_rank_from tier_of concat] in *.
  assert (E : memb (f n) (map f t) = existsb (N.eqb n) t).
  { destruct (existsb (N.eqb n) t) eqn:E.
    - apply existsb_exists in E as (x&Hx&E). apply N.eqb_eq in E. subst x. apply memb_In, in_map, Hx.
    - apply memb_nIn. intro Hin. apply in_map_iff in Hin as (x&Ex&Hx). apply H in Ex; [|apply in_or_app; left; exact Hx]. subst x.
      assert (existsb (N.eqb n) t = true) by (apply existsb_exists; exists n; split; [exact Hx|apply N.eqb_refl]). congruence. }
  rewrite E. destruct (existsb (N.eqb n) t); [cbn [option_map]; f_equal; lia|]. rewrite IH by (intros m Hm; apply H, in_or_app; right; exact Hm). destruct (tier_of n tiers) as [z|]; cbn [option_map]; [f_equal; lia|reflexivity].
Qed.
Lemma above_shift k x y : above (option_map (Z.add k) x) (option_map (Z.add k) y) = above x y.
Proof. destruct x as [x|], y as [y|]; cbn; try reflexivity. destruct (Z.ltb_spec (k + x) (k + y)), (Z.ltb_spec x y); try reflexivity; lia. Qed.
Lemma weights {A} (q : A -> Z) (P : A -> bool) (R : A -> voteline -> Prop) Q l vs : Forall2 R l vs -> (forall r v, In r l -> R r v -> v_qty v = q r /\ Q v = P r) ->
  ballots_where Q vs = zsum (map (fun r => if P r then q r else 0) l).
Proof.
  induction 1 as [|r v l vs H F IH]; intro G; [reflexivity|]. unfold ballots_where in *. cbn [map zsum]. rewrite IH by (intros r' v' Hr; apply G; right; exact Hr). destruct (G r v (or_introl eq_refl) H) as (->&->). reflexivity.
Qed.
Lemma where_perm Q l l' : Permutation l l' -> ballots_where Q l = ballots_where Q l'.
Proof. intro P. unfold ballots_where. apply zsum_perm, Permutation_map, P. Qed.

(** abiftool -f preflib -t paircountjson: for every two alternatives, the number of voters of the file who rank the first above the second. *)
Theorem C86_preflib : forall s rn a ls, reads_text s a "preflib" (pl_file ls) -> asks_counts a ->
  (forall l, In l ls -> pl_ok l) -> numbered ls ->
  (forall q tiers, In (q, tiers) (pl_rankings ls) -> NoDup (concat tiers) /\ (forall n, In n (concat tiers) -> in_range ls n) /\ Z.of_nat (length tiers) < maxsize - 1) -> pl_rankings ls <> [] ->
  (forall name, In name (pl_names ls) -> import_name name /\ text name) -> NoDup (map without_spaces (pl_names ls)) ->
  exists count, prints_counts (main s rn a) (map without_spaces (pl_names ls)) count /\
    forall x y, in_range ls x -> in_range ls y -> x <> y -> count (token_of_number ls x) (token_of_number ls y) =
      zsum (map (fun r => if above (tier_of x (snd r)) (tier_of y (snd r)) then Z.of_N (fst r) else 0) (pl_rankings ls)).
Proof.
  intros s rn a ls R A Hok Hn Hr Hne Hnames Hd.
  destruct (C49_end_to_end ls false false Hok Hn (fun q tiers Hin => let X := Hr q tiers Hin in conj (proj1 X) (proj1 (proj2 X))) Hne (fun name Hin => proj1 (Hnames name Hin)) Hd) as (raw&m&vs&E1&E2&Ec&P&F&_&_).
  assert (Ecs : cands m = map without_spaces (pl_names ls)) by (unfold cands; rewrite Ec, map_map; reflexivity).
  assert (Tok : forall n, in_range ls n -> token_of_number ls n = nth (N.to_nat n - 1) (map without_spaces (pl_names ls)) []).
  { intros n (H1&H2). rewrite (token_nth ls n Hn) by lia. reflexivity. }
  assert (Inj : forall x y, in_range ls x -> in_range ls y -> token_of_number ls x = token_of_number ls y -> x = y).
  { intros x y Hx Hy E. rewrite !Tok in E by assumption. destruct Hx as (X1&X2), Hy as (Y1&Y2). pose proof (proj1 (NoDup_nth (map without_spaces (pl_names ls)) []) Hd (N.to_nat x - 1)%nat (N.to_nat y - 1)%nat) as G. rewrite !map_length in G.
    specialize (G ltac:(lia) ltac:(lia) E). lia. }
  assert (T : tallyable m).
  { split; [rewrite Ecs; exact Hd|]. intros v Hv. apply (Permutation_in _ P) in Hv. destruct (proj2 (Forall2_In _ _ _ F) v Hv) as ([q tiers]&Hin&Hv'). cbn [fst snd] in Hv'. destruct (Hr q tiers Hin) as (N1&N2&N3).
    refine (tiers_ranked q _ v Hv' _ _); [|rewrite map_length; exact N3]. rewrite <- concat_map. clear -N1 N2 Inj. revert N1 N2. generalize (concat tiers). induction l as [|x l IH]; intros N1 N2; [constructor|]. inversion N1 as [|? ? Hx N1']; subst. cbn [map]. constructor; [|apply IH; [exact N1'|intros n Hin; apply N2; right; exact Hin]].
    intro Hin. apply in_map_iff in Hin as (y&E&Hy). apply Inj in E; [subst y; contradiction|apply N2; right; exact Hy|apply N2; left; reflexivity]. }
  assert (Ht : forall c, In c (cands m) -> text c).
  { intros c Hin. rewrite Ecs in Hin. apply in_map_iff in Hin as (name&<-&Hin). destruct (Hnames name Hin) as (_&Hs). unfold text in *. rewrite forallb_forall in *. intros x Hx. apply filter_In in Hx as (Hx&_). exact (Hs x Hx). }
  exists (votes_over m). split.
  - rewrite <- Ecs. apply (prints_of s rn a "preflib" (pl_file ls)); try assumption; [cbn; tauto|discriminate|discriminate|]. unfold load. eval_fmt. rewrite E1. cbn [bind]. exact E2.
  - intros x y Hx Hy Nxy. unfold votes_over. rewrite (where_perm _ _ _ P). refine (weights (fun r => Z.of_N (fst r)) (fun r => above (tier_of x (snd r)) (tier_of y (snd r))) _ _ _ _ F _).
    intros [q tiers] v Hin (V1&V2&_). cbn [fst snd] in *. split; [exact V1|]. destruct (Hr q tiers Hin) as (_&N2&_). unfold prefers. rewrite !V2. unfold tier_rank. 
    rewrite !tier_of_place by (intros k Hk; apply Inj; [apply N2, Hk|assumption]). apply above_shift.
Qed.
Print Assumptions C86_preflib.

(** ** Debian tally sheets *)
Lemma zsum_ones {A} (P : A -> bool) l : zsum (map (fun r => if P r then 1 else 0) l) = Z.of_nat (length (filter P l)).
Proof. induction l as [|x l IH]; [reflexivity|]. cbn [map zsum filter]. rewrite IH. destruct (P x); cbn [length]; lia. Qed.
Lemma filter_len {A} (p : A -> bool) l : (length (filter p l) <= length l)%nat.
Proof. induction l as [|x l IH]; [reflexivity|]. cbn [filter]. destruct (p x); cbn [length]; lia. Qed.
Lemma simple_scalar c : simple c = true -> text c.
Proof.
  intro H. apply forallb_forall. intros x Hx. unfold simple in H. rewrite forallb_forall in H. specialize (H x Hx). unfold always_safe, UrlText.inr in H. unfold scalar. lia.
Qed.
Lemma mark_above toks marks i j x y : NoDup toks -> (forall r, In (Some r) marks -> (1 <= r <= 9)%N) -> nth_error toks i = Some x -> nth_error toks j = Some y ->
  above (tier_rank (vote_tiers_of toks marks) x) (tier_rank (vote_tiers_of toks marks) y) = above (mark_of (length toks) marks i) (mark_of (length toks) marks j).
Proof.
  intros Hd Hm Hi Hj.
  assert (K : forall i x, nth_error toks i = Some x -> match mark_of (length toks) marks i with
     | Some z => exists r k, z = Z.of_N r /\ nth_error marks i = Some (Some r) /\ (1 <= r <= N.of_nat (length toks))%N /\ tier_rank (vote_tiers_of toks marks) x = Some k
     | None => tier_rank (vote_tiers_of toks marks) x = None end).
  { clear i j x y Hi Hj. intros i x Hi. unfold mark_of. destruct (nth_error marks i) as [[r|]|] eqn:Em.
    - specialize (Hm r (nth_error_In _ _ Em)). destruct (Nat.leb_spec (N.to_nat r) (length toks)) as [H|H].
      + assert (Hr : (1 <= r <= N.of_nat (length toks))%N) by lia. destruct (proj1 (C46_ranks toks marks i x Hd Hi) r Em Hr) as (k&Ek&_). exists r, k. auto.
      + apply tier_rank_none. intros q Hq Hin. apply options_at_In in Hin as (i'&H1&H2). assert (i' = i).
        { apply (proj1 (NoDup_nth_error toks) Hd); [apply nth_error_Some; congruence|congruence]. }
        subst i'. rewrite Em in H2. injection H2 as ->. lia.
    - apply (C46_ranks toks marks i x Hd Hi). left. exact Em.
    - apply (C46_ranks toks marks i x Hd Hi). right. exact Em. }
  pose proof (K i x Hi) as Ki. pose proof (K j y Hj) as Kj. destruct (mark_of (length toks) marks i) as [z|]; [|rewrite Ki; destruct (mark_of _ _ j); reflexivity].
  destruct Ki as (r&k&->&Em&Hr&Ek). rewrite Ek. destruct (mark_of (length toks) marks j) as [z'|]; [|rewrite Kj; reflexivity].
  destruct Kj as (r'&k'&->&Em'&Hr'&Ek'). rewrite Ek'. cbn [above]. destruct (proj1 (C46_ranks toks marks i x Hd Hi) r Em Hr) as (k0&E0&G). rewrite Ek in E0. apply some_inj in E0. subst k0.
  destruct (G j y r' Hj Em' Hr') as (k0&E0&G'). rewrite Ek' in E0. apply some_inj in E0. subst k0. destruct (Z.ltb_spec k k') as [L|L], (Z.ltb_spec (Z.of_N r) (Z.of_N r')) as [L'|L']; try reflexivity; exfalso.
  - apply G' in L. lia.
  - assert (r < r')%N by lia. apply G' in H. lia.
Qed.
(** abiftool -f debtally -t paircountjson: for every two options, the number of votes that give the first a smaller number than the second, or a number
    while the second has none. *)
Theorem C86_debtally : forall s rn a ls, reads_text s a "debtally" (deb_sheet ls) -> asks_counts a -> (forall l, In l ls -> deb_ok l) ->
  (forall v, In v (deb_votes ls) -> (length (fst v) <= length (deb_names ls))%nat) -> deb_votes ls <> [] -> Z.of_nat (length (deb_names ls)) < maxsize - 1 ->
  (forall name, In name (deb_names ls) -> nota_free name /\ abbreviation name <> [] /\ forall c, In c name -> c <> 93%N /\ c <> 35%N) -> NoDup (map abbreviation (deb_names ls)) ->
  exists count, prints_counts (main s rn a) (map abbreviation (deb_names ls)) count /\
    forall i j x y, nth_error (deb_names ls) i = Some x -> nth_error (deb_names ls) j = Some y -> i <> j -> count (abbreviation x) (abbreviation y) =
      Z.of_nat (length (filter (fun v => above (mark_of (length (deb_names ls)) (fst v) i) (mark_of (length (deb_names ls)) (fst v) j)) (deb_votes ls))).
Proof.
  intros s rn a ls R A Hok Hlen Hne Hmax Hnames Hd.
  destruct (C46_end_to_end (s_sha1 s) ls [] false false Hok Hlen Hne Hnames Hd ltac:(intros k x [])) as (raw&m&vs&E1&E2&Ec&P&F&_&_).
  assert (Ecs : cands m = map abbreviation (deb_names ls)) by (unfold cands; rewrite Ec, map_map; reflexivity).
  assert (Lt : forall marks, (length (vote_tiers_of (map abbreviation (deb_names ls)) marks) <= length (deb_names ls))%nat).
  { intro marks. unfold vote_tiers_of. rewrite map_length. etransitivity; [apply filter_len|]. rewrite map_length, seq_length. lia. }
  assert (Nt : forall marks, NoDup (concat (vote_tiers_of (map abbreviation (deb_names ls)) marks))) by (intro marks; apply tiers_concat_NoDup, Hd).
  assert (T : tallyable m).
  { split; [rewrite Ecs; exact Hd|]. intros v Hv. apply (Permutation_in _ P) in Hv. destruct (proj2 (Forall2_In _ _ _ F) v Hv) as (dv&Hin&Hv'&_).
    refine (tiers_ranked 1 _ v Hv' (Nt _) _). specialize (Lt (fst dv)). lia. }
  assert (Ht : forall c, In c (cands m) -> text c).
  { intros c Hin. rewrite Ecs in Hin. apply in_map_iff in Hin as (name&<-&Hin). apply simple_scalar. apply (abbreviation_simple name). apply Hnames, Hin. }
  exists (votes_over m). split.
  - rewrite <- Ecs. apply (prints_of s rn a "debtally" (deb_sheet ls)); try assumption; [cbn; tauto|discriminate|discriminate|]. unfold load. eval_fmt. rewrite E1. cbn [bind]. exact E2.
  - intros i j x y Hi Hj Nij. unfold votes_over. rewrite (where_perm _ _ _ P). rewrite <- zsum_ones.
    refine (weights (fun _ => 1) (fun v => above (mark_of (length (deb_names ls)) (fst v) i) (mark_of (length (deb_names ls)) (fst v) j)) _ _ _ _ F _).
    intros dv v Hin ((V1&V2&_)&_). split; [exact V1|]. unfold prefers. rewrite !V2. rewrite <- (map_length abbreviation (deb_names ls)).
    apply (mark_above (map abbreviation (deb_names ls)) (fst dv) i j); [exact Hd|apply (vote_ok_marks ls dv Hok Hin)|rewrite nth_error_map, Hi; reflexivity|rewrite nth_error_map, Hj; reflexivity].
Qed.
Print Assumptions C86_debtally.

(** ** nameq *)
Lemma text_app a b : text (a ++ b) <-> text a /\ text b.
Proof. unfold text. rewrite forallb_app, andb_true_iff. tauto. Qed.
Lemma text_cons c a : text (c :: a) <-> scalar c = true /\ text a.
Proof. unfold text. cbn [forallb]. rewrite andb_true_iff. tauto. Qed.
Lemma decode_text : forall n bs, (length bs <= n)%nat -> text (utf8_decode bs).
Proof.
  induction n as [|n IH]; intros bs Hl; [destruct bs; [reflexivity|cbn in Hl; lia]|]. destruct bs as [|b r]; [reflexivity|]. cbn [length] in Hl.
  assert (X : forall c s, scalar c = true -> (length s <= n)%nat -> text (c :: utf8_decode s)) by (intros c s Hc Hs; apply text_cons; split; [exact Hc|apply IH, Hs]).
  cbn [utf8_decode]. destruct (N.ltb_spec b 128); [apply X; [unfold scalar; lia|lia]|].
  destruct (UrlText.inr 194 223 b) eqn:R2; [|destruct (UrlText.inr 224 239 b) eqn:R3; [|destruct (UrlText.inr 240 244 b) eqn:R4; [|apply X; [reflexivity|lia]]]]; (destruct r as [|b2 r2]; [reflexivity|]); cbn [length] in Hl.
  - destruct (UrlText.cont b2) eqn:C2; [|apply X; [reflexivity|cbn [length]; lia]]. apply X; [|lia]. unfold UrlText.cont, UrlText.inr, scalar in *. lia.
  - destruct (UrlText.second3 b b2) eqn:C2; [|apply X; [reflexivity|cbn [length]; lia]]. destruct r2 as [|b3 r3]; [reflexivity|]. cbn [length] in Hl. destruct (UrlText.cont b3) eqn:C3; [|apply X; [reflexivity|cbn [length]; lia]].
    apply X; [|lia]. unfold UrlText.second3, UrlText.cont, UrlText.inr, scalar in *. destruct (N.eqb_spec b 224); [lia|]. destruct (N.eqb_spec b 237); [lia|]. lia.
  - destruct (UrlText.second4 b b2) eqn:C2; [|apply X; [reflexivity|cbn [length]; lia]]. destruct r2 as [|b3 r3]; [reflexivity|]. cbn [length] in Hl. destruct (UrlText.cont b3) eqn:C3; [|apply X; [reflexivity|cbn [length]; lia]].
    destruct r3 as [|b4 r4]; [reflexivity|]. cbn [length] in Hl. destruct (UrlText.cont b4) eqn:C4; [|apply X; [reflexivity|cbn [length]; lia]].
    apply X; [|lia]. unfold UrlText.second4, UrlText.cont, UrlText.inr, scalar in *. destruct (N.eqb_spec b 240); [lia|]. destruct (N.eqb_spec b 244); [lia|]. lia.
Qed.
Lemma unquote_text s : text s -> text (unquote s).
Proof.
  intro H. unfold unquote. destruct (existsb (N.eqb 37) s); [|exact H]. assert (G : forall s cur, text s -> text (ascii_runs s cur)).
  { clear. induction s as [|c s IH]; intros cur H; cbn [ascii_runs]; [apply (decode_text _ _ (le_n _))|]. apply text_cons in H as (Hc&H). destruct (c <? 128)%N; [apply IH, H|].
    apply text_app. split; [apply (decode_text _ _ (le_n _))|]. apply text_cons. split; [exact Hc|apply IH, H]. }
  apply G, H.
Qed.
Lemma text_incl a b : incl a b -> text b -> text a.
Proof. unfold text. rewrite !forallb_forall. intros H Hb x Hx. exact (Hb x (H x Hx)). Qed.
Lemma plus_text s : text s -> text (plus_to_space s).
Proof.
  intro H. unfold text, plus_to_space in *. rewrite forallb_forall in *. intros x Hx. apply in_map_iff in Hx as (y&<-&Hy). destruct (N.eqb y 43); [reflexivity|exact (H y Hy)].
Qed.
Lemma split_on_incl c s : forall p, In p (split_on c s) -> incl p s.
Proof.
  induction s as [|x s IH]; intros p Hp; cbn [split_on] in Hp; [destruct Hp as [<-|[]]; intros y []|]. destruct (N.eqb x c).
  - destruct Hp as [<-|Hp]; [intros y []|]. intros y Hy. right. exact (IH p Hp y Hy).
  - destruct (split_on c s) as [|q qs]; [destruct Hp as [<-|[]]; intros y [<-|[]]; left; reflexivity|]. destruct Hp as [<-|Hp].
    + intros y [<-|Hy]; [left; reflexivity|]. right. exact (IH q (or_introl eq_refl) y Hy).
    + intros y Hy. right. exact (IH p (or_intror Hp) y Hy).
Qed.
Lemma split_once_incl c s : forall a b, split_once c s = Some (a, b) -> incl a s.
Proof.
  induction s as [|x s IH]; intros a b E; cbn [split_once] in E; [discriminate|]. destruct (N.eqb x c); [injection E as <- <-; intros y []|]. destruct (split_once c s) as [[a' b']|]; [|discriminate].
  injection E as <- <-. intros y [<-|Hy]; [left; reflexivity|]. right. exact (IH a' b' eq_refl y Hy).
Qed.
Lemma parse_qs_text s : text s -> forall k vs, In (k, vs) (parse_qs s) -> text k.
Proof.
  intro H. assert (L : forall nv, In nv (parse_qsl s) -> text (fst nv)).
  { intros [n v] Hin. unfold parse_qsl in Hin. destruct s as [|c s0]; [destruct Hin|]. apply in_flat_map in Hin as (p&Hp&Hin). apply split_on_incl in Hp. destruct (split_once 61 p) as [[a b]|] eqn:E; [|destruct Hin].
    destruct b; [destruct Hin|]. destruct Hin as [E1|[]]. injection E1 as <- <-. cbn [fst]. apply unquote_text, plus_text. apply (text_incl _ p (split_once_incl _ _ _ _ E)). exact (text_incl _ _ Hp H). }
  unfold parse_qs. revert L. generalize (parse_qsl s). intros l L.
  assert (G : forall l (d : dict (list str)), (forall nv, In nv l -> text (fst nv)) -> (forall k vs, In (k, vs) d -> text k) ->
    forall k vs, In (k, vs) (fold_left (fun d (nv : str * str) => match dget (fst nv) d with Some vs => dset (fst nv) (vs ++ [snd nv]) d | None => dset (fst nv) [snd nv] d end) l d) -> text k).
  { clear. induction l as [|nv l IH]; intros d L D k vs Hin; [exact (D k vs Hin)|]. cbn [fold_left] in Hin. refine (IH _ (fun x Hx => L x (or_intror Hx)) _ k vs Hin). clear k vs Hin. intros k vs Hin.
    destruct (dget (fst nv) d); apply In_dset in Hin as [(->&_)|Hin]; try exact (D k vs Hin); exact (L nv (or_introl eq_refl)). }
  apply (G l [] L). intros k vs [].
Qed.
Lemma nameq_ranks line v : nameq_line line = Ok v -> v_qty v = 1 /\ map fst (v_prefs v) = map fst (parse_qs (strip line)) /\ forall c, dget c (v_prefs v) = option_map ranked (named_rank line c).
Proof.
  intro H. destruct (nameq_line_shape line v H) as (H1&_&_&H2). split; [exact H1|]. split; [exact H2|]. intro c. unfold named_rank. destruct (parse_qs_ok (strip line)) as (Hn&Hv).
  unfold nameq_line in H. apply bind_ok in H as (prefs&Hf&Hw). apply ok_inj in Hw. subst v. cbn [v_prefs vl]. revert Hf Hn Hv. generalize (parse_qs (strip line)) as l. clear. intros l Hf Hn Hv.
  assert (G : forall l (d prefs : dict pref), foldM (fun d (kv : str * list str) => bind (match snd kv with v0 :: _ => py_int v0 | [] => Err IndexError end) (fun r => Ok (dset (fst kv) (ranked r) d))) l d = Ok prefs ->
    NoDup (dkeys l) -> (forall k vs, In (k, vs) l -> vs <> []) ->
    dget c prefs = match dget c l with Some (x :: _) => match py_int x with Ok r => Some (ranked r) | Err _ => None end | _ => dget c d end).
  { clear. induction l as [|[k vs] l IH]; intros d prefs Hf Hn Hv; cbn [foldM] in Hf; [apply ok_inj in Hf; subst; reflexivity|]. cbn [fst snd] in Hf. apply bind_ok in Hf as (d1&H1&Hf). apply bind_ok in H1 as (r&Hr&H1). apply ok_inj in H1. subst d1.
    inversion Hn as [|? ? Hk Hn']; subst. rewrite (IH _ _ Hf Hn' (fun k vs Hin => Hv k vs (or_intror Hin))). cbn [dget]. destruct (str_eqb_spec c k) as [->|Ne].
    - rewrite (proj2 (dget_None k l) Hk). destruct vs as [|x vs]; [destruct (Hv k [] (or_introl eq_refl) eq_refl)|]. rewrite dget_dset, str_eqb_refl, Hr. reflexivity.
    - rewrite dget_dset. destruct (str_eqb_spec c k); [congruence|]. destruct (dget c l) as [[|x y]|]; reflexivity. }
  rewrite (G l [] prefs Hf Hn Hv). destruct (dget c l) as [[|x y]|] eqn:E; try reflexivity. destruct (py_int x); reflexivity.
Qed.
Lemma nameq_tallied t m : convert_nameq_to_jabmod t = Ok m -> text t -> (forall line c r, In line (splitlines t) -> named_rank line c = Some r -> r < maxsize) ->
  tallyable m /\ (forall c, In c (cands m) -> text c) /\ (forall c, In c (cands m) <-> exists line r, In line (splitlines t) /\ named_rank line c = Some r) /\
  forall x y, votes_over m x y = Z.of_nat (length (filter (fun line => above (named_rank line x) (named_rank line y)) (splitlines t))).
Proof.
  intros E Ht Hr. destruct (C43_every_line_counted t m E) as (_&_&_&Hn&_&_). unfold convert_nameq_to_jabmod in E. apply bind_ok in E as (vs&Ev&E). apply ok_inj in E. apply mapM_inv in Ev.
  pose proof (nameq_cands_ok vs) as (_&_&C3). assert (Ec : cands m = dkeys (nameq_cands vs)) by (subst m; reflexivity). assert (El : j_votelines m = vs) by (subst m; reflexivity). clear E.
  assert (K : forall v, In v vs -> exists line, In line (splitlines t) /\ nameq_line line = Ok v) by (intros v Hv; destruct (Forall2_In_r _ _ _ _ Ev Hv) as (l&Hl&Hlv); exists l; auto).
  assert (K' : forall line, In line (splitlines t) -> exists v, In v vs /\ nameq_line line = Ok v) by (intros l Hl; exact (proj1 (Forall2_In _ _ _ Ev) l Hl)).
  assert (M : forall line v c, nameq_line line = Ok v -> In c (map fst (v_prefs v)) <-> exists r, named_rank line c = Some r).
  { intros line v c Hv. destruct (nameq_ranks line v Hv) as (_&_&G). split.
    - intro Hin. apply dget_Some_In in Hin as (p&Hp). rewrite (G c) in Hp. destruct (named_rank line c) as [r|]; [eauto|discriminate].
    - intros (r&Er). specialize (G c). rewrite Er in G. exact (in_map fst _ _ (dget_In _ _ _ G)). }
  split; [|split; [|split]].
  - split; [exact Hn|]. rewrite El. intros v Hv. destruct (K v Hv) as (line&Hl&Hlv). apply forallb_forall. intros [c p] Hin. cbn [snd]. destruct (nameq_line_shape line v Hlv) as (_&Nd&_). destruct (nameq_ranks line v Hlv) as (_&_&G). apply (dget_In_nodup _ _ _ Nd) in Hin. rewrite (G c) in Hin.
    destruct (named_rank line c) as [r|] eqn:Er; [|discriminate]. apply some_inj in Hin. subst p. cbn [p_rank ranked]. apply Z.ltb_lt. exact (Hr line c r Hl Er).
  - intros c Hc. rewrite Ec in Hc. apply C3 in Hc as (v&Hv&Hc). destruct (K v Hv) as (line&Hl&Hlv). destruct (nameq_ranks line v Hlv) as (_&G&_). rewrite G in Hc. apply in_map_iff in Hc as ([k ws]&<-&Hin). refine (parse_qs_text (strip line) _ k ws Hin).
    apply (text_incl _ line); [apply strip_incl|]. exact (splitlines_aux_all scalar _ t [] false (le_n _) Ht eq_refl line Hl).
  - intro c. rewrite Ec, (C3 c). split.
    + intros (v&Hv&Hc). destruct (K v Hv) as (line&Hl&Hlv). pose proof (proj1 (M line v c Hlv) Hc) as (r&Er). exists line, r. auto.
    + intros (line&r&Hl&Er). destruct (K' line Hl) as (v&Hv&Hlv). exists v. split; [exact Hv|]. apply (M line v c Hlv). eauto.
  - intros x y. unfold votes_over. rewrite El, <- zsum_ones. refine (weights (fun _ => 1) _ _ _ _ _ Ev _). intros line v _ Hv. destruct (nameq_ranks line v Hv) as (G1&_&G2). split; [exact G1|]. unfold prefers, rank_on. rewrite !G2.
    destruct (named_rank line x), (named_rank line y); reflexivity.
Qed.
(** abiftool -f nameq -t paircountjson: for every two names, the number of lines that give the first a smaller number than the second, or a number while they do
    not mention the second. *)
Theorem C86_nameq : forall s rn a t, reads_text s a "nameq" t -> asks_counts a -> text t ->
  (forall line name value more, In line (splitlines t) -> dget name (parse_qs (strip line)) = Some (value :: more) -> exists r, py_int value = Ok r /\ r < maxsize) ->
  exists cs, prints_counts (main s rn a) cs (fun x y => Z.of_nat (length (filter (fun line => above (named_rank line x) (named_rank line y)) (splitlines t)))) /\
    forall c, In c cs <-> exists line r, In line (splitlines t) /\ named_rank line c = Some r.
Proof.
  intros s rn a t R A Ht Hr. destruct (convert_nameq_to_jabmod t) as [m|e] eqn:Em.
  - assert (B : forall line c r, In line (splitlines t) -> named_rank line c = Some r -> r < maxsize).
    { intros line c r Hl Er. unfold named_rank in Er. destruct (dget c (parse_qs (strip line))) as [[|x more]|] eqn:Ed; try discriminate. destruct (Hr line c x more Hl Ed) as (r'&Er'&Hb). rewrite Er' in Er. apply some_inj in Er. subst r'. exact Hb. }
    destruct (nameq_tallied t m Em Ht B) as (T&Tx&Hc&Hv). exists (cands m). split; [|exact Hc]. refine (prints_mono _ _ (votes_over m) _ _ (fun x y _ _ _ => Hv x y)).
    apply (prints_of s rn a "nameq" t); try assumption; [cbn; tauto|discriminate|discriminate].
  - exfalso. destruct (C43_only_bad_ranks_fail t e Em) as (_&line&name&value&more&H1&H2&H3). destruct (Hr line name value more H1 H2) as (r&Er&_). congruence.
Qed.
Print Assumptions C86_nameq.

(** ** San Francisco files *)
(** A run that is given these files, with these texts. *)
Definition reads_files (s : surroundings) (a : args) (fmt : string) (ts : list str) : Prop :=
  input_format a = Ok (u fmt) /\ Forall2 (fun f t => s_exists s f = true /\ s_read s f = Ok t) (a_input_file a) ts.
(** The rank a voter gives to a candidate: that of the last line with this candidate. *)
Fixpoint last_rank (name_of : str -> option (option str)) (g : list image) (tok : str) : option Z :=
  match g with
  | [] => None
  | x :: r => match last_rank name_of r tok with
              | Some z => Some z
              | None => match token_on name_of false x with
                        | Some k => if str_eqb k tok then match py_int (im_rank x) with Ok z => Some z | Err _ => None end else None
                        | None => None
                        end
              end
  end.
Lemma read_all s fs : forall ts input blobs reads, Forall2 (fun f t => s_exists s f = true /\ s_read s f = Ok t) fs ts ->
  read_files s fs input blobs reads = (reads ++ fs, Got (last ts input) (blobs ++ ts)).
Proof.
  induction fs as [|f fs IH]; intros ts input blobs reads F; inversion F as [|? t ? ts' (H1&H2) F']; subst; cbn [read_files]; [rewrite !app_nil_r; reflexivity|].
  rewrite H1, H2, (IH ts' t _ _ F'). rewrite <- !app_assoc. cbn [app]. do 2 f_equal. destruct ts'; [reflexivity|]. cbn [last]. generalize s0, ts'. clear. intros x l. revert x. induction l as [|y l IH]; intro x; [reflexivity|]. cbn [last]. destruct l; [reflexivity|]. exact (IH y).
Qed.
Lemma main_sftxt s rn a ts : reads_files s a "sftxt" ts -> (2 <= length ts)%nat -> main s rn a =
  match load s a (u "sftxt") (last ts []) ts with
  | Ok m => match render_as (unnamed (u "sftxt") (last ts []) ts) s rn (a_to a) (a_width a) (modifiers a) (if has "consolidate" (modifiers a) then consolidate m else m) with Ok out => Outcome (a_input_file a) (println out) Done | Err e => Outcome (a_input_file a) [] (Uncaught e) end
  | Err e => Outcome (a_input_file a) [] (Uncaught e)
  end.
Proof.
  intros (Ef&F) L. unfold main. rewrite Ef. change (memb (u "sftxt") validinfmts) with true. cbn [negb].
  assert (E : read_input s a = (a_input_file a, Got (last ts []) ts)).
  { unfold read_input. pose proof (read_all s _ ts [] [] [] F) as G. cbn [app] in G. destruct (a_input_file a) as [|f0 [|f1 fs]]; [|inversion F as [|? ? ? ? _ F']; subst; inversion F'; subst; cbn in L; lia|]; exact G. }
  rewrite E. destruct (load _ _ _ _ _) as [m|[]]; reflexivity.
Qed.
Lemma counts_unnamed none s rn a m : asks_counts a -> render_as none s rn (a_to a) (a_width a) (modifiers a) m = render s rn (a_to a) (a_width a) (modifiers a) m.
Proof.
  intros (Et&Hi&_). destruct none as [|k none]; [reflexivity|]. cbn [render_as]. rewrite Et. unfold render_unnamed. change (str_eqb (u "paircountjson") (u "html") || str_eqb (u "paircountjson") (u "html_snippet")) with false.
  change (str_eqb (u "paircountjson") (u "irvjson") || str_eqb (u "paircountjson") (u "json") || str_eqb (u "paircountjson") (u "paircountjson")) with true. change (str_eqb (u "paircountjson") (u "irvjson")) with false.
  cbn [orb]. rewrite (has_false _ _ Hi). reflexivity.
Qed.
Lemma digit_le c d : digit_val c = Some d -> (d <= 9)%N.
Proof.
  unfold digit_val. generalize nd_zeros. induction l as [|z l IH]; intro H; cbn [digit_in] in H; [discriminate|]. destruct ((z <=? c)%N && (c <? z + 10)%N) eqn:E; [apply some_inj in H; lia|exact (IH H)].
Qed.
Lemma digits_bound s : forall acc need n, digits_val s acc need = Some n -> (n <= (acc + 1) * 10 ^ N.of_nat (length s) - 1)%N.
Proof.
  induction s as [|c s IH]; intros acc need n H; cbn [digits_val] in H.
  - destruct need; [discriminate|]. apply some_inj in H. cbn [length]. change (N.of_nat 0) with 0%N. rewrite N.pow_0_r. lia.
  - cbn [length]. rewrite Nat2N.inj_succ, N.pow_succ_r'. pose proof (N.pow_nonzero 10 (N.of_nat (length s)) ltac:(lia)) as P. destruct (digit_val c) as [d|] eqn:Ed.
    + apply digit_le in Ed. apply IH in H. nia.
    + destruct (N.eqb c 95 && negb need); [|discriminate]. apply IH in H. nia.
Qed.
Lemma rank_field line r : py_int (im_rank (image_of line)) = Ok r -> r < maxsize.
Proof.
  cbn [image_of im_rank]. set (f := chars 33 36 line). assert (L : (length (strip f) <= 3)%nat).
  { unfold strip. destruct (rstrip_prefix (lstrip f)) as (x&E1&_). destruct (lstrip_suffix f) as (y&E2&_). apply (f_equal (@length N)) in E1, E2. rewrite app_length in E1, E2.
    assert (length f <= 3)%nat by (unfold f, chars; rewrite firstn_length; change (N.to_nat 36 - N.to_nat 33)%nat with 3%nat; lia). lia. }
  assert (B : forall s0 n, (length s0 <= 3)%nat -> digits_val s0 0 true = Some n -> (n <= 999)%N).
  { intros s0 n Hl H. apply digits_bound in H. destruct s0 as [|a0 [|a1 [|a2 [|a3 s0]]]]; cbn [length] in *; try lia; vm_compute N.pow in H; lia. }
  intro H. assert (H' : exists s0, (length s0 <= 3)%nat /\ (of_option ValueError (option_map (fun n => Z.opp (Z.of_N n)) (digits_val s0 0 true)) = Ok r \/ of_option ValueError (option_map Z.of_N (digits_val s0 0 true)) = Ok r)).
  { unfold py_int in H. destruct (strip f) as [|c s0] eqn:Es; [exists []; split; [cbn; lia|right; exact H]|]. cbn [length] in L.
    destruct (N.eq_dec c 45) as [->|N1]; [exists s0; split; [lia|left; exact H]|]. destruct (N.eq_dec c 43) as [->|N2]; [exists s0; split; [lia|right; exact H]|].
    exists (c :: s0). split; [cbn [length]; lia|right]. refine (eq_trans _ H). destruct c as [|q]; [reflexivity|]. do 6 (destruct q as [q|q|]; try reflexivity); congruence. }
  clear H. destruct H' as (s0&Hl&[H|H]); destruct (digits_val s0 0 true) as [n|] eqn:Ed; try discriminate; cbn in H; apply ok_inj in H; pose proof (B s0 n Hl Ed); unfold maxsize; lia.
Qed.
Lemma last_rank_of names g v tok : line_of_group names false g v -> (forall x, In x g -> exists r, py_int (im_rank x) = Ok r) -> rank_on v tok = last_rank names g tok.
Proof.
  intros (_&_&H) Hg. unfold rank_on.
  assert (K : forall z, last_rank names g tok = Some z <-> exists before x after, g = before ++ x :: after /\ token_on names false x = Some tok /\ py_int (im_rank x) = Ok z /\ forall y, In y after -> token_on names false y <> Some tok).
  { clear H. induction g as [|x g IH]; intro z; cbn [last_rank]; [split; [discriminate|intros ([|? ?]&?&?&E&_); discriminate]|]. specialize (IH (fun y Hy => Hg y (or_intror Hy))).
    destruct (last_rank names g tok) as [w|] eqn:El.
    - rewrite IH. split; intros (b1&y&a1&E&R).
      + exists (x :: b1), y, a1. split; [rewrite E; reflexivity|exact R].
      + destruct b1 as [|x' b1]; cbn [app] in E; injection E as -> E; [|exists b1, y, a1; auto]. exfalso. subst a1. destruct (proj1 (IH w) eq_refl) as (b2&y2&a2&E2&T2&_). apply (proj2 (proj2 R) y2); [rewrite E2; apply in_or_app; right; left; reflexivity|exact T2].
    - assert (No : forall y, In y g -> token_on names false y <> Some tok).
      { clear -El Hg. induction g as [|y g IH]; intros w Hw; [destruct Hw|]. cbn [last_rank] in El. destruct (last_rank names g tok) eqn:E1; [discriminate|]. destruct Hw as [<-|Hw]; [|apply (IH (fun q Hq => Hg q (match Hq with or_introl e => or_introl e | or_intror e => or_intror (or_intror e) end)) eq_refl w Hw)].
        intro T. rewrite T, str_eqb_refl in El. destruct (Hg y (or_intror (or_introl eq_refl))) as (r&Er). rewrite Er in El. discriminate. }
      split.
      + destruct (token_on names false x) as [k|] eqn:T; [|discriminate]. destruct (str_eqb_spec k tok) as [->|]; [|discriminate]. destruct (py_int (im_rank x)) as [r|] eqn:Er; [|discriminate]. intro E. apply some_inj in E. subst z.
        exists [], x, g. split; [reflexivity|]. split; [exact T|]. split; [exact Er|exact No].
      + intros (b1&y&a1&E&T&Er&_). destruct b1 as [|x' b1]; cbn [app] in E; injection E as -> E; [rewrite T, str_eqb_refl, Er; reflexivity|]. exfalso. apply (No y); [rewrite E; apply in_or_app; right; left; reflexivity|exact T]. }
  destruct (last_rank names g tok) as [z|] eqn:El.
  - destruct (proj1 (K z) eq_refl) as (b1&x&a1&E&T&Er&N). assert (D : dget tok (v_prefs v) = Some (ranked z)) by (apply H; exists b1, x, a1, z; auto). rewrite D. reflexivity.
  - destruct (dget tok (v_prefs v)) as [p|] eqn:D; [|reflexivity]. apply H in D as (b1&x&a1&r&E&T&Er&_&N). assert (X : None = Some r) by (apply K; exists b1, x, a1; auto). discriminate X.
Qed.
Lemma cand_table_text pool : forall n t, (forall k, In k (dkeys t) -> text k) -> forall k, In k (dkeys (cand_table n pool t)) -> text k.
Proof.
  induction pool as [|[i o] pool IH]; intros n t Ht; [exact Ht|]. cbn [cand_table]. apply IH. intros k Hk. apply In_dkeys_dset in Hk as [->|Hk]; [|exact (Ht k Hk)].
  destruct (truthy o); [apply sf_token_scalar|apply simple_scalar, digits_simple].
Qed.
Lemma cand_table_nodup pool : forall n t, NoDup (dkeys t) -> NoDup (dkeys (cand_table n pool t)).
Proof. induction pool as [|[i o] pool IH]; intros n t Ht; [exact Ht|]. cbn [cand_table]. apply IH, NoDup_dset, Ht. Qed.
(** abiftool -f sftxt -t paircountjson, given the master lookup file and then the ballot image file: for every two candidates the number of voters of the contest
    whose lines give the first a smaller number than the second, or a number while none of them has the second. *)
Theorem C86_sftxt : forall s rn a master ballots more contest, reads_files s a "sftxt" (master :: ballots :: more) -> asks_counts a -> acceptable master ballots contest ->
  let names := named (map lookup_of (splitlines master)) in
  exists cs gs, ballots_of (mine contest (map image_of (splitlines ballots))) gs /\
    prints_counts (main s rn a) cs (fun x y => Z.of_nat (length (filter (fun g => above (last_rank names g x) (last_rank names g y)) gs))) /\
    forall x k, In x (concat gs) -> token_on names false x = Some k -> In k cs.
Proof.
  intros s rn a master ballots more contest R A Acc names. destruct (C51_ballots_counted master ballots contest false Acc) as (sm&E&(gs&vs&B&F&_&_&_&_&Hw)).
  pose proof (C51_tokens_listed master ballots false sm) as Listed.
  destruct Acc as (H1&H2&H3&H4&H5). pose proof E as E0. unfold convert_sftxt_to_jabmod in E0. rewrite master_read in E0 by exact H1. cbn [bind] in E0. destruct (pool_of (splitlines master) H1) as (pool&P1&P2&P3). rewrite P1 in E0. cbn [bind] in E0.
  apply first_id_contest in H3. rewrite H3 in E0. rewrite ballots_read in E0; [|apply (mine_nonempty contest), H4|exact H2].
  destruct (C50_grouped pool contest (map image_of (splitlines ballots))) as (gs0&bs&Eb&B0&F0); [apply (good_votes pool _ contest _ P3), H5|exact H4|].
  rewrite Eb in E0. cbn [bind] in E0. destruct (ballot_lines pool false gs0 bs F0) as (vs0&Ev&Fv). rewrite Ev in E0. cbn [bind] in E0. apply ok_inj in E0.
  set (mdata := dset k_ballotcount (JInt (Z.of_nat (length vs0))) (dset (u "contestid") (JStr contest) (j_metadata emptyish))) in *.
  assert (Hc : clean (Jabmod mdata [] vs0)).
  { intros w Hv. cbn [j_votelines] in Hv. destruct (proj2 (Forall2_In _ _ _ Fv) w Hv) as (g&_&Hg). apply (group_line_clean _ _ _ _ Hg). }
  assert (El : j_votelines (jabmod_of_sf sm) = map (fun v => vl (ballots_where (fun w => same_line v w) vs0) (v_prefs v)) (first_of_each vs0)).
  { rewrite <- E0. unfold jabmod_of_sf. cbn [sf_votelines j_votelines]. rewrite (C44_exact _ Hc). reflexivity. }
  assert (Ec : cands (jabmod_of_sf sm) = dkeys (cand_table 0 pool [])).
  { rewrite <- E0. unfold cands, jabmod_of_sf. cbn [j_candidates sf_candidates]. rewrite map_map. reflexivity. }
  assert (Rk : forall x, In x (mine contest (map image_of (splitlines ballots))) -> exists r, py_int (im_rank x) = Ok r) by (intros x Hx; exact (proj1 (H5 x Hx))).
  assert (Gin : forall g x, In g gs -> In x g -> In x (mine contest (map image_of (splitlines ballots)))) by (intros g x Hg Hx; rewrite <- (proj1 B); apply in_concat; exists g; auto).
  assert (G0in : forall g x, In g gs0 -> In x g -> In x (mine contest (map image_of (splitlines ballots)))) by (intros g x Hg Hx; rewrite <- (proj1 B0); apply in_concat; exists g; auto).
  assert (T : tallyable (jabmod_of_sf sm)).
  { split; [rewrite Ec; apply cand_table_nodup; constructor|]. rewrite El. intros v Hv. apply in_map_iff in Hv as (w&<-&Hv). apply foe_incl in Hv. destruct (proj2 (Forall2_In _ _ _ Fv) w Hv) as (g&Hg&(_&Q2&Q3)).
    apply forallb_forall. cbn [v_prefs vl]. intros [c p] Hin. cbn [snd]. apply (dget_In_nodup _ _ _ Q2) in Hin. apply Q3 in Hin as (b1&x&a1&r&Eg&_&Er&->&_). cbn [p_rank ranked]. apply Z.ltb_lt.
    assert (Hx : In x (mine contest (map image_of (splitlines ballots)))) by (apply (G0in g x Hg); rewrite Eg; apply in_or_app; right; left; reflexivity).
    apply filter_In in Hx as (Hx&_). apply in_map_iff in Hx as (line&<-&_). exact (rank_field line r Er). }
  assert (Tx : forall c, In c (cands (jabmod_of_sf sm)) -> text c) by (rewrite Ec; apply cand_table_text; intros k []).
  exists (cands (jabmod_of_sf sm)), gs. split; [exact B|]. split.
  - refine (prints_mono _ _ (votes_over (jabmod_of_sf sm)) _ _ _).
    + pose proof (main_sftxt s rn a _ R ltac:(cbn [length]; lia)) as M. assert (L : load s a (u "sftxt") (last (master :: ballots :: more) []) (master :: ballots :: more) = Ok (jabmod_of_sf sm)).
      { unfold load. eval_fmt. cbn [blob nth_error of_option bind]. rewrite E. reflexivity. }
      rewrite L, (has_false _ _ (proj2 (proj2 A))), (counts_unnamed _ s rn a _ A) in M. destruct (counts_shown s rn a _ A T Tx) as (out&rows&Er&H). rewrite Er in M. rewrite M. split; [reflexivity|]. exists out, rows. split; [reflexivity|exact H].
    + intros x y _ _ _. unfold votes_over. change (j_votelines (jabmod_of_sf sm)) with (sf_votelines sm). rewrite Hw by (intros v w D; unfold prefers, rank_on; rewrite !D; reflexivity).
      rewrite <- zsum_ones. refine (weights (fun _ => 1) (fun g => above (last_rank names g x) (last_rank names g y)) _ _ _ _ F _). intros g v Hg Hv. split; [exact (proj1 Hv)|]. rewrite prefers_above.
      rewrite !(last_rank_of names g v) by (try exact Hv; intros z Hz; exact (Rk z (Gin g z Hg Hz))). reflexivity.
  - intros x k Hx Hk. rewrite Ec. rewrite (proj1 B) in Hx. destruct (H5 x Hx) as (_&Hn&_). unfold token_on, names in Hk. destruct (named (map lookup_of (splitlines master)) (im_cand x)) as [[[|c cr]|]|] eqn:En; try discriminate Hk.
    apply some_inj in Hk. subst k. rewrite <- P3 in En. exact (proj2 (table_keys pool 0 []) _ _ _ (dget_In _ _ _ En)).
Qed.
Print Assumptions C86_sftxt.
(** With the first of the two files alone, the run fails. *)
Theorem C86_sftxt_one_file : forall s rn a f t, a_input_file a = [f] -> f <> dash -> reads_files s a "sftxt" [t] -> o_ending (main s rn a) = Uncaught IndexError /\ o_stdout (main s rn a) = [].
Proof.
  intros s rn a f t Ef Nf (Eg&F). rewrite Ef in F. inversion F as [|? ? ? ? (H1&H2) _]; subst. unfold main. rewrite Eg. change (memb (u "sftxt") validinfmts) with true. cbn [negb]. unfold read_input. rewrite Ef.
  destruct (str_eqb_spec f dash); [congruence|]. cbn [read_files]. rewrite H1, H2. cbn [read_files app]. unfold load. eval_fmt. destruct (blob 0 [t]) eqn:E; [|discriminate E]. cbn. auto.
Qed.
Print Assumptions C86_sftxt_one_file.

(** ** abiftool -t nameq X > Y; abiftool -f nameq Y *)
Lemma reread_nameq m out : (forall v, In v (j_votelines m) -> NoDup (map fst (v_prefs v))) -> convert_jabmod_to_nameq m = Ok out ->
  saved (out ++ [10%N]) = out ++ [10%N] /\ exists m', convert_nameq_to_jabmod (out ++ [10%N]) = Ok m' /\
    map ballot (j_votelines m') = flat_map (fun v => repeat (ballot v) (Z.to_nat (v_qty v))) (j_votelines m) ++ [[]] /\
    (forall v, In v (j_votelines m') -> v_qty v = 1) /\ NoDup (cands m') /\
    (forall c, In c (cands m') <-> exists v, In v (j_votelines m) /\ 0 < v_qty v /\ In c (map fst (v_prefs v))) /\
    dget k_ballotcount (j_metadata m') = Some (JInt (Z.of_nat (length (j_votelines m')))).
Proof.
  intros Hn H. unfold convert_jabmod_to_nameq in H. apply bind_ok in H as (ts&Hm&Ht). apply ok_inj in Ht. subst out. destruct (nameq_lines _ _ Hn Hm) as (lines&vs&E1&E2&E3&E4&E5).
  assert (E2' : forall l, In l (lines ++ [[]]) -> one_line l) by (intros l Hl; apply in_app_or in Hl as [Hl|[<-|[]]]; [exact (E2 l Hl)|intros c []]).
  assert (Eu : concat ts ++ [10%N] = unlines (lines ++ [[]])) by (rewrite NameqFacts.unlines_app, E1; reflexivity). rewrite Eu. split.
  { apply universal_id. unfold unlines. intro Hin. apply in_flat_map in Hin as (l&Hl&Hin). apply in_app_or in Hin as [Hin|[Hin|[]]]; [|discriminate Hin]. specialize (E2' l Hl _ Hin). discriminate E2'. }
  assert (E3' : mapM nameq_line (lines ++ [[]]) = Ok (vs ++ [Voteline 1 [] None None None (Some [])])).
  { clear -E3. revert vs E3. induction lines as [|l lines IH]; intros vs E; [apply ok_inj in E; subst vs; reflexivity|]. cbn [mapM app] in *. apply bind_ok in E as (v&Ev&E). apply bind_ok in E as (vs'&Evs&E). apply ok_inj in E. subst vs. rewrite Ev. cbn [bind]. rewrite (IH vs' Evs). reflexivity. }
  unfold convert_nameq_to_jabmod. rewrite (splitlines_unlines _ E2'), E3'. cbn [bind]. eexists. split; [reflexivity|]. cbn [j_votelines j_candidates j_metadata]. fold (nameq_cands (vs ++ [Voteline 1 [] None None None (Some [])])). destruct (nameq_cands_ok (vs ++ [Voteline 1 [] None None None (Some [])])) as (C1&_&C3).
  split; [rewrite map_app, E5; reflexivity|]. split; [intros v Hv; apply in_app_or in Hv as [Hv|[<-|[]]]; [apply E4, Hv|reflexivity]|]. split; [exact C1|]. split; [|reflexivity].
  intro c. unfold cands. cbn [j_candidates]. rewrite (C3 c). split.
  - intros (v&Hv&Hc). apply in_app_or in Hv as [Hv|[<-|[]]]; [|destruct Hc]. apply (in_map ballot) in Hv. rewrite E5 in Hv. apply in_flat_map in Hv as (w&Hw&Hb). exists w. split; [exact Hw|]. destruct (Z.to_nat (v_qty w)) as [|n] eqn:Eq; [destruct Hb|]. split; [lia|]. apply repeat_spec in Hb.
    apply (f_equal (map fst)) in Hb. rewrite !ballot_fst in Hb. rewrite <- Hb. exact Hc.
  - intros (w&Hw&Hq&Hc). assert (Hb : In (ballot w) (map ballot vs)).
    { rewrite E5. apply in_flat_map. exists w. split; [exact Hw|]. destruct (Z.to_nat (v_qty w)) as [|n] eqn:Eq; [lia|]. left. reflexivity. }
    apply in_map_iff in Hb as (v&Hb&Hv). exists v. split; [apply in_or_app; left; exact Hv|]. apply (f_equal (map fst)) in Hb. rewrite !ballot_fst in Hb. rewrite Hb. exact Hc.
Qed.
(** abiftool X -t nameq > Y; abiftool -f nameq Y -t paircountjson: the candidates on the votelines of X that stand for at least one ballot, and the counts of X.
    But Y ends with an empty line, which is read as one more ballot. *)
Theorem C86_pipe_nameq : forall s rn a0 t m, takes s a0 t -> plain a0 -> a_to a0 = u "nameq" -> convert_abif_to_jabmod t false false false = Ok m -> text t -> Z.of_nat (length t) <= maxsize ->
  o_ending (main s rn a0) = Done /\
  (forall s' a', reads_text s' a' "nameq" (saved (o_stdout (main s rn a0))) -> asks_counts a' -> exists cs, prints_counts (main s' rn a') cs (votes_over m) /\
     forall c, In c cs <-> exists v, In v (j_votelines m) /\ 0 < v_qty v /\ In c (map fst (v_prefs v))) /\
  exists m', convert_nameq_to_jabmod (saved (o_stdout (main s rn a0))) = Ok m' /\ total_ballots m' = total_ballots m + 1 /\ dget k_ballotcount (j_metadata m') = Some (JInt (total_ballots m + 1)).
Proof.
  intros s rn a0 t m R (Q1&Q2&Q3&Q4) Et Em Ht Hl. destruct (parsed_usable _ _ _ _ _ Em Ht Hl) as [T _ _ _ Pr Sc].
  assert (W : exists out, convert_jabmod_to_nameq m = Ok out).
  { apply C42_written. intros v c p Hv Hin. destruct (Pr v Hv c p Hin) as (A1&A2&_). auto. }
  destruct W as (out&W). assert (L : forall v, In v (j_votelines m) -> 0 <= v_qty v /\ NoDup (map fst (v_prefs v)) /\ incl (map fst (v_prefs v)) (cands m)).
  { intros v Hv. destruct (C29_well_formed _ _ _ _ _ Em) as (_&_&_&_&G). destruct (G v Hv) as (G1&G2&G3&_). auto. }
  destruct (main_takes s rn a0 t R) as (reads&msg&E). rewrite Q1, Q2, (has_false _ _ Q3), (has_false _ _ Q4), Em, Et in E. change (render s rn (u "nameq") (a_width a0) (modifiers a0) m) with (convert_jabmod_to_nameq m) in E. rewrite W in E. rewrite E. cbn [o_stdout o_ending].
  split; [reflexivity|]. unfold println. destruct (reread_nameq m out (fun v Hv => proj1 (proj2 (L v Hv))) W) as (Es&m'&M1&M2&M3&M4&M5&M6). rewrite Es.
  assert (V : forall x y, votes_over m' x y = votes_over m x y).
  { intros x y. unfold votes_over. destruct (exists_last (l := j_votelines m')) as (vs&b0&Ev); [intro En; rewrite En in M2; destruct (flat_map _ _) in M2; discriminate M2|]. rewrite Ev, map_app in M2. cbn [map] in M2. apply app_inj_tail in M2 as (M2&Mb).
    rewrite Ev. unfold ballots_where. rewrite map_app, zsum_app. cbn [map zsum]. rewrite (prefers_ballot b0), Mb. change (prefers_in [] x y) with false. rewrite !Z.add_0_r. refine (votes_unit (j_votelines m) vs x y (fun v Hv => proj1 (L v Hv)) _ M2). intros v Hv. apply M3. rewrite Ev. apply in_or_app. left; exact Hv. }
  assert (Tb : total_ballots m' = total_ballots m + 1 /\ Z.of_nat (length (j_votelines m')) = total_ballots m + 1).
  { assert (N : Z.of_nat (length (j_votelines m')) = total_ballots m + 1).
    { rewrite <- (map_length ballot), M2, app_length. cbn [length]. unfold total_ballots. clear -L. revert L. generalize (cands m). generalize (j_votelines m). intros ls cs L. rewrite Nat2Z.inj_add. f_equal.
      induction ls as [|v ls IH]; [reflexivity|]. cbn [flat_map map zsum]. rewrite app_length, repeat_length, Nat2Z.inj_add, IH by (intros w Hw; apply L; right; exact Hw). destruct (L v (or_introl eq_refl)) as (Hq&_). lia. }
    split; [|exact N]. rewrite <- N. unfold total_ballots. clear -M3. revert M3. generalize (j_votelines m'). induction l as [|v l IH]; intro M; [reflexivity|]. cbn [map zsum length]. rewrite (M v (or_introl eq_refl)), IH by (intros w Hw; apply M; right; exact Hw). lia. }
  split; [|exists m'; split; [exact M1|]; split; [exact (proj1 Tb)|rewrite M6, (proj2 Tb); reflexivity]].
  intros s' a' R' A'. exists (cands m'). split; [|exact M5]. refine (prints_mono _ _ (votes_over m') _ _ (fun x y _ _ _ => V x y)).
  assert (Incl : forall c, In c (cands m') -> In c (cands m)) by (intros c Hc; apply M5 in Hc as (v&Hv&_&Hc); exact (proj2 (proj2 (L v Hv)) c Hc)).
  apply (prints_of s' rn a' "nameq" (out ++ [10%N])); try assumption; [cbn; tauto|discriminate|discriminate| |].
  - split; [exact M4|]. intros v Hv. apply (in_map ballot) in Hv. rewrite M2 in Hv. apply forallb_forall. intros cp Hin. assert (X : In (fst cp, p_rank (snd cp)) (ballot v)) by (unfold ballot; apply in_map_iff; exists cp; auto).
    apply in_app_or in Hv as [Hv|[Hv|[]]]; [|rewrite <- Hv in X; destruct X]. apply in_flat_map in Hv as (w&Hw&Hv). apply repeat_spec in Hv. rewrite Hv in X. unfold ballot in X. apply in_map_iff in X as (cq&Eq&Hq). injection Eq as _ Er.
    pose proof (proj2 T w Hw) as B. unfold line_ranked in B. rewrite forallb_forall in B. specialize (B cq Hq). rewrite Er in B. exact B.
  - intros c Hc. exact (Sc c (Incl c Hc)).
Qed.
Print Assumptions C86_pipe_nameq.

(** ** Cases that meet the conditions *)
Definition fmt_args (fmt : string) (files : list str) : args := Args files (Some (u fmt)) (u "paircountjson") None 160 false false.
Definition fmt_files (texts : list (str * str)) : surroundings :=
  Surroundings (fun f => dmem f texts) (fun f => match dget f texts with Some t => Ok t | None => Err OSError end) (Err OSError) (fun x => x) (Oracle (fun _ => O) (fun _ l => l)).
Lemma fmt_asks fmt files : asks_counts (fmt_args fmt files).
Proof. split; [reflexivity|]. split; intro H; vm_compute in H; intuition discriminate. Qed.
Lemma fmt_reads fmt t : reads_text (fmt_files [(u "x", t)]) (fmt_args fmt [u "x"]) fmt t.
Proof. split; [reflexivity|]. left. exists (u "x"). repeat split; discriminate. Qed.
Example C86_preflib_nonvacuous : exists count, prints_counts (main (fmt_files [(u "x", pl_file pl_demo)]) cli_render (fmt_args "preflib" [u "x"])) [u "BobKiss"; u "AndyMontroll"; u "Write-In"] count /\
  count (u "AndyMontroll") (u "BobKiss") = 4 /\ count (u "Write-In") (u "BobKiss") = 3 /\ count (u "BobKiss") (u "Write-In") = 0.
Proof.
  destruct pl_demo_ok as (P1&P2&P3). destruct C49_nonvacuous as (P4&P5&_).
  destruct (C86_preflib (fmt_files [(u "x", pl_file pl_demo)]) cli_render (fmt_args "preflib" [u "x"]) pl_demo (fmt_reads _ _) (fmt_asks _ _) P1 P2) as (count&C1&C2).
  - intros q tiers H. split; [|split; [intros n Hn; apply in_concat in Hn as (t&H1&H2); exact (P3 q tiers t n H H1 H2)|]]; cbn in H; repeat destruct H as [E|H]; try destruct H; injection E as <- <-; [repeat constructor; cbn; intuition discriminate|repeat constructor; cbn; intuition discriminate|constructor| | |]; unfold maxsize; cbn; lia.
  - discriminate.
  - intros name Hn. split; [exact (P4 name Hn)|]. cbn in Hn. repeat destruct Hn as [<-|Hn]; try destruct Hn; reflexivity.
  - exact P5.
  - exists count. split; [exact C1|]. split; [|split].
    + exact (C2 2%N 1%N ltac:(split; cbn; lia) ltac:(split; cbn; lia) ltac:(discriminate)).
    + exact (C2 3%N 1%N ltac:(split; cbn; lia) ltac:(split; cbn; lia) ltac:(discriminate)).
    + exact (C2 1%N 3%N ltac:(split; cbn; lia) ltac:(split; cbn; lia) ltac:(discriminate)).
Qed.
Example C86_debtally_nonvacuous : exists count, prints_counts (main (fmt_files [(u "x", deb_sheet deb_demo)]) cli_render (fmt_args "debtally" [u "x"])) (map abbreviation (deb_names deb_demo)) count /\
  exists x y, nth_error (map abbreviation (deb_names deb_demo)) 0 = Some x /\ nth_error (map abbreviation (deb_names deb_demo)) 1 = Some y /\ (0 < count x y \/ 0 < count y x).
Proof.
  destruct deb_demo_names as (H1&H2). destruct (C86_debtally (fmt_files [(u "x", deb_sheet deb_demo)]) cli_render (fmt_args "debtally" [u "x"]) deb_demo (fmt_reads _ _) (fmt_asks _ _) deb_demo_ok) as (count&C1&C2); try assumption.
  - intros v Hv. vm_compute in Hv. repeat destruct Hv as [<-|Hv]; try destruct Hv; cbn; lia.
  - vm_compute. discriminate.
  - vm_compute. reflexivity.
  - exists count. split; [exact C1|]. do 2 eexists. split; [reflexivity|]. split; [reflexivity|].
    pose proof (C2 0%nat 1%nat _ _ eq_refl eq_refl ltac:(discriminate)) as X. pose proof (C2 1%nat 0%nat _ _ eq_refl eq_refl ltac:(discriminate)) as Y.
    rewrite X, Y. vm_compute. auto.
Qed.
Definition nq_demo : str := u "Ann+X=1&Bob=2" ++ [10%N] ++ u "Bob=1" ++ [10%N] ++ u "Bob=1&C%C3%A9=1&Ann+X=3" ++ [10%N].
Example C86_nameq_nonvacuous : exists cs count, prints_counts (main (fmt_files [(u "x", nq_demo)]) cli_render (fmt_args "nameq" [u "x"])) cs count /\ In (u "Ann X") cs /\ In (67%N :: [233%N]) cs /\
  count (u "Bob") (u "Ann X") = 2 /\ count (u "Ann X") (u "Bob") = 1 /\ count (u "Bob") (67%N :: [233%N]) = 2.
Proof.
  destruct (C86_nameq (fmt_files [(u "x", nq_demo)]) cli_render (fmt_args "nameq" [u "x"]) nq_demo (fmt_reads _ _) (fmt_asks _ _)) as (cs&C1&C2).
  - vm_compute. reflexivity.
  - intros line name value more Hl Hd. assert (G : forallb (fun line => forallb (fun nv => match snd nv with x :: _ => match py_int x with Ok r => r <? maxsize | Err _ => false end | [] => false end) (parse_qs (strip line))) (splitlines nq_demo) = true) by (vm_compute; reflexivity).
    rewrite forallb_forall in G. specialize (G line Hl). rewrite forallb_forall in G. specialize (G _ (dget_In _ _ _ Hd)). cbn [snd] in G. destruct (py_int value) as [r|]; [|discriminate]. exists r. split; [reflexivity|]. apply Z.ltb_lt, G.
  - eexists cs, _. split; [exact C1|]. split; [|split; [|split; [|split]]]; [apply C2; exists (u "Ann+X=1&Bob=2"), 1; vm_compute; auto|apply C2; exists (u "Bob=1&C%C3%A9=1&Ann+X=3"), 1; vm_compute; auto| | |]; vm_compute; reflexivity.
Qed.
Example C86_sftxt_nonvacuous : exists cs count, prints_counts (main (fmt_files [(u "master", sf_master); (u "ballots", sf_file)]) cli_render (fmt_args "sftxt" [u "master"; u "ballots"])) cs count /\ In (u "MARK_LENO") cs /\
  count (u "MARK_LENO") (u "JANE_KIM") = 2 /\ count (u "JANE_KIM") (u "MARK_LENO") = 1.
Proof.
  destruct (C86_sftxt (fmt_files [(u "master", sf_master); (u "ballots", sf_file)]) cli_render (fmt_args "sftxt" [u "master"; u "ballots"]) sf_master sf_file [] (u "0000020")) as (cs&gs&C1&C2&C3).
  - split; [reflexivity|]. repeat constructor.
  - apply fmt_asks.
  - exact C51_accepts.
  - assert (Eg : gs = [firstn 3 (map image_of (splitlines sf_file)); firstn 3 (skipn 3 (map image_of (splitlines sf_file))); skipn 6 (map image_of (splitlines sf_file))]).
    { apply (C50_grouping_unique _ _ _ C1). split; [vm_compute; reflexivity|]. split.
      - intros g Hg. assert (G : forallb (fun g => match g with [] => false | x :: r => forallb (fun y => str_eqb (im_voter x) (im_voter y)) r end) [firstn 3 (map image_of (splitlines sf_file)); firstn 3 (skipn 3 (map image_of (splitlines sf_file))); skipn 6 (map image_of (splitlines sf_file))] = true) by (vm_compute; reflexivity).
        rewrite forallb_forall in G. specialize (G g Hg). destruct g as [|x r]; [discriminate|]. split; [discriminate|]. rewrite forallb_forall in G. assert (K : forall y, In y (x :: r) -> im_voter y = im_voter x) by (intros y [<-|Hy]; [reflexivity|symmetry; apply str_eqb_eq, G, Hy]). intros y z Hy Hz. rewrite (K y Hy), (K z Hz). reflexivity.
      - assert (N : forall l1 l2 : list image, forallb (fun x => forallb (fun y => negb (str_eqb (im_voter x) (im_voter y))) l2) l1 = true -> forall x y, In x l1 -> In y l2 -> im_voter x <> im_voter y).
        { intros l1 l2 H x y Hx Hy E. rewrite forallb_forall in H. specialize (H x Hx). rewrite forallb_forall in H. specialize (H y Hy). rewrite E, str_eqb_refl in H. discriminate. }
        cbn [neighbours_differ]. split; [apply N; vm_compute; reflexivity|]. split; [apply N; vm_compute; reflexivity|exact I]. }
    eexists cs, _. split; [exact C2|]. split; [|subst gs; split; vm_compute; reflexivity].
    apply (C3 (image_of (image_line "000000002" "001" "0000007" "00"))); [subst gs; vm_compute; auto|vm_compute; reflexivity].
Qed.
Example C86_pipe_nonvacuous : exists m, convert_abif_to_jabmod pipe_text false false false = Ok m /\ takes (pipe_files pipe_text) (cli_args "nameq" []) pipe_text /\ plain (cli_args "nameq" []) /\ text pipe_text /\
  reads_text (pipe_to (pipe_files pipe_text) (cli_args "nameq" [])) (fmt_args "nameq" [dash]) "nameq" (saved (o_stdout (main (pipe_files pipe_text) cli_render (cli_args "nameq" [])))).
Proof.
  eexists. split; [vm_compute; reflexivity|]. split; [left; exists (u "x.abif"); repeat split; discriminate|]. split; [|split; [vm_compute; reflexivity|]].
  - split; [reflexivity|]. split; [reflexivity|]. split; intro H; vm_compute in H; intuition discriminate.
  - split; [reflexivity|]. right. split; reflexivity.
Qed.
