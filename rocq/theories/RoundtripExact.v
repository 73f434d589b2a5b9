(** * RoundtripExact: writing what was read back gives the same text *)

From Coq Require Import Lia Permutation Sorted.
From Verif Require Import PyBase PyFacts Jabmod Regex RegexFacts WordTable ScoreModel ScoreFacts Spec ParserModel ParserSpec ParserFacts ParserPrefs ParserRender.
From Verif Require Import PairwiseModel PairwiseFacts PropsPairwise IrvModel IrvFacts ParserFile ParserText ParserLines PropsParser TextFacts UrlText UrlFacts JsonText JsonFacts WriterModel ConsolidateFacts RoundtripFacts RoundtripFile RoundtripParsed PropsRoundtrip.
Local Open Scope Z_scope.

(** A rating as the reader stores it: none, or a number other than 0 (a rating written 0 is not stored). *)
Definition int_rated (p : pref) : Prop := match p_rating p with None => True | Some (RInt z) => 0 < z | Some (RStr _) => False end.
Definition unrated (kv : str * pref) : bool := match p_rating (snd kv) with None => true | _ => false end.
Definition token_rate_sorted (x y : str * pref) : Prop := rated_leb (- rate_key x, x) (- rate_key y, y) = true.

(** ** The two forms of a preference text *)
Lemma ranked_form P x l : existsb unrated P = true ->
  (forall c p, In (c, p) P -> writable_token c /\ p_rank p <> None /\ forall r, p_rating p = Some r -> writable_rating r) ->
  sort_asc rank_key P = x :: l ->
  prefs_text P = Ok (show_prefs (as_item x) (rest_items rank_key x l)).
Proof.
  intros Ex Hw Eq. unfold prefs_text.
  assert (E : mapM (fun kv : str * pref => bind (rating_key (snd kv)) (fun r => Ok (r, kv))) P = Err TypeError).
  { clear Eq. induction P as [|[c p] P IH]; [discriminate|]. cbn [existsb] in Ex. unfold unrated at 1 in Ex. cbn [snd] in Ex. cbn [mapM snd].
    unfold rating_key at 1. destruct (p_rating p) as [r|] eqn:Er; [|reflexivity].
    destruct (Hw c p (or_introl eq_refl)) as (_&_&Hr). rewrite (rated_int p r Er (Hr r Er)). cbn [bind]. cbn [orb] in Ex.
    rewrite IH; [reflexivity|exact Ex|intros c' p' Hin; apply Hw; right; exact Hin]. }
  rewrite E.
  assert (Es : sort_by_rank P = Ok (sort_asc rank_key P)).
  { apply sort_by_rank_ok. intros c p Hin. apply (Hw c p Hin). }
  rewrite Es, Eq. cbn [bind]. pose proof (sort_asc_perm rank_key P) as HP. pose proof (sort_asc_sorted rank_key P) as HS. rewrite Eq in HP, HS.
  apply ranked_text; [|exact HS]. intros c p Hin. destruct (Hw c p (Permutation_in _ HP Hin)) as (H1&H2&_). auto.
Qed.
Lemma rated_form P x l : existsb unrated P = false ->
  (forall c p, In (c, p) P -> writable_token c /\ p_rank p <> None /\ forall r, p_rating p = Some r -> writable_rating r) ->
  sort_by (fun a b => rated_leb (- rate_key a, a) (- rate_key b, b)) P = x :: l ->
  prefs_text P = Ok (show_prefs (as_item x) (rest_items rate_key x l)).
Proof.
  intros Ex Hw Eq. unfold prefs_text.
  assert (Hr : forall c p, In (c, p) P -> exists r, p_rating p = Some r /\ writable_rating r).
  { intros c p Hin. destruct (p_rating p) as [r|] eqn:Er.
    - exists r. split; [reflexivity|]. apply (Hw c p Hin), Er.
    - exfalso. rewrite <- not_true_iff_false in Ex. apply Ex, existsb_exists. exists (c, p). split; [exact Hin|]. unfold unrated. cbn [snd]. rewrite Er. reflexivity. }
  assert (E : mapM (fun kv : str * pref => bind (rating_key (snd kv)) (fun r => Ok (r, kv))) P = Ok (map (fun kv => (- rate_key kv, kv)) P)).
  { clear - Hr. induction P as [|[c p] P IH]; [reflexivity|]. cbn [mapM map snd].
    destruct (Hr c p (or_introl eq_refl)) as (r&Er&Hw). unfold rating_key at 1. rewrite Er, (rated_int p r Er Hw). cbn [bind].
    rewrite IH by (intros c' p' Hin; apply (Hr c'); right; exact Hin). cbn [bind]. unfold rate_key at 2. cbn [snd]. rewrite Er. rewrite Z.opp_involutive. reflexivity. }
  rewrite E.
  rewrite <- (sort_by_map (fun kv => (- rate_key kv, kv)) (fun a b => rated_leb (- rate_key a, a) (- rate_key b, b))) by reflexivity.
  rewrite map_map. cbn [snd]. rewrite map_id, Eq.
  pose proof (sort_by_perm (fun a b => rated_leb (- rate_key a, a) (- rate_key b, b)) P) as HP. rewrite Eq in HP.
  assert (HS : StronglySorted (fun a b => rate_key a <= rate_key b) (x :: l)).
  { rewrite <- Eq. refine (SS_weaken _ _ _ _ (sort_by_sorted (fun a b => rated_leb (- rate_key a, a) (- rate_key b, b)) _ _ P)).
    - intros a b Ha Hb H. unfold rated_leb in H. cbn [fst snd] in H. destruct (Z.eqb_spec (- rate_key a) (- rate_key b)) as [e|e]; [lia|]. apply Z.ltb_lt in H. lia.
    - intros a b. apply rated_leb_total.
    - intros a b c. apply rated_leb_trans. }
  apply ratings_text; [|exact HS]. apply Forall_forall. intros [c p] Hin. apply (Permutation_in _ HP) in Hin. split; [apply (Hw c p Hin)|]. apply (Hr c p Hin).
Qed.

(** ** What is stored for a written list *)
Definition kept_entry (np q : str * pref) : Prop := fst q = fst np /\ p_rating (snd q) = stored_rating (as_written (fst np) (snd np)).
Lemma stored_list mode key l : mode <> MRate -> forall k x,
  let Q := loop_result mode k (as_item x) (rest_items key x l) in
  Forall2 kept_entry (x :: l) Q /\ (forall c q, In (c, q) Q -> exists z, p_rank q = Some z /\ k <= z) /\
  StronglySorted (fun a b => rank_key a <= rank_key b) Q.
Proof.
  intro Hm. induction l as [|y l IH]; intros k x; cbn [rest_items loop_result].
  - split; [constructor; [|constructor]|split].
    + split; cbn [fst snd p_rating]; [apply as_item_name|reflexivity].
    + intros c q [E|[]]. injection E as <- <-. exists k. cbn [p_rank]. destruct mode; [split; [reflexivity|lia]|congruence|split; [reflexivity|lia]].
    + constructor; constructor.
  - set (k' := if N.eqb (if key x <? key y then 62%N else 61%N) 62 then k + 1 else k).
    assert (Hk : k <= k') by (unfold k'; destruct (N.eqb _ _); lia). destruct (IH k' y) as (I1&I2&I3). split; [|split].
    + constructor; [split; cbn [fst snd p_rating]; [apply as_item_name|reflexivity]|exact I1].
    + intros c q [E|Hin].
      * injection E as <- <-. exists k. cbn [p_rank]. destruct mode; [split; [reflexivity|lia]|congruence|split; [reflexivity|lia]].
      * destruct (I2 c q Hin) as (z&Ez&Hz). exists z. split; [exact Ez|lia].
    + constructor; [exact I3|]. apply Forall_forall. intros [c q] Hin. destruct (I2 c q Hin) as (z&Ez&Hz). unfold rank_key. cbn [snd p_rank]. rewrite Ez.
      destruct mode; [lia|congruence|lia].
Qed.
(** Entries with the same name and rating are written the same way. *)
Definition same_entry (np q : str * pref) : Prop := fst q = fst np /\ p_rating (snd q) = p_rating (snd np).
Lemma same_item np q : same_entry np q -> as_item q = as_item np.
Proof. destruct np as [c p], q as [c' q]. intros [E1 E2]. cbn [fst snd] in *. subst c'. unfold as_item, as_written. cbn [fst snd]. rewrite E2. reflexivity. Qed.
Lemma same_rate np q : same_entry np q -> rate_key q = rate_key np.
Proof. intros [_ E2]. unfold rate_key. rewrite E2. reflexivity. Qed.
Lemma rest_ranked mode key l : mode <> MRate -> forall k x y l', loop_result mode k (as_item x) (rest_items key x l) = y :: l' ->
  Forall2 same_entry (x :: l) (y :: l') -> rest_items rank_key y l' = rest_items key x l.
Proof.
  intro Hm. induction l as [|x2 l IH]; intros k x y l' E F.
  - inversion F as [|? ? ? ? _ F']; subst. inversion F'; subst. reflexivity.
  - destruct l' as [|y2 l2]; [inversion F as [|? ? ? ? _ F']; inversion F'|]. cbn [rest_items loop_result] in E. injection E as Ey H0.
    assert (F' : Forall2 same_entry (x2 :: l) (y2 :: l2)) by (inversion F; assumption). assert (S2 : same_entry x2 y2) by (inversion F'; assumption).
    cbn [rest_items]. rewrite (IH _ x2 y2 l2 H0) by exact F'. f_equal.
    rewrite (same_item _ _ S2). f_equal. clear IH F F' S2. subst y.
    assert (Ek : rank_key y2 = if N.eqb (if key x <? key x2 then 62%N else 61%N) 62 then k + 1 else k).
    { destruct l as [|x3 l3]; cbn [rest_items loop_result] in H0; injection H0 as <- _; unfold rank_key; cbn [snd p_rank]; destruct mode; congruence || reflexivity. }
    rewrite Ek. unfold rank_key. cbn [snd p_rank].
    replace (match match mode with MRate => None | _ => Some k end with Some r => r | None => 0 end) with k by (destruct mode; congruence || reflexivity).
    destruct (key x <? key x2); cbn [N.eqb Pos.eqb].
    + replace (k <? k + 1) with true by (symmetry; apply Z.ltb_lt; lia). reflexivity.
    + rewrite Z.ltb_irrefl. reflexivity.
Qed.
Lemma rest_rated l : forall x y l', Forall2 same_entry (x :: l) (y :: l') -> rest_items rate_key y l' = rest_items rate_key x l.
Proof.
  induction l as [|x2 l IH]; intros x y l' F; inversion F as [|? ? ? ? S1 F']; subst; inversion F' as [|? y2 ? l2 S2 F2]; subst; [reflexivity|].
  cbn [rest_items]. rewrite (IH x2 y2 l2 F'), (same_rate _ _ S1), (same_rate _ _ S2), (same_item _ _ S2). reflexivity.
Qed.

Lemma stored_int c p : (forall r, p_rating p = Some r -> writable_rating r) ->
  match stored_rating (as_written c p) with None => True | Some (RInt z) => 0 < z | Some (RStr _) => False end.
Proof.
  intro H. unfold as_written. destruct (p_rating p) as [r|]; [|destruct (simple c); exact I]. specialize (H r eq_refl). cbn [option_map].
  assert (Hn : numeral (rating_str r)) by (apply rating_numeral; exact H). destruct (py_int_numeral _ Hn) as (n&Hz&Ez).
  destruct (simple c); cbn [stored_rating]; rewrite Ez; destruct (Z.eqb_spec (Z.of_N n) 0); try exact I; lia.
Qed.
Lemma stored_same c p : int_rated p -> stored_rating (as_written c p) = p_rating p.
Proof.
  unfold int_rated, as_written. destruct (p_rating p) as [[z|s]|]; [|intros []|intros _; destruct (simple c); reflexivity]. intro H. cbn [option_map rating_str].
  destruct (simple c); cbn [stored_rating]; rewrite py_int_z2s; destruct (Z.eqb_spec z 0); reflexivity || lia.
Qed.

(** ** One voteline *)
Lemma line_exact v : writable_line v ->
  exists t prefs, prefs_text (v_prefs v) = Ok t /\ parse_prefstr t = Ok (prefs, dkeys prefs) /\
    (forall c p, In (c, p) prefs -> int_rated p) /\
    ((forall c p, In (c, p) (v_prefs v) -> int_rated p) -> prefs_text prefs = Ok t).
Proof.
  intro Hv. pose proof Hv as (_&Hnd&Hw&_).
  destruct (v_prefs v) as [|y0 l0] eqn:Ep. { exists [], []. repeat split. intros c p []. }
  assert (Hne : v_prefs v <> []) by (rewrite Ep; discriminate). rewrite <- Ep in *. clear Ep y0 l0. set (P := v_prefs v) in *.
  assert (G : exists key x l, Permutation (x :: l) P /\ prefs_text P = Ok (show_prefs (as_item x) (rest_items key x l)) /\
     ((key = rank_key /\ existsb unrated P = true) \/
      (key = rate_key /\ existsb unrated P = false /\ StronglySorted (fun a b => rated_leb (- rate_key a, a) (- rate_key b, b) = true) (x :: l)))).
  { destruct (existsb unrated P) eqn:Ex.
    - pose proof (sort_asc_perm rank_key P) as HP. destruct (sort_asc rank_key P) as [|x l] eqn:Es; [apply Permutation_nil in HP; congruence|].
      exists rank_key, x, l. split; [exact HP|]. split; [apply (ranked_form P x l Ex Hw Es)|]. left. auto.
    - pose proof (sort_by_perm (fun a b => rated_leb (- rate_key a, a) (- rate_key b, b)) P) as HP.
      pose proof (sort_by_sorted (fun a b => rated_leb (- rate_key a, a) (- rate_key b, b)) (fun a b => rated_leb_total _ _) (fun a b c => rated_leb_trans _ _ _) P) as HS.
      destruct (sort_by (fun a b => rated_leb (- rate_key a, a) (- rate_key b, b)) P) as [|x l] eqn:Es; [apply Permutation_nil in HP; congruence|].
      exists rate_key, x, l. split; [exact HP|]. split; [apply (rated_form P x l Ex Hw Es)|]. right. auto. }
  destruct G as (key&x&l&HP&Et&Hkey).
  set (i := as_item x) in *. set (r := rest_items key x l) in *.
  assert (Hok : forall np, In np (x :: l) -> item_ok (as_item np)).
  { intros [c p] Hin. destruct (Hw c p (Permutation_in _ HP Hin)) as (H1&_&H3). apply as_item_ok; assumption. }
  assert (Hi : item_ok i) by (apply Hok; left; reflexivity).
  assert (Hr : forall d j, In (d, j) r -> delimiter d /\ item_ok j).
  { intros d j Hin. destruct (rest_delims _ _ _ _ _ Hin) as (Hd&np&Hnp&->). split; [unfold delimiter; destruct Hd; auto|]. apply Hok. right; exact Hnp. }
  assert (Hnames : map item_name (items i r) = map fst (x :: l)).
  { unfold items. cbn [map]. unfold i at 1, r. rewrite as_item_name, rest_names. reflexivity. }
  assert (Hnd' : NoDup (map fst (x :: l))) by (eapply Permutation_NoDup; [apply Permutation_sym, Permutation_map, HP|exact Hnd]).
  assert (Hp := parse_show i r Hi Hr). rewrite Hnames in Hp. specialize (Hp Hnd').
  assert (Hm : mode_of r <> MRate).
  { unfold r. destruct l as [|y l]; [discriminate|]. cbn [rest_items mode_of]. destruct (key x <? key y); discriminate. }
  set (prefs := loop_result (mode_of r) 1 i r) in *.
  assert (Hp' : parse_prefstr (show_prefs i r) = Ok (prefs, map fst (x :: l))).
  { rewrite Hp. unfold prefs. destruct (mode_of r); [reflexivity|congruence|reflexivity]. }
  assert (Hkeys : dkeys prefs = map fst (x :: l)).
  { unfold prefs. rewrite loop_result_keys. exact Hnames. }
  exists (show_prefs i r), prefs. split; [exact Et|]. split; [rewrite Hkeys; exact Hp'|].
  destruct (stored_list (mode_of r) key l Hm 1 x) as (F&HR&HS). fold i in F, HR, HS. fold r in F, HR, HS. fold prefs in F, HR, HS.
  assert (Hwr : forall np, In np (x :: l) -> forall z, p_rating (snd np) = Some z -> writable_rating z).
  { intros [c p] Hin. destruct (Hw c p (Permutation_in _ HP Hin)) as (_&_&H3). exact H3. }
  assert (Hint : forall c p, In (c, p) prefs -> int_rated p).
  { intros c p Hin. destruct (proj2 (Forall2_In _ _ _ F) (c, p) Hin) as (np&Hnp&_&E). cbn [snd] in E. unfold int_rated. rewrite E. apply stored_int, Hwr, Hnp. }
  split; [exact Hint|]. intro HI.
  assert (FS : Forall2 same_entry (x :: l) prefs).
  { assert (HI' : forall np, In np (x :: l) -> int_rated (snd np)) by (intros [c p] Hin; exact (HI c p (Permutation_in _ HP Hin))).
    clear -F HI'. induction F as [|np q l1 l2 [E1 E2] F IH]; [constructor|]. constructor; [|apply IH; intros; apply HI'; right; assumption].
    split; [exact E1|]. rewrite E2. apply stored_same, HI'. left; reflexivity. }
  assert (Hw2 : forall c p, In (c, p) prefs -> writable_token c /\ p_rank p <> None /\ forall z, p_rating p = Some z -> writable_rating z).
  { intros c p Hin. destruct (proj2 (Forall2_In _ _ _ FS) (c, p) Hin) as ([c1 p1]&Hnp&E1&E2). cbn [fst snd] in E1, E2. subst c1.
    destruct (Hw c p1 (Permutation_in _ HP Hnp)) as (W1&_&W3). split; [exact W1|]. split; [destruct (HR c p Hin) as (z&->&_); discriminate|]. rewrite E2. exact W3. }
  assert (Hun : existsb unrated prefs = existsb unrated P).
  { assert (E1 : existsb unrated prefs = existsb unrated (x :: l)).
    { clear -FS. induction FS as [|np q l1 l2 [_ E2] F IH]; [reflexivity|]. cbn [existsb]. rewrite IH. f_equal. unfold unrated. rewrite E2. reflexivity. }
    rewrite E1. destruct (existsb unrated (x :: l)) eqn:Ea, (existsb unrated P) eqn:Eb; try reflexivity.
    - apply existsb_exists in Ea as (np&Hin&Hu). rewrite <- not_true_iff_false in Eb. exfalso. apply Eb, existsb_exists. exists np. split; [exact (Permutation_in _ HP Hin)|exact Hu].
    - apply existsb_exists in Eb as (np&Hin&Hu). rewrite <- not_true_iff_false in Ea. exfalso. apply Ea, existsb_exists. exists np. split; [exact (Permutation_in _ (Permutation_sym HP) Hin)|exact Hu]. }
  destruct prefs as [|y l'] eqn:Epr; [inversion FS|]. assert (S1 : same_entry x y) by (inversion FS; assumption).
  destruct Hkey as [(->&Ex)|(->&Ex&Hs)].
  - rewrite (ranked_form (y :: l') y l'); [|congruence|exact Hw2|].
    + rewrite (same_item _ _ S1). f_equal. f_equal. unfold r. apply (rest_ranked (mode_of r) rank_key l Hm 1); [|exact FS]. exact Epr.
    + unfold sort_asc. apply sort_by_id. refine (SS_weaken _ _ _ _ HS). intros a b _ _ Hab. apply Z.leb_le. exact Hab.
  - rewrite (rated_form (y :: l') y l'); [|congruence|exact Hw2|].
    + rewrite (same_item _ _ S1). f_equal. f_equal. unfold r. apply rest_rated. exact FS.
    + apply sort_by_id. clear -FS Hs. revert FS Hs. generalize (x :: l), (y :: l'). intros l1 l2 F. induction F as [|np q l1 l2 S1 F IH]; intro Hs; [constructor|].
      inversion Hs as [|? ? Hs' Hf]; subst. constructor; [exact (IH Hs')|]. apply Forall_forall. intros q2 Hq2. destruct (proj2 (Forall2_In _ _ _ F) q2 Hq2) as (np2&Hin&S2).
      rewrite Forall_forall in Hf. specialize (Hf np2 Hin). unfold rated_leb in *. cbn [fst snd] in *. rewrite (same_rate _ _ S1), (same_rate _ _ S2), (proj1 S1), (proj1 S2). exact Hf.
Qed.

Lemma vote_exact cw v w ks : writable_line v -> vote_of (norm cw (vote_l v)) = Some (Ok (w, ks)) ->
  (forall c p, In (c, p) (v_prefs w) -> int_rated p) /\
  ((forall c p, In (c, p) (v_prefs v) -> int_rated p) -> vote_l w = vote_l v).
Proof.
  intros Hv E. destruct (line_exact v Hv) as (t&prefs&Et&Hp&Hi&Hs). destruct (line_roundtrip v Hv) as (t'&_&Et'&Hsf&_). rewrite Et in Et'. apply ok_inj in Et'. subst t'.
  destruct Hv as (Hq&_). destruct (z2s_numeral (v_qty v) Hq) as [Hne Hd].
  assert (Hl : vote_l v = z2s (v_qty v) ++ 58%N :: t) by (unfold vote_l; rewrite Et; reflexivity).
  assert (Hsafe : safe (vote_l v)).
  { rewrite Hl. apply safe_app; [apply safe_digits, Hd|]. apply safe_cons; [split; [reflexivity|discriminate]|exact Hsf]. }
  assert (Hnorm : norm cw (vote_l v) = vote_l v).
  { rewrite Hl. destruct (z2s (v_qty v)) as [|c r]; [congruence|]. apply norm_first. cbn [forallb] in Hd. apply andb_prop in Hd as [Hc _]. apply digit_not_space, Hc. }
  rewrite Hnorm in E. unfold vote_of in E. rewrite before_hash_id in E by (apply safe_no_hash, Hsafe).
  rewrite (proj2 (vote_parts_spec (vote_l v) (z2s (v_qty v)) t)) in E by (split; [exact Hl|split; assumption]).
  rewrite comment_of_none in E by (apply safe_no_hash, Hsafe). rewrite py_int_z2s in E. cbn [bind] in E. rewrite Hp in E. cbn [bind fst snd] in E.
  apply some_inj, ok_inj in E. injection E as <- _. cbn [v_prefs]. split; [exact Hi|]. intro HI.
  rewrite Hl. unfold vote_l. cbn [v_qty v_prefs]. rewrite (Hs HI). reflexivity.
Qed.

(** ** The whole file *)
Lemma map_ok_inj {A} (xs ys : list A) : map (@Ok A) xs = map Ok ys -> xs = ys.
Proof. revert ys. induction xs as [|x xs IH]; intros [|y ys] E; try discriminate; [reflexivity|]. injection E as -> E. f_equal. apply IH, E. Qed.
Lemma file_exact m cw text m' : writable m -> StronglySorted (fun x y => v_qty y <= v_qty x) (j_votelines m) ->
  convert_jabmod_to_abif m = Ok text -> convert_abif_to_jabmod text cw false false = Ok m' ->
  Forall2 (fun v w => read_as v w /\ vote_of (norm cw (vote_l v)) = Some (Ok (w, dkeys (v_prefs w)))) (j_votelines m) (j_votelines m').
Proof.
  intros H Hsort T1 T2. pose proof (written_text m H) as Ew. rewrite T1 in Ew. apply ok_inj in Ew. subst text.
  destruct (file_votes m cw H) as (ws&F1&Ev&F2). destruct (convert_votes _ _ _ _ _ T2) as (m0'&vs&ls&Hf&Ej&_&Ev'&El&F&Els&_).
  assert (Hsp : splitlines (unlines (file_lines m)) = file_lines m) by (apply splitlines_unlines, file_one_line; exact H).
  rewrite Hsp, Ev in Ev'. apply map_ok_inj in Ev'. subst vs. specialize (Els eq_refl). subst ls. rewrite map_map in El. cbn [fst] in El. rewrite map_id in El.
  assert (Es : j_votelines m' = ws).
  { rewrite El. unfold sort_desc. apply sort_by_id. clear -F1 Hsort. revert Hsort.
    induction F1 as [|v w l1 l2 ((Hq&_)&_) F IH]; intro S1; [constructor|]. inversion S1 as [|? ? S' F']; subst. constructor; [exact (IH S')|].
    rewrite Forall_forall in F' |- *. intros y Hy. destruct (proj2 (Forall2_In _ _ _ F) y Hy) as (x&Hx&((Hqx&_)&_)). specialize (F' x Hx).
    apply Z.leb_le. lia. }
  rewrite Es. clear -F1 F2. induction F1 as [|v w l1 l2 R F IH]; [constructor|]. inversion F2; subst. constructor; [split; assumption|]. apply IH; assumption.
Qed.
Lemma parsed_sorted text cw ar sc m : convert_abif_to_jabmod text cw ar sc = Ok m -> StronglySorted (fun x y => v_qty y <= v_qty x) (j_votelines m).
Proof. intro H. destruct (convert_shape _ _ _ _ _ H) as (m0&_&_&m1&_&->). apply sort_desc_sorted. Qed.
Lemma parsed_listed text cw ar sc m : convert_abif_to_jabmod text cw ar sc = Ok m -> forall v c, In v (j_votelines m) -> In c (dkeys (v_prefs v)) -> In c (cands m).
Proof. intros H v c Hv. destruct (parsed_line _ _ _ _ _ _ H Hv) as ((_&_&Hi&_)&_). apply Hi. Qed.

(** What is read back can be written again. *)
Lemma reread_writable m cw text m' : writable m -> StronglySorted (fun x y => v_qty y <= v_qty x) (j_votelines m) ->
  (forall t, In t (cands m) -> writable_token t) ->
  convert_jabmod_to_abif m = Ok text -> convert_abif_to_jabmod text cw false false = Ok m' ->
  writable m' /\ (forall t, In t (cands m') -> writable_token t) /\ (forall v, In v (j_votelines m') -> ratings_agree v) /\
  (forall v, In v (j_votelines m') -> forall c p, In (c, p) (v_prefs v) -> int_rated p).
Proof.
  intros H Hsort Ht T1 T2. pose proof (file_exact m cw text m' H Hsort T1 T2) as F. pose proof H as (_&HL&_).
  assert (Hint : forall v, In v (j_votelines m') -> forall c p, In (c, p) (v_prefs v) -> int_rated p).
  { intros w Hw. destruct (proj2 (Forall2_In _ _ _ F) w Hw) as (v&Hv&_&E). apply (vote_exact cw v w _ (HL v Hv) E). }
  assert (Htok : forall t, In t (cands m') -> writable_token t).
  { destruct (file_roundtrip m cw false H) as (text'&m''&ws&m0&E1&E2&F1&(ls&El&_&Els)&Ec&_).
    rewrite T1 in E1. apply ok_inj in E1. subst text'. rewrite T2 in E2. apply ok_inj in E2. subst m''.
    intros t Hin. unfold cands in Hin. apply dget_Some_In in Hin as [n En]. rewrite Ec, merge_new in En.
    destruct (dget t (filter (fun tn => simple (fst tn)) (j_candidates m))) as [x|] eqn:Ed.
    - apply Ht. apply dget_In, filter_In in Ed as (Hi&_). apply (in_map fst _ (t, x)), Hi.
    - destruct (memb t (flat_map (fun w => dkeys (v_prefs w)) ws)) eqn:Em; [|discriminate]. apply memb_In, in_flat_map in Em as (w&Hw&Hk).
      destruct (proj2 (Forall2_In _ _ _ F1) w Hw) as (v&Hv&R). destruct R as (_&_&HP&_). apply (Permutation_in _ HP) in Hk.
      apply in_map_iff in Hk as ([c p]&Ec'&Hcp). cbn [fst] in Ec'. subst c. apply (HL v Hv) in Hcp. apply Hcp. }
  assert (Hag : forall v, In v (j_votelines m') -> ratings_agree v).
  { intros w Hw Hall c c' p p' k k' Hc Hc' Ek Ek'. destruct (proj2 (Forall2_In _ _ _ F) w Hw) as (v&Hv&((_&Hls&Hpr)&Hrt&HP&_)&_). destruct (HL v Hv) as (_&Hnd&Hw2&Hagree).
    assert (Hndw : NoDup (map fst (v_prefs w))) by (eapply Permutation_NoDup; [apply Permutation_sym, HP|exact Hnd]).
    assert (Hall' : forall c p, In (c, p) (v_prefs v) -> p_rating p <> None).
    { intros a q Ha Hq. assert (Hin : In a (dkeys (v_prefs w))) by (apply (Permutation_in _ (Permutation_sym HP)), (in_map fst _ (a, q)), Ha).
      apply dget_Some_In in Hin as [qw Eq]. pose proof (dget_In _ _ _ Eq) as Hqw. specialize (Hall a qw Hqw). pose proof (Hint w Hw a qw Hqw) as Hi. unfold int_rated in Hi.
      specialize (Hrt a). unfold rating_on in Hrt. rewrite Eq, (dget_In_nodup a q _ Hnd Ha), Hq in Hrt. destruct (p_rating qw) as [[z|s]|]; [cbn in Hrt; lia|destruct Hi|congruence]. }
    assert (Hv1 : forall a q, In (a, q) (v_prefs w) -> exists q0 k0, In (a, q0) (v_prefs v) /\ p_rank q0 = Some k0 /\ rank_on v a = Some k0).
    { intros a q Ha. assert (Hin : In a (dkeys (v_prefs v))) by (apply (Permutation_in _ HP), (in_map fst _ (a, q)), Ha).
      apply dget_Some_In in Hin as [q0 Eq]. pose proof (dget_In _ _ _ Eq) as Hq0. destruct (Hw2 a q0 Hq0) as (_&Hr&_). destruct (p_rank q0) as [k0|] eqn:Ek0; [|congruence].
      exists q0, k0. split; [exact Hq0|]. split; [exact Ek0|]. unfold rank_on. rewrite Eq. exact Ek0. }
    destruct (Hv1 c p Hc) as (q1&k1&H1&E1&R1). destruct (Hv1 c' p' Hc') as (q2&k2&H2&E2&R2).
    assert (Rw : rank_on w c = Some k) by (unfold rank_on; rewrite (dget_In_nodup c p _ Hndw Hc); exact Ek).
    assert (Rw' : rank_on w c' = Some k') by (unfold rank_on; rewrite (dget_In_nodup c' p' _ Hndw Hc'); exact Ek').
    rewrite !Hrt, <- (Hagree Hall' c c' q1 q2 k1 k2 H1 H2 E1 E2).
    specialize (Hpr c c'). unfold prefers in Hpr. rewrite Rw, Rw', R1, R2 in Hpr.
    destruct (Z.ltb_spec k k'), (Z.ltb_spec k1 k2); try discriminate; split; intro; lia. }
  split; [|split; [exact Htok|split; [exact Hag|exact Hint]]].
  exact (parsed_writable text cw false m' T2 Htok Hag).
Qed.

(** ** Candidates *)
Lemma merge_simple ks : forall F : dict str, (forall k, In k ks -> simple k = true -> In k (dkeys F)) ->
  filter (fun tn => simple (fst tn)) (merge_cands ks F) = filter (fun tn => simple (fst tn)) F.
Proof.
  induction ks as [|k ks IH]; intros F H; [reflexivity|]. change (merge_cands (k :: ks) F) with (merge_cands ks (if dmem k F then F else dset k k F)).
  destruct (dmem k F) eqn:Ed; [apply IH; intros x Hx; apply H; right; exact Hx|].
  assert (Hk : ~ In k (dkeys F)) by (intro Hi; apply dmem_In in Hi; congruence). assert (Hs : simple k = false) by (destruct (simple k) eqn:E; [exfalso; apply Hk, H; [left; reflexivity|exact E]|reflexivity]).
  rewrite dkeys_dset_nIn by exact Hk. rewrite IH.
  - rewrite filter_app. cbn [filter fst]. rewrite Hs, app_nil_r. reflexivity.
  - intros x Hx Hxs. unfold dkeys. rewrite map_app. apply in_or_app. left. apply H; [right; exact Hx|exact Hxs].
Qed.

(** ** Metadata *)
(** [plain_entry], with the entry for the ballot count the text itself gave. *)
Definition tidy_entry (kj : str * json) : Prop :=
  (fst kj = k_ballotcount /\ exists n, snd kj = JInt n) \/
  (key_ok false (fst kj) /\ one_line (fst kj) /\ ~ In 35%N (fst kj) /\ fst kj <> k_ballotcount /\
   exists s, snd kj = JStr s /\ s <> [] /\ forallb (fun c => value_char c && printable c) s = true).
Definition tidy_set (d : dict json) (kj : str * json) : dict json :=
  match snd kj with JStr s => dset (fst kj) (JStr s) d | j => dset k_ballotcount_abif (JStr (json_dumps j)) d end.
Lemma abif_key_ok : key_ok false k_ballotcount_abif /\ one_line k_ballotcount_abif /\ ~ In 35%N k_ballotcount_abif /\ k_ballotcount_abif <> k_ballotcount.
Proof.
  split; [split; [discriminate|]; split; [vm_compute; reflexivity|intros _; vm_compute; reflexivity]|]. split; [apply one_lineb; vm_compute; reflexivity|].
  split; [|discriminate]. vm_compute. intuition discriminate.
Qed.
Lemma tidy_effect cw kj e : tidy_entry kj -> j_metadata (step cw e (meta_l kj)) = tidy_set (j_metadata e) kj.
Proof.
  intros [H|(Hk&Hl&Hh&Hn&s&Es&Hs&Hv)].
  - rewrite plain_effect by (left; exact H). reflexivity.
  - destruct (str_eqb_spec (fst kj) k_ballotcount_abif) as [Ek|Nk]; [|rewrite plain_effect by (right; repeat split; try assumption; try apply Hk; exists s; auto); reflexivity].
    destruct kj as [k j]. cbn [fst snd] in *. subst k j. unfold step, tidy_set. cbn [fst snd]. change (meta_l (k_ballotcount_abif, JStr s)) with (123%N :: (k_ballotcount_abif ++ u ": " ++ json_dumps (JStr s) ++ u "}")).
    rewrite norm_first by reflexivity. unfold effect. assert (V : vote_of (123%N :: k_ballotcount_abif ++ u ": " ++ json_dumps (JStr s) ++ u "}") = None) by reflexivity.
    rewrite V. cbn [j_metadata]. unfold other_line.
    destruct (re_match CANDLINE_REGEX (before_hash (123%N :: k_ballotcount_abif ++ u ": " ++ json_dumps (JStr s) ++ u "}"))) as [[g s']|] eqn:E.
    { apply candline_first in E as [r E]. discriminate. } clear E V.
    rewrite (json_plain s Hv).
    assert (E : 123%N :: k_ballotcount_abif ++ u ": " ++ ([34%N] ++ s ++ [34%N]) ++ u "}" = [123%N] ++ k_ballotcount_abif ++ [58%N] ++ [32%N] ++ [34%N] ++ s ++ [34%N] ++ [125%N]).
    { cbn [app]. do 2 f_equal. unfold u. cbn [list_ascii_of_string map app]. rewrite <- app_assoc. reflexivity. }
    rewrite E.
    assert (Hv1 : forallb value_char s = true) by (apply forallb_forall; intros c Hc; rewrite forallb_forall in Hv; specialize (Hv c Hc); apply andb_prop in Hv as [Hv _]; exact Hv).
    rewrite before_hash_id.
    2:{ intro Hin. cbn [app] in Hin. destruct Hin as [Hin|Hin]; [discriminate|]. apply in_app_or in Hin as [Hin|Hin]; [exact (Hh Hin)|].
        destruct Hin as [Hin|[Hin|[Hin|Hin]]]; try discriminate. apply in_app_or in Hin as [Hin|Hin].
        - rewrite forallb_forall in Hv1. specialize (Hv1 _ Hin). vm_compute in Hv1. discriminate.
        - destruct Hin as [Hin|[Hin|[]]]; discriminate. }
    rewrite mixed_match by (assumption || reflexivity). reflexivity.
Qed.
Lemma tidy_fold cw ms : (forall kj, In kj ms -> tidy_entry kj) -> forall e,
  j_metadata (fold_left (step cw) (map meta_l ms) e) = fold_left tidy_set ms (j_metadata e).
Proof.
  induction ms as [|kj ms IH]; intros H e; [reflexivity|]. cbn [map fold_left]. rewrite IH by (intros x Hx; apply H; right; exact Hx).
  rewrite tidy_effect by (apply H; left; reflexivity). reflexivity.
Qed.

(** The keys of the metadata in the order of the lines. *)
Lemma keys_dset_same {V} k (v v' : V) d d' : dkeys d = dkeys d' -> dkeys (dset k v d) = dkeys (dset k v' d').
Proof. intro E. rewrite !dkeys_dset, E. reflexivity. Qed.
Lemma fold_keys cw ls : forall i m m' e, (forall l, In l ls -> one_line l) -> state_fine m -> dkeys (j_metadata m) = dkeys (j_metadata e) ->
  foldM (process_line cw false) (enumerate i ls) m = Ok m' -> dkeys (j_metadata m') = dkeys (j_metadata (fold_left (step cw) ls e)).
Proof.
  induction ls as [|l ls IH]; intros i m m' e Hl Hm Ha H; cbn [enumerate foldM fold_left] in H |- *.
  - apply ok_inj in H. subst m'. exact Ha.
  - apply bind_ok in H as (m1&E1&H). destruct (process_line_inv _ _ _ _ _ _ (Hl l (or_introl eq_refl)) Hm E1) as (S1&_).
    refine (IH _ m1 m' _ _ S1 _ H); [intros x Hx; apply Hl; right; exact Hx|].
    rewrite process_line_eq, process_comment_off in E1 by (apply Hl; left; reflexivity). cbn [bind] in E1. unfold step, effect, vote_of.
    destruct (vote_parts (before_hash (norm cw l))) as [[ds rest]|].
    + destruct Hm as (_&_&B&_). rewrite (process_prefline_eq _ _ _ _ _ B) in E1. destruct (py_int ds) as [q|]; [|discriminate]. cbn [bind] in E1 |- *.
      destruct (parse_prefstr rest) as [[ps ks]|]; [|discriminate]. cbn [bind fst snd] in E1 |- *. apply ok_inj in E1. subst m1. cbn [j_metadata].
      rewrite dkeys_dset_In; [exact Ha|]. apply (in_map fst _ (k_ballotcount, JInt (total_ballots m))), dget_In, B.
    + apply ok_inj in E1. subst m1. cbn [j_metadata]. unfold other_line. destruct (re_match CANDLINE_REGEX _) as [[g s']|]; [exact Ha|].
      destruct (re_match METADATA_REGEX _) as [[g s']|]; [|exact Ha]. unfold process_metadata. cbn [j_metadata]. apply keys_dset_same, Ha.
Qed.
Lemma reread_keys m cw text m' : writable m -> convert_jabmod_to_abif m = Ok text -> convert_abif_to_jabmod text cw false false = Ok m' ->
  dkeys (j_metadata m') = dkeys (j_metadata (fold_left (step cw) (map meta_l (j_metadata m)) emptyish)).
Proof.
  intros H T1 T2. pose proof (written_text m H) as Ew. rewrite T1 in Ew. apply ok_inj in Ew. subst text. pose proof (file_one_line m H) as Hol.
  assert (Hsp : splitlines (unlines (file_lines m)) = file_lines m) by (apply splitlines_unlines; exact Hol).
  destruct (convert_shape _ _ _ _ _ T2) as (m0&E0&_&m1&E1&->). apply ok_inj in E1. subst m1. cbn [j_metadata]. rewrite Hsp in E0.
  rewrite (fold_keys cw (file_lines m) 0 emptyish m0 emptyish Hol emptyish_fine eq_refl E0).
  destruct (file_votes m cw H) as (ws&_&_&F2). destruct H as (_&_&_&Hc&_).
  assert (Hcc : forall tn, In tn (j_candidates m) -> cand_ok tn) by (intros [t n] Hin; exact (Hc t n Hin)).
  unfold file_lines. rewrite !fold_left_app. cbn [fold_left].
  rewrite (proj2 (votes_cands cw _ _ F2 _)).
  assert (Hhead : forall s e, j_metadata (step cw e (35%N :: s)) = j_metadata e) by (intros s e; unfold step; rewrite (proj1 (head_effect cw s e)); reflexivity).
  assert (Hh : forall h e, In h [head1; head2; head3] -> j_metadata (step cw e h) = j_metadata e) by (intros h e Hin; repeat destruct Hin as [<-|Hin]; [apply Hhead|apply Hhead|apply Hhead|destruct Hin]).
  rewrite Hh by (cbn; tauto). rewrite (proj2 (cands_cands cw _ Hcc _)), Hh by (cbn; tauto).
  assert (E3 : step cw emptyish head1 = emptyish) by (unfold step; exact (proj1 (head_effect cw (u "------- metadata -------") emptyish))). rewrite E3. reflexivity.
Qed.

(** The first entry of what was read is the ballot count. *)
Definition counted (d : dict json) : Prop := exists j r, d = (k_ballotcount, j) :: r.
Lemma counted_dset k v d : counted d -> counted (dset k v d).
Proof. intros (j&r&->). cbn [dset]. destruct (str_eqb k k_ballotcount) eqn:E; [apply str_eqb_eq in E; subst k|]; eexists; eexists; reflexivity. Qed.
Lemma fold_counted cw sc ls : forall i m m', (forall l, In l ls -> one_line l) -> state_fine m -> counted (j_metadata m) ->
  foldM (process_line cw sc) (enumerate i ls) m = Ok m' -> counted (j_metadata m').
Proof.
  induction ls as [|l ls IH]; intros i m m' Hl Hm Ha H; cbn [enumerate foldM] in H; [apply ok_inj in H; subst m'; exact Ha|].
  apply bind_ok in H as (m1&E1&H). destruct (process_line_inv _ _ _ _ _ _ (Hl l (or_introl eq_refl)) Hm E1) as (S1&_).
  refine (IH _ m1 m' _ S1 _ H); [intros x Hx; apply Hl; right; exact Hx|].
  rewrite process_line_eq in E1 by (apply Hl; left; reflexivity). apply bind_ok in E1 as (m2&Ec&E1).
  assert (C2 : counted (j_metadata m2)).
  { unfold process_comment in Ec. destruct (comment_of _) as [[|c r]|]; [apply ok_inj in Ec; subst; exact Ha| |apply ok_inj in Ec; subst; exact Ha].
    destruct sc; [|apply ok_inj in Ec; subst; exact Ha].
    destruct (dget k_comments (j_metadata m)) as [v|]; [destruct v; try discriminate|]; apply ok_inj in Ec; subst; cbn [j_metadata]; apply counted_dset, Ha. }
  destruct (vote_parts _) as [[ds rest]|].
  - unfold process_prefline in E1. apply bind_ok in E1 as [q [_ E1]]. apply bind_ok in E1 as [bc [_ E1]]. apply bind_ok in E1 as [bz [_ E1]].
    apply bind_ok in E1 as [[prefs ks] [_ E1]]. apply ok_inj in E1. subst m1. cbn [j_metadata]. apply counted_dset, C2.
  - apply ok_inj in E1. subst m1. unfold other_line. destruct (re_match CANDLINE_REGEX _) as [[g s']|]; [exact C2|].
    destruct (re_match METADATA_REGEX _) as [[g s']|]; [|exact C2]. unfold process_metadata. cbn [j_metadata]. apply counted_dset, C2.
Qed.
Lemma parsed_counted text cw sc m : convert_abif_to_jabmod text cw false sc = Ok m -> counted (j_metadata m).
Proof.
  intro H. destruct (convert_shape _ _ _ _ _ H) as (m0&E0&_&m1&E1&->). apply ok_inj in E1. subst m1. cbn [j_metadata].
  refine (fold_counted cw sc _ 0 emptyish m0 (splitlines_one_line text) emptyish_fine _ E0). eexists. eexists. reflexivity.
Qed.

(** From one list of metadata to the next. *)
Definition after_pass (ms : dict json) : dict json := fold_left tidy_set ms [(k_ballotcount, JInt 0)].
Definition tidy (ms : dict json) : Prop := NoDup (dkeys ms) /\ forall kj, In kj ms -> tidy_entry kj.
Lemma tidy_tail x ms' : tidy ((k_ballotcount, x) :: ms') -> forall kj, In kj ms' -> fst kj <> k_ballotcount /\ tidy_entry kj /\ exists s, snd kj = JStr s.
Proof.
  intros (Hn&Ht) kj Hin. cbn [dkeys map fst] in Hn. inversion Hn as [|? ? Hni _]; subst.
  assert (Hne : fst kj <> k_ballotcount) by (intros E; apply Hni; rewrite <- E; apply in_map, Hin). split; [exact Hne|].
  pose proof (Ht kj (or_intror Hin)) as T. split; [exact T|]. destruct T as [(E&_)|(_&_&_&_&s&Es&_)]; [congruence|eauto].
Qed.
(** [d] is [ms] with the count replaced by the placeholder and an entry for the count in the text. *)
Lemma pass_shape ms' : forall x a r, (forall kj, In kj ms' -> fst kj <> k_ballotcount /\ tidy_entry kj /\ exists s, snd kj = JStr s) ->
  tidy_entry (k_ballotcount_abif, JStr a) -> (forall kj, In kj r -> fst kj <> k_ballotcount /\ tidy_entry kj /\ exists s, snd kj = JStr s) -> NoDup (dkeys ((k_ballotcount, x) :: (k_ballotcount_abif, JStr a) :: r)) ->
  exists a' r', fold_left tidy_set ms' ((k_ballotcount, x) :: (k_ballotcount_abif, JStr a) :: r) = (k_ballotcount, x) :: (k_ballotcount_abif, JStr a') :: r' /\
    tidy_entry (k_ballotcount_abif, JStr a') /\ (forall kj, In kj r' -> fst kj <> k_ballotcount /\ tidy_entry kj /\ exists s, snd kj = JStr s) /\
    NoDup (dkeys ((k_ballotcount, x) :: (k_ballotcount_abif, JStr a') :: r')).
Proof.
  induction ms' as [|[k j] ms' IH]; intros x a r H Ha Hr Hn; [exists a, r; auto|]. cbn [fold_left].
  destruct (H (k, j) (or_introl eq_refl)) as (Hk&Ht&s&Es). cbn [fst snd] in Hk, Es. subst j. unfold tidy_set at 2. cbn [fst snd].
  pose proof (NoDup_dset k (JStr s) _ Hn) as Hn'. cbn [dset] in Hn' |- *. destruct (str_eqb_spec k k_ballotcount) as [->|_]; [congruence|].
  destruct (str_eqb_spec k k_ballotcount_abif) as [->|Nk].
  - apply IH; [intros kj Hin; apply H; right; exact Hin|exact Ht|exact Hr|exact Hn'].
  - apply IH; [intros kj Hin; apply H; right; exact Hin|exact Ha| |exact Hn'].
    intros [k1 j1] Hin. apply In_dset in Hin as [(->&->)|Hin]; [cbn [fst snd]; eauto|]. exact (Hr _ Hin).
Qed.
Lemma z2s_entry n : tidy_entry (k_ballotcount_abif, JStr (z2s n)).
Proof.
  destruct abif_key_ok as (A1&A2&A3&A4). right. cbn [fst snd]. repeat (split; [assumption || apply A1|]). exists (z2s n). split; [reflexivity|]. split; [apply z2s_ne|].
  apply forallb_forall. intros c Hc. pose proof (z2s_chars n) as Hz. rewrite forallb_forall in Hz. specialize (Hz c Hc).
  assert (B : (c < 256)%N) by (unfold int_char in Hz; unfold is_digit in Hz; apply orb_prop in Hz as [Hz|Hz]; [apply andb_prop in Hz as [A5 A6]; apply N.leb_le in A5, A6; lia|apply N.eqb_eq in Hz; lia]).
  pose (P := fun c => negb (int_char c) || (value_char c && printable c)).
  assert (HP : P c = true) by (apply all_bytes; [vm_compute; reflexivity|exact B]). unfold P in HP. rewrite Hz in HP. exact HP.
Qed.
Lemma pass_once ms : tidy ms -> counted ms -> exists a r, after_pass ms = (k_ballotcount, JInt 0) :: (k_ballotcount_abif, JStr a) :: r /\
  tidy_entry (k_ballotcount_abif, JStr a) /\ (forall kj, In kj r -> fst kj <> k_ballotcount /\ tidy_entry kj /\ exists s, snd kj = JStr s) /\
  NoDup (dkeys ((k_ballotcount, JInt 0) :: (k_ballotcount_abif, JStr a) :: r)).
Proof.
  intros Ht (j&ms'&->). pose proof (tidy_tail j ms' Ht) as HT. destruct Ht as (_&Ht). pose proof (Ht _ (or_introl eq_refl)) as Hj. destruct Hj as [(_&n&En)|(_&_&_&E&_)]; [|cbn [fst] in E; congruence].
  cbn [snd] in En. subst j. unfold after_pass. cbn [fold_left]. unfold tidy_set at 2. cbn [fst snd json_dumps].
  assert (E : dset k_ballotcount_abif (JStr (z2s n)) [(k_ballotcount, JInt 0)] = [(k_ballotcount, JInt 0); (k_ballotcount_abif, JStr (z2s n))]) by reflexivity. rewrite E.
  apply pass_shape; [exact HT|apply z2s_entry|intros kj []|]. cbn [dkeys map fst]. constructor; [intros [Ex|[]]; discriminate Ex|]. constructor; [intros []|constructor].
Qed.
Lemma pass_twice n a r : tidy_entry (k_ballotcount_abif, JStr a) -> (forall kj, In kj r -> fst kj <> k_ballotcount /\ tidy_entry kj /\ exists s, snd kj = JStr s) ->
  NoDup (dkeys ((k_ballotcount, JInt n) :: (k_ballotcount_abif, JStr a) :: r)) ->
  after_pass ((k_ballotcount, JInt n) :: (k_ballotcount_abif, JStr a) :: r) = (k_ballotcount, JInt 0) :: (k_ballotcount_abif, JStr a) :: r.
Proof.
  intros Ha Hr Hn. unfold after_pass. cbn [fold_left]. unfold tidy_set at 3. cbn [fst snd json_dumps]. unfold tidy_set at 2. cbn [fst snd].
  assert (E : dset k_ballotcount_abif (JStr a) (dset k_ballotcount_abif (JStr (z2s n)) [(k_ballotcount, JInt 0)]) = [(k_ballotcount, JInt 0); (k_ballotcount_abif, JStr a)]) by reflexivity. rewrite E.
  assert (G : forall r d, (forall kj : str * json, In kj r -> exists s, snd kj = JStr s) -> NoDup (dkeys d ++ dkeys r) -> fold_left tidy_set r d = d ++ r).
  { clear. induction r as [|[k j] r IH]; intros d H Hn; [rewrite app_nil_r; reflexivity|]. cbn [fold_left]. destruct (H (k, j) (or_introl eq_refl)) as (s&Es). cbn [snd] in Es. subst j.
    unfold tidy_set at 2. cbn [fst snd]. rewrite dkeys_dset_nIn. 2:{ intro Hin. exact (NoDup_app_disjoint _ _ Hn k Hin (or_introl eq_refl)). }
    rewrite IH; [rewrite <- app_assoc; reflexivity|intros kj Hin; apply H; right; exact Hin|]. unfold dkeys at 1. rewrite map_app. cbn [map fst]. rewrite <- app_assoc. exact Hn. }
  rewrite G; [reflexivity|intros kj Hin; apply (Hr kj Hin)|exact Hn].
Qed.
