(** * PropsCrashFresh: C100 when the ABIF directory is not there yet *)

From Coq Require Import Lia.
From Verif Require Import PyBase PyFacts UrlText FetchModel PosixModel Jabmod ParserModel WriterModel NameqModel DebtallyModel ConvertModel ExtfileModel PosixFacts PropsExtfile SpecfileModel SpecfileFacts CrashModel PropsCrash.
Local Open Scope Z_scope.

(** ** Specification *)
(** The text names, one below the other, with a slash between them. *)
Inductive spells : str -> list str -> Prop :=
| spells_one c : plain_name c = true -> spells c [c]
| spells_more p ns c : spells p ns -> plain_name c = true -> spells (p ++ slash :: c) (ns ++ [c]).
(** q is D, or D is below it. *)
Definition at_or_above (q D : place) : Prop := exists r, D = q ++ r.
(** tc has what t has, and perhaps D or directories above D that t does not have. *)
Definition grown (D : place) (t tc : tree) : Prop := well_formed tc /\ forall q, tc q = t q \/ (tc q = Some NDir /\ t q = None /\ at_or_above q D).

(** ** Making the directory *)
Section Mk.
Variable cwd : place.
Hypothesis cwd_ok : good_place cwd.
Lemma spells_facts p ns : spells p ns -> names p = ns /\ is_abs p = false /\ p <> [] /\ (exists a x, p = a ++ [x] /\ x <> slash) /\ (forall c, In c ns -> plain_name c = true) /\ ns <> [].
Proof.
  assert (L : forall c : str, plain_name c = true -> exists a x, c = a ++ [x] /\ x <> slash).
  { intros c Hc. apply plain_name_spec in Hc as (H1&_&_&H2). destruct (exists_last H1) as (a&x&E). exists a, x. split; [exact E|]. intros ->. apply H2. rewrite E. apply in_or_app. right. left. reflexivity. }
  intro H. induction H as [c Hc|p ns c H (I1&I2&I3&(a&x&I4&I5)&I6&I7) Hc].
  - pose proof Hc as Hc'. apply plain_name_spec in Hc' as (H1&_&_&H4). repeat split.
    + apply split_on_none, H4.
    + apply plain_is_abs, Hc.
    + exact H1.
    + apply L, Hc.
    + intros d [<-|[]]. exact Hc.
    + discriminate.
  - pose proof Hc as Hc'. apply plain_name_spec in Hc' as (H1&_&_&H4). repeat split.
    + unfold names. rewrite split_on_sep, (split_on_none slash c H4). fold (names p). rewrite I1. reflexivity.
    + destruct p as [|y p]; [congruence|]. exact I2.
    + destruct p; discriminate.
    + destruct (L c Hc) as (a'&x'&E&N). exists (p ++ slash :: a'), x'. rewrite E, <- app_assoc. split; [reflexivity|exact N].
    + intros d Hd. apply in_app_or in Hd as [Hd|[<-|[]]]; [apply I6, Hd|exact Hc].
    + destruct ns; discriminate.
Qed.
Lemma spells_nodots p ns : spells p ns -> ~ In dotdot (names p).
Proof. intro H. destruct (spells_facts p ns H) as (E&_&_&_&G&_). rewrite E. intro X. apply G in X. discriminate X. Qed.
Lemma filter_plain ns : (forall c, In c ns -> plain_name c = true) -> filter solid ns = ns.
Proof. induction ns as [|c ns IH]; intro H; [reflexivity|]. cbn [filter]. rewrite (plain_solid c) by (apply H; left; reflexivity). f_equal. apply IH. intros; apply H; right; assumption. Qed.
Lemma spells_abs p ns : spells p ns -> abs_names cwd p = cwd ++ ns.
Proof. intro H. pose proof (spells_nodots p ns H) as N. destruct (spells_facts p ns H) as (E&A&_&_&G&_). unfold abs_names. rewrite norm_plain by exact N. unfold start_of. rewrite A, E, filter_plain by exact G. reflexivity. Qed.
Lemma spells_simple p ns : spells p ns -> simple_path p.
Proof. intro H. split; [exact (spells_nodots p ns H)|]. destruct (spells_facts p ns H) as (E&_&_&_&G&Hne). rewrite E. destruct (exists_last Hne) as (b&c&Eb). exists b, c. split; [exact Eb|]. apply G. rewrite Eb. apply in_or_app. right. left. reflexivity. Qed.
Lemma spells_split p ns c : spells p ns -> plain_name c = true -> basename (p ++ slash :: c) = c /\ dirname (p ++ slash :: c) = p.
Proof.
  intros H Hc. pose proof Hc as Hc'. apply plain_name_spec in Hc' as (_&_&_&H4). split; [apply basename_split, H4|]. destruct (spells_facts p ns H) as (_&_&_&(a&x&E&N)&_).
  unfold dirname. destruct (upto_split (p ++ slash :: c)) as (h&b&E2&Hb&U); [apply in_or_app; right; left; reflexivity|]. rewrite U.
  assert (G : h = p). { clear - E2 Hb H4. revert h E2. induction p as [|y p IH]; intros [|z h] E; cbn [app] in E.
    - reflexivity.
    - injection E as _ E. exfalso. apply H4. rewrite E. apply in_or_app. right; left; reflexivity.
    - injection E as _ E. exfalso. apply Hb. rewrite <- E. apply in_or_app. right; left; reflexivity.
    - injection E as -> E. f_equal. apply IH, E. }
  subst h. assert (F : forallb (N.eqb slash) (p ++ [slash]) = false). { rewrite E, !forallb_app. cbn [forallb]. destruct (N.eqb_spec slash x); [congruence|]. cbn [andb]. rewrite andb_false_r. reflexivity. }
  rewrite F, rev_app_distr. cbn [rev app drop_slashes]. change (slash =? slash)%N with true. cbv iota. rewrite E, rev_app_distr. cbn [rev app drop_slashes]. destruct (N.eqb_spec x slash); [congruence|]. cbn [rev]. rewrite rev_involutive. reflexivity.
Qed.
(** A walk that comes to a name that is not there finds nothing. *)
Lemma walk_blocked n t f : forall l cur, (forall c, In c l -> plain_name c = true) -> (forall a b, l = a ++ b -> a <> [] -> at_place t (cur ++ a) = Some NDir \/ at_place t (cur ++ a) = None) -> l <> [] -> at_place t (cur ++ l) = None ->
  looks_up (walk n t f cur l) t = None.
Proof.
  induction l as [|c l IH]; intros cur Hp Hf Hne Hn; [congruence|]. rewrite walk_cons. pose proof (Hp c (or_introl eq_refl)) as Hc. apply plain_name_spec in Hc as (H1&H2&H3&_). destruct (str_eqb_spec c []); [congruence|]. destruct (str_eqb_spec c dot); [congruence|]. cbn [orb]. destruct (str_eqb_spec c dotdot); [congruence|].
  destruct (Hf [c] l eq_refl ltac:(discriminate)) as [E|E]; rewrite E.
  - destruct l as [|d l]; [rewrite E in Hn; discriminate Hn|]. apply IH; [intros; apply Hp; right; assumption| |discriminate|rewrite <- app_assoc; exact Hn].
    intros a b Ea Ha. rewrite <- app_assoc. apply (Hf (c :: a) b); [cbn [app]; f_equal; exact Ea|discriminate].
  - destruct l; [exact E|reflexivity].
Qed.
Lemma spells_exists t p ns : spells p ns -> well_formed t -> at_place t cwd = Some NDir -> (forall q, at_or_above q (cwd ++ ns) -> at_place t q = Some NDir \/ at_place t q = None) -> exists_at cwd t p = match at_place t (cwd ++ ns) with Some _ => true | None => false end.
Proof.
  intros H W L Hf. pose proof (spells_nodots p ns H) as Hd. pose proof (spells_abs p ns H) as Ea. destruct (spells_facts p ns H) as (En&A&Hp&_&G&Hne). unfold exists_at. destruct (Hf (cwd ++ ns)) as [E|E]; [exists []; symmetry; apply app_nil_r| |].
  - rewrite (resolve_dir cwd t true p W Hp Hd) by (rewrite Ea; exact E). unfold looks_up. rewrite Ea, E. reflexivity.
  - unfold resolve. destruct p as [|x0 p0]; [congruence|]. rewrite En. unfold start_of. rewrite A. rewrite (walk_blocked max_links t true ns cwd G); [rewrite E; reflexivity| |exact Hne|exact E].
    intros a b Eb _. apply Hf. exists b. rewrite <- app_assoc. f_equal. exact Eb.
Qed.
Lemma at_tc D t tc q : grown D t tc -> at_place tc q = at_place t q \/ (at_place tc q = Some NDir /\ at_place t q = None /\ at_or_above q D).
Proof. intros (_&H). destruct q; [left; reflexivity|]. exact (H (s :: q)). Qed.
Lemma above_more q D r : at_or_above q D -> at_or_above q (D ++ r).
Proof. intros (r'&->). exists (r' ++ r). rewrite app_assoc. reflexivity. Qed.
Lemma grown_more D r t tc : grown D t tc -> grown (D ++ r) t tc.
Proof. intros (W&H). split; [exact W|]. intro q. destruct (H q) as [E|(E1&E2&E3)]; [left; exact E|right; repeat split; try assumption; apply above_more, E3]. Qed.
Lemma grown_refl D t : well_formed t -> grown D t t. Proof. intro W. split; [exact W|]. intro q. left. reflexivity. Qed.
Lemma grown_trans D t t1 t2 : grown D t t1 -> grown D t1 t2 -> grown D t t2.
Proof. intros (_&H1) (W&H2). split; [exact W|]. intro q. destruct (H2 q) as [E|(E1&E2&E3)]; [rewrite E; apply H1|]. destruct (H1 q) as [E|(E4&E5&E6)]; [right; rewrite <- E; repeat split; try assumption; congruence|congruence]. Qed.
Lemma not_below D c (q : place) : at_or_above q D -> q <> D ++ [c].
Proof. intros (r&->) E. apply (f_equal (@length _)) in E. rewrite !app_length in E. cbn in E. lia. Qed.
Lemma mkdir_last t p ns' c ns : spells p ns -> ns = ns' ++ [c] -> well_formed t -> at_place t (cwd ++ ns') = Some NDir -> at_place t (cwd ++ ns) = None ->
  exists t', once (os_mkdir cwd p) t = (Ok tt, t', [t']) /\ grown (cwd ++ ns) t t' /\ at_place t' (cwd ++ ns) = Some NDir.
Proof.
  intros H E W Hd Hn. pose proof (spells_simple p ns H) as Hs. pose proof (spells_abs p ns H) as Ea. destruct (spells_facts p ns H) as (_&_&Hp&_&_&_). exists (put (cwd ++ ns) (Some NDir) t).
  assert (Hne : cwd ++ ns <> []) by (rewrite E, app_assoc; apply snoc_ne). split; [|split; [|apply at_put_same, Hne]].
  - unfold once, os_mkdir. destruct p as [|x0 p0] eqn:Ep; [congruence|]. rewrite <- Ep in *. rewrite (presolve_simple cwd t false p W Hs).
    + rewrite Ea. unfold mkdir_place. rewrite Hn. reflexivity.
    + rewrite Ea, E, app_assoc, removelast_last. exact Hd.
    + rewrite Ea, Hn. exact I.
  - split.
    + rewrite E, app_assoc. apply wf_put; [exact W|exact Hd|]. rewrite <- app_assoc, <- E, Hn. discriminate.
    + intro q. destruct (place_eqb_spec q (cwd ++ ns)) as [->|N]; [right; split; [apply put_same|]; split; [|exists []; symmetry; apply app_nil_r]|left; apply put_other, N].
      destruct (cwd ++ ns); [congruence|exact Hn].
Qed.
Lemma makedirs_makes p ns : spells p ns -> forall n t, (length p < n)%nat -> well_formed t -> at_place t cwd = Some NDir -> (forall q, at_or_above q (cwd ++ ns) -> at_place t q = Some NDir \/ at_place t q = None) -> at_place t (cwd ++ ns) = None ->
  exists t' tr, makedirs_steps cwd n p t = (Ok tt, t', tr) /\ grown (cwd ++ ns) t t' /\ at_place t' (cwd ++ ns) = Some NDir /\ Forall (grown (cwd ++ ns) t) tr.
Proof.
  intro H. induction H as [c Hc|p' ns c H IH Hc]; intros n t Hn W L Hf Hno; (destruct n as [|n]; [lia|]).
  - cbn [makedirs_steps]. pose proof Hc as Hc'. apply plain_name_spec in Hc' as (H1&_&_&H4). rewrite (basename_none c H4), (dirname_none c H4). destruct c as [|x0 c0] eqn:Ec; [congruence|]. rewrite <- Ec in *. cbv iota. cbn [nonempty andb].
    destruct (mkdir_last t c [] c [c] (spells_one c Hc) eq_refl W) as (t'&E&G&D); [rewrite app_nil_r; exact L|exact Hno|]. exists t', [t']. split; [|split; [exact G|split; [exact D|constructor; [exact G|constructor]]]]. rewrite Ec in *. exact E.
  - cbn [makedirs_steps]. destruct (spells_split p' ns c H Hc) as (B1&B2). rewrite B1, B2. pose proof Hc as Hc'. apply plain_name_spec in Hc' as (H1&H2&_&H4).
    assert (Eb : (match c with [] => (dirname p', basename p') | n0 :: l => (p', n0 :: l) end) = (p', c)) by (destruct c; [congruence|reflexivity]). rewrite Eb.
    assert (Hf' : forall q, at_or_above q (cwd ++ ns) -> at_place t q = Some NDir \/ at_place t q = None) by (intros q Hq; apply Hf; rewrite app_assoc; apply above_more, Hq).
    rewrite (spells_exists t p' ns H W L Hf'). destruct (spells_facts p' ns H) as (_&_&Hp&_&_&_). assert (N1 : nonempty p' = true) by (destruct p'; [congruence|reflexivity]). assert (N2 : nonempty c = true) by (destruct c; [congruence|reflexivity]). rewrite N1, N2. cbn [andb].
    destruct (at_place t (cwd ++ ns)) as [nd|] eqn:En; cbn [negb].
    + assert (nd = NDir) by (destruct (Hf' (cwd ++ ns)) as [X|X]; [exists []; symmetry; apply app_nil_r|congruence|congruence]). subst nd.
      destruct (mkdir_last t (p' ++ slash :: c) ns c (ns ++ [c]) (spells_more p' ns c H Hc) eq_refl W En Hno) as (t'&E&G&D). exists t', [t']. split; [exact E|]. split; [exact G|]. split; [exact D|]. constructor; [exact G|constructor].
    + destruct (IH n t) as (t1&tr&E1&G1&D1&T1); [rewrite app_length in Hn; cbn [length] in Hn; lia|exact W|exact L|exact Hf'|exact En|]. rewrite E1. destruct (str_eqb_spec c dot); [congruence|].
      destruct (mkdir_last t1 (p' ++ slash :: c) ns c (ns ++ [c]) (spells_more p' ns c H Hc) eq_refl (proj1 G1) D1) as (t2&E2&G2&D2).
      { destruct (at_tc _ _ _ (cwd ++ ns ++ [c]) G1) as [X|(_&_&X)]; [rewrite X; exact Hno|]. apply (not_below _ c) in X. rewrite <- app_assoc in X. congruence. }
      rewrite E2. exists t2, (tr ++ [t2]). split; [reflexivity|]. pose proof (grown_more _ [c] _ _ G1) as G1'. rewrite <- app_assoc in G1'. pose proof (grown_trans _ _ _ _ G1' G2) as G. split; [exact G|]. split; [exact D2|]. apply Forall_app. split; [|constructor; [exact G|constructor]].
      eapply Forall_impl; [|exact T1]. intros t0 G0. apply (grown_more _ [c]) in G0. rewrite <- app_assoc in G0. exact G0.
Qed.
End Mk.

(** ** A plan stays one when directories are made *)
Section Plans.
Variables (cwd : place) (sha1 : hash) (dl ab : str) (t t1 : tree).
Hypothesis dl_ok : ~ In dotdot (names dl).
Notation D := (abs_names cwd ab).
Hypothesis wf : well_formed t.
Hypothesis none : at_place t D = None.
Hypothesis G : grown D t t1.
Lemma down_grown c : downloaded cwd dl t c -> downloaded cwd dl t1 c /\ read_text cwd t1 (path_join dl c) = read_text cwd t (path_join dl c).
Proof.
  intros (H1&H2&b&Hf). assert (Ec : at_place t1 (download cwd dl c) = Some (NFile b)) by (destruct (at_tc D t t1 (download cwd dl c) G) as [E|(_&E&_)]; [congruence|congruence]). split; [split; [exact H1|split; [exact H2|exists b; exact Ec]]|].
  destruct (download_parent cwd dl dl_ok t c b wf H1 H2 Hf) as (P1&_). destruct (download_parent cwd dl dl_ok t1 c b (proj1 G) H1 H2 Ec) as (P2&_).
  unfold read_text. rewrite (presolve_simple cwd t true (path_join dl c) wf); [|apply (download_simple dl dl_ok c H1 H2)|exact P1|fold (download cwd dl c); rewrite Hf; exact I].
  rewrite (presolve_simple cwd t1 true (path_join dl c) (proj1 G)); [|apply (download_simple dl dl_ok c H1 H2)|exact P2|fold (download cwd dl c); rewrite Ec; exact I]. fold (download cwd dl c). unfold read_place. rewrite Hf, Ec. reflexivity.
Qed.
Lemma out_none loc : t (out cwd ab loc) = None /\ t1 (out cwd ab loc) = None.
Proof.
  assert (X : t (out cwd ab loc) = None). { destruct (t (out cwd ab loc)) eqn:E; [|reflexivity]. unfold out in E. pose proof (wf D loc) as Y. rewrite E in Y. specialize (Y ltac:(discriminate)). congruence. }
  split; [exact X|]. destruct (proj2 G (out cwd ab loc)) as [E|(_&_&E)]; [congruence|]. exfalso. apply (not_below D loc) in E. apply E. reflexivity.
Qed.
Lemma makes_grown f x loc v : makes cwd sha1 dl ab t f x loc v -> makes cwd sha1 dl ab t1 f x loc v.
Proof.
  pose proof (out_none loc) as (_&On). intros [copy rest target Hf Hc Hd Hl Hp Hn Hr|cs blobs text bytes Hf Hc Hd Hl Hp Hn HF Ht Hb].
  - eapply makes_link; try eassumption; [apply down_grown, Hd|]. rewrite at_snoc. unfold out in On. rewrite On. discriminate.
  - eapply makes_file; try eassumption.
    + eapply Forall_impl; [|exact Hd]. intros c X. apply down_grown, X.
    + left. rewrite at_snoc. exact On.
    + clear - HF Hd dl_ok wf G. induction HF as [|c b cs bs E _ IH]; constructor; inversion Hd; subst; [rewrite (proj2 (down_grown c ltac:(assumption))); exact E|apply IH; assumption].
Qed.
Lemma plan_grown : forall d l os, plan cwd sha1 dl ab t d l os -> plan cwd sha1 dl ab t1 d l os.
Proof. intros d l os H. induction H as [d|d x f loc v l os Hf Hm H IH]; econstructor; [exact Hf|apply makes_grown, Hm|exact IH]. Qed.
End Plans.

(** The first run: the ABIF directory is not there, and perhaps some of the directories above it are not.  However often and wherever runs are cut off: nothing is there
    that was not there before, but for these directories and for the files to be made, each of which is missing, or done, or a beginning of it; and the next run that is
    not cut off succeeds, with the directories there, every file as it is to be, and all else as it was before the first run. *)
Theorem C100_first_run : forall cwd sha1 tar dl ab ns l d subs t outs tc, good_place cwd -> well_formed t -> at_place t cwd = Some NDir -> ~ In dotdot (names dl) ->
  spells ab ns -> (forall q, at_or_above q (cwd ++ ns) -> at_place t q = Some NDir \/ at_place t q = None) -> at_place t (cwd ++ ns) = None ->
  plan cwd sha1 dl ab t d l outs -> NoDup (map fst outs) -> (forall x c o, In x l -> In c (inputs x) -> In o outs -> download cwd dl c <> cwd ++ ns ++ [fst o]) ->
  interrupted cwd sha1 tar dl ab l d subs t tc ->
  let made q := In q (map (fun o => cwd ++ ns ++ [fst o]) outs) in
  (forall q, ~ made q -> tc q = t q \/ (tc q = Some NDir /\ t q = None /\ at_or_above q (cwd ++ ns))) /\
  (forall loc v, In (loc, v) outs -> begun None v (tc (cwd ++ ns ++ [loc]))) /\
  exists t', process_extfilelist cwd sha1 tar dl ab l d subs tc = (Ok tt, t') /\
    (forall loc v, In (loc, v) outs -> t' (cwd ++ ns ++ [loc]) = Some v) /\
    (forall q, at_or_above q (cwd ++ ns) -> at_place t' q = Some NDir) /\
    (forall q, ~ made q -> ~ at_or_above q (cwd ++ ns) -> t' q = t q).
Proof.
  intros cwd sha1 tar dl ab ns l d subs t outs tc Hw W L Hdl Hab Hfree Hno Hp Hnd Hs Hint made. pose proof (spells_abs cwd ab ns Hab) as Ea. pose proof (spells_nodots ab ns Hab) as Hdd. destruct (spells_facts ab ns Hab) as (_&_&Hne&_).
  assert (Eo : forall loc, out cwd ab loc = cwd ++ ns ++ [loc]) by (intro loc; unfold out; rewrite Ea, app_assoc; reflexivity). assert (No : at_place t (abs_names cwd ab) = None) by (rewrite Ea; exact Hno).
  assert (Em : map (fun o : str * node => out cwd ab (fst o)) outs = map (fun o => cwd ++ ns ++ [fst o]) outs) by (apply map_ext; intro o; apply Eo).
  (* the state: the directory is missing, or it is there and the rest is on its way *)
  set (A := fun tc => grown (abs_names cwd ab) t tc /\ at_place tc (abs_names cwd ab) = None). set (B := fun tc => exists t1, grown (abs_names cwd ab) t t1 /\ at_place t1 (abs_names cwd ab) = Some NDir /\ amid cwd ab t1 outs tc).
  assert (Sep : forall x c o, In x l -> In c (inputs x) -> In o outs -> download cwd dl c <> out cwd ab (fst o)) by (intros x c o; rewrite Eo; apply Hs).
  assert (Run : forall t1, grown (abs_names cwd ab) t t1 -> at_place t1 (abs_names cwd ab) = Some NDir -> forall tq, amid cwd ab t1 outs tq -> exists t' tr, extfilelist_steps cwd sha1 tar dl ab l d subs tq = (Ok tt, t', tr) /\ amid cwd ab t1 outs t' /\ Forall (amid cwd ab t1 outs) tr /\ (forall o, In o outs -> t' (out cwd ab (fst o)) = Some (snd o))).
  { intros t1 G D1 tq Ha. pose proof (plan_grown cwd sha1 dl ab t t1 Hdl W No G d l outs Hp) as Hp1. pose proof (plan_fits cwd sha1 dl ab t1 d l outs Hp1) as Hfit.
    destruct (run_amid cwd sha1 tar dl ab subs Hw Hdl Hdd Hne t1 outs (proj1 G) D1 Hnd Hfit l d tq Hp1 Sep Ha) as (t'&tr&E&R1&R2&R3&_). exists t', tr. auto. }
  assert (Free : forall t1, grown (abs_names cwd ab) t t1 -> forall q, at_or_above q (cwd ++ ns) -> at_place t1 q = Some NDir \/ at_place t1 q = None).
  { intros t1 G q Hq. destruct (at_tc _ _ _ q G) as [E|(E&_)]; [rewrite E; apply Hfree, Hq|left; exact E]. }
  assert (Lc : forall t1, grown (abs_names cwd ab) t t1 -> at_place t1 cwd = Some NDir) by (intros t1 G; destruct (at_tc _ _ _ cwd G) as [E|(E&_)]; [rewrite E; exact L|exact E]).
  assert (RunA : forall tq, A tq -> exists t1 t' tr, extfilelist_steps cwd sha1 tar dl ab l d subs tq = (Ok tt, t', tr) /\ grown (abs_names cwd ab) t t1 /\ at_place t1 (abs_names cwd ab) = Some NDir /\ amid cwd ab t1 outs t' /\ Forall (fun x => A x \/ B x) tr /\ (forall o, In o outs -> t' (out cwd ab (fst o)) = Some (snd o))).
  { intros tq (G&N). destruct (makedirs_makes cwd ab ns Hab (S (length ab)) tq (Nat.lt_succ_diag_r _) (proj1 G) (Lc tq G) (Free tq G)) as (t1&tr1&E1&G1&D1&T1); [rewrite <- Ea; exact N|]. rewrite <- Ea in G1, D1, T1. pose proof (grown_trans _ _ _ _ G G1) as G2.
    destruct (Run t1 G2 D1 t1 (amid_start cwd ab t1 outs)) as (t'&tr&E&R1&R2&R3).
    assert (Xq : exists_at cwd tq ab = false) by (rewrite (spells_exists cwd tq ab ns Hab (proj1 G) (Lc tq G)); [rewrite <- Ea, N; reflexivity|intros q Hq; exact (Free tq G q Hq)]).
    assert (X1 : exists_at cwd t1 ab = true) by (rewrite (spells_exists cwd t1 ab ns Hab (proj1 G2) (Lc t1 G2)); [rewrite <- Ea, D1; reflexivity|intros q Hq; exact (Free t1 G2 q Hq)]).
    unfold extfilelist_steps, tbind in E |- *. rewrite X1 in E. rewrite Xq, E1. destruct (entries_steps cwd sha1 tar dl ab subs l d t1) as [[r t2] l2]. cbn [app] in E. injection E as -> -> ->. exists t1, t', (tr1 ++ tr). split; [reflexivity|]. split; [exact G2|]. split; [exact D1|]. split; [exact R1|]. split; [|exact R3].
    apply Forall_app. split.
    - eapply Forall_impl; [|exact T1]. intros t0 G0. pose proof (grown_trans _ _ _ _ G G0) as G3. destruct (Free t0 G3 (cwd ++ ns)) as [Y|Y]; [exists []; symmetry; apply app_nil_r| |]; rewrite <- Ea in Y; [right; exists t0; split; [exact G3|split; [exact Y|apply amid_start]]|left; split; assumption].
    - eapply Forall_impl; [|exact R2]. intros t0 H0. right. exists t1. auto. }
  assert (Inv : A tc \/ B tc).
  { induction Hint as [|t1 t2 _ IH Hc]; [left; split; [apply grown_refl, W|exact No]|]. unfold crash_trees in Hc. destruct IH as [IH|(ta&G&D1&IH)].
    - destruct (RunA t1 IH) as (ta&t'&tr&E&_&_&_&T&_). rewrite E in Hc. destruct Hc as [<- | Hc]; [left; exact IH|]. rewrite Forall_forall in T. apply T, Hc.
    - destruct (Run ta G D1 t1 IH) as (t'&tr&E&_&T&_). rewrite E in Hc. right. exists ta. split; [exact G|]. split; [exact D1|]. destruct Hc as [<- | Hc]; [exact IH|]. rewrite Forall_forall in T. apply T, Hc. }
  assert (Fin : exists t1 t' tr, extfilelist_steps cwd sha1 tar dl ab l d subs tc = (Ok tt, t', tr) /\ grown (abs_names cwd ab) t t1 /\ at_place t1 (abs_names cwd ab) = Some NDir /\ amid cwd ab t1 outs t' /\ (forall o, In o outs -> t' (out cwd ab (fst o)) = Some (snd o))).
  { destruct Inv as [I1|(t1&G&D1&I1)]; [destruct (RunA tc I1) as (t1&t'&tr&E&G&D1&R1&_&R3); exists t1, t', tr; auto|destruct (Run t1 G D1 tc I1) as (t'&tr&E&R1&_&R3); exists t1, t', tr; auto 10]. }
  unfold made. rewrite <- Em. split; [|split].
  - intros q Hq. rewrite <- Ea. destruct Inv as [(G&_)|(t1&G&_&(I1&_))]; [apply (proj2 G)|rewrite (I1 q Hq); apply (proj2 G)].
  - intros loc v Hi. rewrite <- Eo. destruct Inv as [(G&N)|(t1&G&D1&(_&I2))].
    + left. apply (out_none cwd ab t tc W No G).
    + rewrite Forall_forall in I2. specialize (I2 _ Hi). cbn [fst snd] in I2. rewrite (proj2 (out_none cwd ab t t1 W No G loc)) in I2. exact I2.
  - destruct Fin as (t1&t'&tr&E&G&D1&R1&R3). exists t'. split; [rewrite <- C100_same_run, E; reflexivity|]. split; [intros loc v Hi; rewrite <- Eo; exact (R3 _ Hi)|].
    assert (Ab : forall q, at_or_above q (cwd ++ ns) -> at_place t1 q = Some NDir). { intros q (r&Er). rewrite <- Ea in Er. destruct r as [|c r]; [rewrite app_nil_r in Er; rewrite <- Er; exact D1|]. apply (wf_above t1 q (c :: r) (proj1 G)); [discriminate|rewrite <- Er, D1; discriminate]. }
    split.
    + intros q Hq. rewrite (amid_at cwd ab t1 outs t' q R1); [apply Ab, Hq|]. intro X. apply in_map_iff in X as (o&Eq&_). rewrite <- Ea in Hq. apply (not_below _ (fst o)) in Hq. apply Hq. symmetry. exact Eq.
    + intros q Hq Hna. rewrite (proj1 R1 q Hq). rewrite <- Ea in Hna. destruct (proj2 G q) as [Y|(_&_&Y)]; [exact Y|contradiction].
Qed.
Print Assumptions C100_first_run.

(** ** Example: neither local nor local/abif is there *)
Definition bare : list (place * node) := filter (fun e => negb (place_eqb (firstn 3 (fst e)) (home ++ [u "abif"]))) base.
Definition deep_outs : list (str * node) := [(u "one.abif", NLink (u "../../dl/tests/t1.abif")); (u "p.abif", NFile p_abif)].
Example C100_first_run_sample : good_place home /\ well_formed (tree_of bare) /\ at_place (tree_of bare) home = Some NDir /\ spells (u "local/abif") [u "local"; u "abif"] /\
  (forall q, at_or_above q (home ++ [u "local"; u "abif"]) -> at_place (tree_of bare) q = Some NDir \/ at_place (tree_of bare) q = None) /\ at_place (tree_of bare) (home ++ [u "local"; u "abif"]) = None /\
  plan home no_sha (u "dl") (u "local/abif") (tree_of bare) None two_entries deep_outs /\ NoDup (map fst deep_outs) /\
  (forall x c o, In x two_entries -> In c (inputs x) -> In o deep_outs -> download home (u "dl") c <> home ++ [u "local"; u "abif"] ++ [fst o]).
Proof.
  split; [intros c [<-|[<-|[]]]; reflexivity|]. split; [apply wf_tree_of; vm_compute; reflexivity|]. split; [vm_compute; reflexivity|]. split; [|split; [|split; [vm_compute; reflexivity|split; [|split]]]].
  - change (u "local/abif") with (u "local" ++ slash :: u "abif"). change [u "local"; u "abif"] with ([u "local"] ++ [u "abif"]). apply spells_more; [apply spells_one|]; reflexivity.
  - intros q (r&E). assert (Hl : (length q <= 4)%nat) by (apply (f_equal (@length _)) in E; rewrite (app_length q) in E; change (4 = length q + length r)%nat in E; lia).
    assert (Eq : q = firstn (length q) (home ++ [u "local"; u "abif"])) by (rewrite E, firstn_app, firstn_all, Nat.sub_diag; cbn [firstn]; symmetry; apply app_nil_r).
    rewrite Eq. destruct (length q) as [|[|[|[|[|k]]]]]; [| | | | |lia]; vm_compute; auto.
  - apply plan_cons with (f := u "abif"); [left; split; [reflexivity|discriminate]| |apply plan_cons with (f := u "preflib"); [left; split; [reflexivity|discriminate]| |constructor]].
    + eapply makes_link with (copy := u "tests/t1.abif"); try reflexivity; [|vm_compute; discriminate]. split; [apply (simple_by _ [u "tests"] (u "t1.abif")); vm_compute; reflexivity|]. split; [reflexivity|]. exists (u "5:A>B"). vm_compute. reflexivity.
    + eapply makes_file with (cs := [u "p.toc"]) (text := p_abif).
      * right. left. reflexivity.
      * reflexivity.
      * apply Forall_cons; [|constructor]. split; [apply (simple_by _ [] (u "p.toc")); vm_compute; reflexivity|]. split; [reflexivity|]. eexists. vm_compute. reflexivity.
      * reflexivity.
      * reflexivity.
      * left. vm_compute. reflexivity.
      * apply Forall2_cons; [|constructor]. vm_compute. reflexivity.
      * vm_compute. reflexivity.
      * vm_compute. reflexivity.
  - apply NoDup_cons; [intros [X|[]]; discriminate X|]. apply NoDup_cons; [intros []|constructor].
  - intros x c o [<- | [<- | []]] [<- | []] [<- | [<- | []]]; vm_compute; discriminate.
Qed.
