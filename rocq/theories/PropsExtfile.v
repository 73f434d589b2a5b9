(** * PropsExtfile: C59, turning downloads into ABIF files *)

From Coq Require Import Lia.
From Verif Require Import PyBase PyFacts UrlText UrlFacts FetchModel PosixModel PosixFacts Jabmod ParserModel WriterModel NameqModel DebtallyModel ConvertModel ExtfileModel.
Local Open Scope Z_scope.

(** ** Which format an entry is converted with *)
Definition unnamed (x : extfile) : Prop := x_srcfmt x = None \/ x_srcfmt x = Some [].
(** The format of the last entry of l that names one; the default d if none does. *)
Definition last_named (d : option str) (l : list extfile) (f : option str) : Prop :=
  (exists l1 e l2, l = l1 ++ e :: l2 /\ ~ unnamed e /\ f = x_srcfmt e /\ Forall unnamed l2) \/ (Forall unnamed l /\ f = d).
(** The entry with a format of its own. *)
Definition naming (x : extfile) (f : option str) : extfile := Extfile (x_localcopies x) (x_localcopy x) f (x_desc x) (x_abifloc x).

Lemma or_else_unnamed x d : unnamed x -> or_else (x_srcfmt x) d = d.
Proof. intros [E|E]; rewrite E; reflexivity. Qed.
Lemma or_else_named x d : ~ unnamed x -> or_else (x_srcfmt x) d = x_srcfmt x.
Proof. unfold unnamed. destruct (x_srcfmt x) as [[|c r]|]; intro H; try reflexivity; exfalso; apply H; auto. Qed.
Fixpoint final_fmt (d : option str) (l : list extfile) : option str := match l with [] => d | x :: r => final_fmt (or_else (x_srcfmt x) d) r end.
Lemma final_app d l1 l2 : final_fmt d (l1 ++ l2) = final_fmt (final_fmt d l1) l2.
Proof. revert d. induction l1 as [|x l1 IH]; intro d; [reflexivity|]. cbn [app final_fmt]. apply IH. Qed.
Lemma final_unnamed d l : Forall unnamed l -> final_fmt d l = d.
Proof. intro H. induction H as [|x l H1 H2 IH]; [reflexivity|]. cbn [final_fmt]. rewrite (or_else_unnamed x d H1). exact IH. Qed.
Lemma final_last_named d l f : last_named d l f -> final_fmt d l = f.
Proof.
  intros [(l1&e&l2&->&H1&->&H2)|(H&->)]; [|apply final_unnamed, H]. rewrite final_app. cbn [final_fmt]. rewrite (or_else_named e _ H1). apply final_unnamed, H2.
Qed.
Lemma last_named_exists d l : exists f, last_named d l f.
Proof.
  induction l as [|x l (f&IH)] using rev_ind; [exists d; right; auto|]. assert (U : unnamed x \/ ~ unnamed x).
  { unfold unnamed. destruct (x_srcfmt x) as [[|c r]|]; [left; auto|right; intros [H|H]; discriminate H|left; auto]. }
  destruct U as [U|U]; [|exists (x_srcfmt x); left; exists l, x, []; auto].
  exists f. destruct IH as [(l1&e&l2&->&H1&H2&H3)|(H&E)]; [left|right; split; [apply Forall_app; auto|exact E]]. exists l1, e, (l2 ++ [x]). rewrite <- app_assoc. repeat split; auto. apply Forall_app; auto.
Qed.

Section S.
Variables (cwd : place) (sha1 : hash) (tar : list N -> str -> result (list N)).
Local Notation process := (process_extfilelist cwd sha1 tar).
Local Notation entries := (process_entries cwd sha1 tar).

Lemma entries_app dl ab subs l1 : forall l2 d t, entries dl ab subs (l1 ++ l2) d t =
  match entries dl ab subs l1 d t with (Ok _, t') => entries dl ab subs l2 (final_fmt d l1) t' | (Err e, t') => (Err e, t') end.
Proof.
  induction l1 as [|x l1 IH]; intros l2 d t; [reflexivity|]. cbn [app process_entries final_fmt]. unfold abind. destruct (process_entry _ _ _ _ _ _ _ _ t) as [[[]|e] t']; [apply IH|reflexivity].
Qed.
Lemma process_exists dl ab l d subs t : exists_at cwd t ab = true -> process dl ab l d subs t = entries dl ab subs l d t.
Proof. intro H. unfold process_extfilelist, abind. rewrite H. reflexivity. Qed.
Lemma entry_irrelevant dl ab subs x f g : process_entry cwd sha1 tar dl ab subs (naming x g) f = process_entry cwd sha1 tar dl ab subs x f.
Proof. reflexivity. Qed.
End S.

(** Processing a list is processing its entries one after the other, each on its own and with the last format named so
    far (as long as the directory for the results is there). *)
Theorem C59_sequence : forall cwd sha1 tar dl ab d subs l x f t t', last_named d (l ++ [x]) f ->
  process_extfilelist cwd sha1 tar dl ab l d subs t = (Ok tt, t') -> exists_at cwd t' ab = true ->
  process_extfilelist cwd sha1 tar dl ab (l ++ [x]) d subs t = process_extfilelist cwd sha1 tar dl ab [naming x f] None subs t'.
Proof.
  intros cwd sha1 tar dl ab d subs l x f t t' Hf Hl Hx. apply final_last_named in Hf. rewrite final_app in Hf. cbn [final_fmt] in Hf.
  rewrite (process_exists cwd sha1 tar dl ab [_] _ _ t' Hx).
  unfold process_extfilelist, abind in *. destruct (if exists_at cwd t ab then _ else _) as [[[]|e] t1]; [|discriminate Hl].
  rewrite entries_app, Hl. cbn [process_entries naming x_srcfmt]. rewrite Hf.
  assert (Eo : or_else f None = f \/ f = Some []). { destruct f as [[|c r]|]; auto. }
  destruct Eo as [-> | ->]; [reflexivity|]. cbn [or_else]. unfold abind, process_entry. cbn. destruct (x_localcopies x); [reflexivity|]. destruct (x_localcopy x); reflexivity.
Qed.
Print Assumptions C59_sequence.
(** So, if every entry names its format or none does, each entry is converted with its own format or the default. *)
Theorem C59_own_format : forall d l x, (Forall (fun y => ~ unnamed y) (l ++ [x]) -> last_named d (l ++ [x]) (x_srcfmt x)) /\ (Forall unnamed (l ++ [x]) -> last_named d (l ++ [x]) d).
Proof.
  intros d l x. split; intro H; [left; exists l, x, []; repeat split; auto; apply Forall_app in H as [_ H]; inversion H; assumption|right; auto].
Qed.
Print Assumptions C59_own_format.
(** An entry that fails stops the run: nothing of the later entries is done. *)
Theorem C59_stops : forall cwd sha1 tar dl ab d subs l more e t t', process_extfilelist cwd sha1 tar dl ab l d subs t = (Err e, t') ->
  process_extfilelist cwd sha1 tar dl ab (l ++ more) d subs t = (Err e, t').
Proof.
  intros cwd sha1 tar dl ab d subs l more e t t'. unfold process_extfilelist, abind. destruct (if exists_at cwd t ab then _ else _) as [[[]|e0] t1]; [|auto]. intro H. rewrite entries_app, H. reflexivity.
Qed.
Print Assumptions C59_stops.
(** A format that is not known, or none at all, is an exception, and nothing is changed. *)
Theorem C59_unknown_format : forall cwd sha1 tar dl ab subs x f t, exists_at cwd t ab = true -> x_localcopy x <> None ->
  (forall k, In k [u "abif"; u "debtally"; u "preflib"; u "sftxt"; u "nameq_archive"] -> f <> Some k) ->
  process_extfilelist cwd sha1 tar dl ab [naming x f] None subs t = (Err GenericException, t).
Proof.
  intros cwd sha1 tar dl ab subs x f t Hx Hc Hf. rewrite process_exists by exact Hx. cbn [process_entries naming x_srcfmt]. unfold abind.
  assert (E : forall k, In (u k) [u "abif"; u "debtally"; u "preflib"; u "sftxt"; u "nameq_archive"] -> is_fmt (or_else f None) k = false).
  { intros k Hk. unfold is_fmt. destruct (or_else f None) as [g|] eqn:Eg; [|reflexivity]. destruct (str_eqb_spec g (u k)) as [->|]; [|reflexivity]. exfalso. apply (Hf _ Hk). destruct f as [[|c r]|]; cbn [or_else] in Eg; congruence. }
  unfold process_entry, abind. cbn [naming x_localcopies x_localcopy]. rewrite !E by (cbn; tauto). destruct (x_localcopies x); [reflexivity|]. destruct (x_localcopy x); [reflexivity|congruence].
Qed.
Print Assumptions C59_unknown_format.

(** ** Links *)
Definition first_copy (x : extfile) : option str := match x_localcopies x with Some l => nth_error l 0 | None => x_localcopy x end.
Definition download (cwd : place) (dl copy : str) : place := abs_names cwd (path_join dl copy).
(** Entry x, with format abif, names an existing file below the download directory (path without '..') and a plain name
    below the ABIF directory, where there is no directory. *)
Definition ready (cwd : place) (dl ab : str) (t : tree) (x : extfile) (copy loc : str) : Prop :=
  first_copy x = Some copy /\ simple_path copy /\ is_abs copy = false /\ (exists b, at_place t (download cwd dl copy) = Some (NFile b)) /\
  x_abifloc x = Some loc /\ plain_name loc = true /\ at_place t (abs_names cwd ab ++ [loc]) <> Some NDir.

Lemma wf_change t t' D loc : well_formed t -> at_place t D = Some NDir -> at_place t (D ++ [loc]) <> Some NDir -> (forall q, q <> D ++ [loc] -> t' q = t q) -> well_formed t'.
Proof.
  intros W Hd Hn Hf q c H. destruct (place_eqb_spec (q ++ [c]) (D ++ [loc])) as [E|E].
  - apply app_inj_tail in E as [-> _]. assert (N1 : D <> D ++ [loc]). { intro E. apply (f_equal (@length _)) in E. rewrite app_length in E. cbn in E. lia. } destruct D; [reflexivity|]. cbn [at_place]. rewrite Hf by exact N1. exact Hd.
  - rewrite Hf in H by exact E. pose proof (W q c H) as Hq. assert (N1 : q <> D ++ [loc]) by (intros ->; congruence). destruct q; [reflexivity|]. cbn [at_place]. rewrite Hf by exact N1. exact Hq.
Qed.
Lemma at_frame t t' P q : (forall q, q <> P -> t' q = t q) -> q <> P -> at_place t' q = at_place t q.
Proof. intros H N1. destruct q; [reflexivity|]. apply H, N1. Qed.
Lemma snoc_ne {X} (D : list X) c : D ++ [c] <> []. Proof. destruct D; discriminate. Qed.
Lemma at_snoc t D c : at_place t (D ++ [c]) = t (D ++ [c]).
Proof. destruct (D ++ [c]) eqn:E; [destruct (snoc_ne _ _ E)|reflexivity]. Qed.

Section L.
Variables (cwd : place) (sha1 : hash) (tar : list N -> str -> result (list N)) (dl ab : str) (subs : option (list subfile)).
Hypothesis cwd_ok : good_place cwd.
Hypothesis dl_ok : ~ In dotdot (names dl).
Hypothesis ab_ok : ~ In dotdot (names ab).
Hypothesis ab_ne : ab <> [].
Local Notation D := (abs_names cwd ab).

Lemma download_simple copy : simple_path copy -> is_abs copy = false -> simple_path (path_join dl copy).
Proof. intros H1 H2. apply join_simple; assumption. Qed.
Lemma relpath_ok copy : simple_path copy -> is_abs copy = false -> exists target, relpath cwd (path_join dl copy) ab = Ok target.
Proof.
  intros H1 H2. pose proof (simple_nonempty _ (download_simple copy H1 H2)) as Hn. unfold relpath. destruct (path_join dl copy); [congruence|]. destruct (cut_common _ _). eexists. reflexivity.
Qed.
Lemma download_parent t copy b : well_formed t -> simple_path copy -> is_abs copy = false -> at_place t (download cwd dl copy) = Some (NFile b) ->
  at_place t (removelast (download cwd dl copy)) = Some NDir /\ download cwd dl copy <> [].
Proof.
  intros W H1 H2 Hf. destruct (simple_abs cwd _ (download_simple copy H1 H2)) as (bf&c&_&_&_&E). unfold download in *. rewrite E in *. rewrite removelast_last. split; [|apply snoc_ne]. apply (at_wf t _ c W). congruence.
Qed.
(** Where the link leads. *)
Lemma link_leads t copy loc target b n before : well_formed t -> at_place t D = Some NDir -> simple_path copy -> is_abs copy = false -> plain_name loc = true ->
  relpath cwd (path_join dl copy) ab = Ok target -> at_place t (D ++ [loc]) = Some (NLink target) -> at_place t (download cwd dl copy) = Some (NFile b) ->
  ~ In dotdot before -> D = start_of cwd ab ++ filter solid before -> walk (S n) t true (start_of cwd ab) (before ++ [loc]) = Ok (download cwd dl copy).
Proof.
  intros W HD H1 H2 Hl Hr Hp Hf Hb ED. rewrite (walk_dirs (S n) t true [loc] W before (start_of cwd ab) Hb) by (rewrite <- ED; exact HD). rewrite <- ED.
  pose proof Hl as Hl'. apply plain_name_spec in Hl' as (N1&N2&N3&_). rewrite walk_cons. destruct (str_eqb_spec loc []); [congruence|]. destruct (str_eqb_spec loc dot); [congruence|]. cbn [orb]. destruct (str_eqb_spec loc dotdot); [congruence|].
  rewrite Hp. cbn [negb]. destruct (download_parent t copy b W H1 H2 Hf) as (Hpar&Hne).
  destruct (relpath_walk cwd t n true (path_join dl copy) ab target D (download cwd dl copy) W) as (T1&T2&T3); try assumption; try reflexivity.
  - apply good_abs; [exact cwd_ok|]. apply (download_simple copy H1 H2).
  - congruence.
  - rewrite Hf. exact I.
  - rewrite T2, app_nil_r. exact T3.
Qed.
Lemma link_resolves t copy loc target b : well_formed t -> at_place t D = Some NDir -> simple_path copy -> is_abs copy = false -> plain_name loc = true ->
  relpath cwd (path_join dl copy) ab = Ok target -> at_place t (D ++ [loc]) = Some (NLink target) -> at_place t (download cwd dl copy) = Some (NFile b) ->
  resolve cwd t true (path_join ab loc) = Ok (download cwd dl copy) /\ presolve cwd t true (is_abs (path_join ab loc)) (pnames (path_join ab loc)) = Ok (download cwd dl copy).
Proof.
  intros W HD H1 H2 Hl Hr Hp Hf. pose proof (plain_is_abs loc Hl) as Hab. pose proof Hl as Hl'. apply plain_name_spec in Hl' as (Hn&_&Hdd&Hsl). destruct (join_names ab loc Hn Hab) as (l&E&Ef&Hi).
  assert (En : names loc = [loc]) by (apply split_on_none, Hsl). rewrite En in E.
  assert (Hdl : ~ In dotdot l) by (intro X; exact (ab_ok (Hi X))).
  assert (ED : D = start_of cwd ab ++ filter solid l). { unfold abs_names. rewrite norm_plain by exact ab_ok. rewrite Ef. reflexivity. }
  assert (Es : start_of cwd (path_join ab loc) = start_of cwd ab) by (unfold start_of; rewrite (is_abs_join ab loc Hn Hab); reflexivity).
  destruct (join_plain cwd ab loc ab_ok Hl) as (Hsp&_). split.
  - unfold resolve. destruct (path_join ab loc) eqn:Ep; [destruct (simple_nonempty _ Hsp eq_refl)|]. rewrite Es, E. eapply link_leads; eassumption.
  - unfold presolve. fold (start_of cwd (path_join ab loc)). rewrite Es. unfold pnames. rewrite E, filter_app. change (filter (fun c => negb (str_eqb c [] || str_eqb c dot)) l) with (filter solid l). cbn [filter]. change (negb (str_eqb loc [] || str_eqb loc dot)) with (solid loc). rewrite (plain_solid loc Hl).
    assert (E2 : filter solid (filter solid l) = filter solid l). { clear. induction l as [|x l IH]; [reflexivity|]. cbn [filter]. destruct (solid x) eqn:E; [|exact IH]. cbn [filter]. rewrite E, IH. reflexivity. }
    eapply link_leads; try eassumption; [intro X; apply filter_In in X as [X _]; exact (Hdl X)|rewrite E2; exact ED].
Qed.
(** Making one link. *)
Lemma link_step t x copy loc d : well_formed t -> at_place t D = Some NDir -> ready cwd dl ab t x copy loc -> d = Some (u "abif") ->
  exists t' target, process_entry cwd sha1 tar dl ab subs x d t = (Ok tt, t') /\ relpath cwd (path_join dl copy) ab = Ok target /\ t' (D ++ [loc]) = Some (NLink target) /\ forall q, q <> D ++ [loc] -> t' q = t q.
Proof.
  intros W HD (Hc&H1&H2&(b&Hf)&Hl&Hp&Hn) ->. destruct (relpath_ok copy H1 H2) as (target&Hr).
  destruct (join_plain cwd ab loc ab_ok Hp) as (Hsp&Ea).
  assert (Et : target <> []).
  { destruct (download_parent t copy b W H1 H2 Hf) as (Hpar&Hne). destruct (relpath_walk cwd t 0 true (path_join dl copy) ab target D (download cwd dl copy) W) as (T1&_); try assumption; try reflexivity; [apply good_abs; [exact cwd_ok|]; apply (download_simple copy H1 H2)|congruence|rewrite Hf; exact I]. }
  assert (Hres : forall t0, well_formed t0 -> at_place t0 D = Some NDir -> resolve cwd t0 false (path_join ab loc) = Ok (D ++ [loc])).
  { intros t0 W0 HD0. rewrite <- Ea. apply resolve_simple; [exact W0|exact Hsp|rewrite Ea, removelast_last; exact HD0|]. destruct (at_place t0 (abs_names cwd (path_join ab loc))) as [[| |]|]; auto. }
  assert (Eb : process_entry cwd sha1 tar dl ab subs x (Some (u "abif")) t = link_file cwd (path_join dl copy) ab (path_join ab loc) t).
  { unfold process_entry, abind. change (is_fmt (Some (u "abif")) "abif") with true. unfold first_copy in Hc. destruct (x_localcopies x) as [cs|].
    - cbn [aret]. destruct cs as [|c0 cs]; [discriminate Hc|]. injection Hc as ->. rewrite Hl. reflexivity.
    - rewrite Hc. cbn [akey of_option lift aret]. rewrite Hl. reflexivity. }
  rewrite Eb. unfold link_file, abind, lift. rewrite Hr. unfold os_symlink at 1. destruct target as [|z zs]; [congruence|]. set (target := z :: zs) in *. rewrite (Hres t W HD).
  destruct (at_place t (D ++ [loc])) as [nd|] eqn:En.
  - assert (Hrm : os_remove cwd (path_join ab loc) t = (Ok tt, put (D ++ [loc]) None t)). { unfold os_remove. rewrite (Hres t W HD), En. destruct nd; [congruence| |]; reflexivity. }
    rewrite Hrm. set (t1 := put (D ++ [loc]) None t).
    assert (W1 : well_formed t1). { apply (wf_change t t1 D loc W HD); [congruence|]. intros q Hq. apply put_other, Hq. }
    assert (HD1 : at_place t1 D = Some NDir). { unfold t1. rewrite at_put_other; [exact HD|]. intro E. apply (f_equal (@length _)) in E. rewrite app_length in E. cbn in E. lia. }
    exists (put (D ++ [loc]) (Some (NLink target)) t1), target. split; [|split; [reflexivity|split; [apply put_same|]]].
    + unfold os_symlink. unfold target at 1. rewrite (Hres t1 W1 HD1). unfold t1 at 1. rewrite at_put_same by apply snoc_ne. reflexivity.
    + intros q Hq. rewrite put_other by exact Hq. apply put_other, Hq.
  - exists (put (D ++ [loc]) (Some (NLink target)) t), target. split; [reflexivity|split; [reflexivity|split; [apply put_same|]]]. intros q Hq. apply put_other, Hq.
Qed.
Lemma links_all : forall l cls d t, well_formed t -> at_place t D = Some NDir -> Forall2 (fun x cl => ready cwd dl ab t x (fst cl) (snd cl)) l cls ->
  Forall (fun x => x_srcfmt x = Some (u "abif") \/ unnamed x /\ d = Some (u "abif")) l -> NoDup (map snd cls) ->
  (forall c1 c2, In c1 cls -> In c2 cls -> download cwd dl (fst c1) <> D ++ [snd c2]) ->
  exists t', process_entries cwd sha1 tar dl ab subs l d t = (Ok tt, t') /\ well_formed t' /\
    Forall (fun cl => exists target, relpath cwd (path_join dl (fst cl)) ab = Ok target /\ t' (D ++ [snd cl]) = Some (NLink target)) cls /\
    forall q, ~ In q (map (fun cl => D ++ [snd cl]) cls) -> t' q = t q.
Proof.
  induction l as [|x l IH]; intros cls d t W HD HF Hd Hnd Hsep; inversion HF as [|x0 [copy loc] l0 cls' Hx HF']; subst.
  - exists t. repeat split; auto.
  - inversion Hd as [|x1 l1 Hd1 Hd2]; subst. cbn [fst snd] in Hx. inversion Hnd as [|n0 l2 Hn1 Hn2]; subst.
    assert (Eo : or_else (x_srcfmt x) d = Some (u "abif")). { destruct Hd1 as [E|(E&->)]; [rewrite E; reflexivity|rewrite or_else_unnamed by exact E; reflexivity]. }
    destruct (link_step t x copy loc _ W HD Hx Eo) as (t1&target&E1&Er&Et&Hfr).
    pose proof Hx as (_&_&_&_&_&_&Hndir).
    assert (W1 : well_formed t1) by (apply (wf_change t t1 D loc W HD Hndir Hfr)).
    assert (ND : forall c, D <> D ++ [c]). { intros c E. apply (f_equal (@length _)) in E. rewrite app_length in E. cbn in E. lia. }
    assert (HD1 : at_place t1 D = Some NDir) by (rewrite (at_frame t t1 _ D Hfr (ND loc)); exact HD).
    destruct (IH cls' (or_else (x_srcfmt x) d) t1 W1 HD1) as (t'&E2&W2&HL&Hfr2).
    + assert (G : forall l cls'', Forall2 (fun x cl => ready cwd dl ab t x (fst cl) (snd cl)) l cls'' -> incl cls'' cls' -> Forall2 (fun x cl => ready cwd dl ab t1 x (fst cl) (snd cl)) l cls'').
      { clear - Hfr Hsep Hn1 Et. intros l cls'' H Hin. induction H as [|y [c1 l1] l cls'' Hy HF IH]; constructor; [|apply IH; intros z Hz; apply Hin; right; exact Hz].
        destruct Hy as (Y1&Y2&Y3&(b&Y4)&Y5&Y6&Y7). assert (Hi : In (c1, l1) cls') by (apply Hin; left; reflexivity). refine (conj Y1 (conj Y2 (conj Y3 (conj _ (conj Y5 (conj Y6 _)))))).
        - exists b. cbn [fst] in *. rewrite (at_frame t t1 _ _ Hfr); [exact Y4|]. apply (Hsep (c1, l1) (copy, loc)); [right; exact Hi|left; reflexivity].
        - cbn [snd] in *. rewrite (at_frame t t1 _ _ Hfr); [exact Y7|]. intro E. apply app_inj_tail in E as [_ E]. apply Hn1. cbn [snd]. rewrite <- E. apply (in_map snd _ _ Hi). }
      apply G; [exact HF'|apply incl_refl].
    + rewrite Eo. apply Forall_forall. intros y Hy. rewrite Forall_forall in Hd2. destruct (Hd2 y Hy) as [E|(E&_)]; [left; exact E|right; auto].
    + exact Hn2.
    + intros c1 c2 I1 I2. apply Hsep; right; assumption.
    + exists t'. split; [cbn [process_entries]; unfold abind; rewrite E1; exact E2|]. split; [exact W2|].
      assert (Nx : ~ In (D ++ [loc]) (map (fun cl => D ++ [snd cl]) cls')). { intro X. apply in_map_iff in X as (cl&E&X). apply app_inj_tail in E as [_ E]. apply Hn1. cbn [snd]. rewrite <- E. apply in_map, X. }
      split.
      * constructor; [|exact HL]. exists target. cbn [fst snd]. split; [exact Er|]. rewrite Hfr2 by exact Nx. exact Et.
      * intros q Hq. cbn [map snd] in Hq. rewrite Hfr2 by (intro X; apply Hq; right; exact X). apply Hfr. intro E. apply Hq. left. symmetry; exact E.
Qed.
End L.

(** Entries with format abif: afterwards the ABIF directory has, under each entry's name, a link that leads to the entry's
    download, reading it gives what reading the download gives, and nothing else has changed. *)
Theorem C59_links : forall cwd sha1 tar dl ab subs l cls d t, good_place cwd -> well_formed t -> ab <> [] -> ~ In dotdot (names dl) -> ~ In dotdot (names ab) ->
  at_place t (abs_names cwd ab) = Some NDir -> Forall2 (fun x cl => ready cwd dl ab t x (fst cl) (snd cl)) l cls ->
  Forall (fun x => x_srcfmt x = Some (u "abif") \/ unnamed x /\ d = Some (u "abif")) l -> NoDup (map snd cls) ->
  (forall c1 c2, In c1 cls -> In c2 cls -> download cwd dl (fst c1) <> abs_names cwd ab ++ [snd c2]) ->
  exists t', process_extfilelist cwd sha1 tar dl ab l d subs t = (Ok tt, t') /\
    (forall copy loc, In (copy, loc) cls ->
       resolve cwd t' false (path_join ab loc) = Ok (abs_names cwd ab ++ [loc]) /\ (exists target, t' (abs_names cwd ab ++ [loc]) = Some (NLink target)) /\
       resolve cwd t' true (path_join ab loc) = Ok (download cwd dl copy) /\ read_text cwd t' (path_join ab loc) = read_text cwd t (path_join dl copy)) /\
    (forall q, ~ In q (map (fun cl => abs_names cwd ab ++ [snd cl]) cls) -> t' q = t q).
Proof.
  intros cwd sha1 tar dl ab subs l cls d t Hw W Hne Hdl Hab HD HF Hfmt Hnd Hsep.
  destruct (links_all cwd sha1 tar dl ab subs Hw Hdl Hab l cls d t W HD HF Hfmt Hnd Hsep) as (t'&E&W'&HL&Hfr). exists t'. split; [|split; [|exact Hfr]].
  - rewrite process_exists; [exact E|]. unfold exists_at, looks_up. rewrite (resolve_dir cwd t true ab W Hne Hab HD), HD. reflexivity.
  - intros copy loc Hi. assert (Hx : exists x, ready cwd dl ab t x copy loc).
    { clear - HF Hi. induction HF as [|x cl l cls Hx HF IH]; [destruct Hi|]. destruct Hi as [->|Hi]; [exists x; exact Hx|apply IH, Hi]. }
    destruct Hx as (x&_&H1&H2&(b&Hf)&_&Hp&Hn).
    assert (Hout : ~ In (download cwd dl copy) (map (fun cl => abs_names cwd ab ++ [snd cl]) cls)). { intro X. apply in_map_iff in X as (cl&X&Y). exact (Hsep _ cl Hi Y (eq_sym X)). }
    assert (HDout : ~ In (abs_names cwd ab) (map (fun cl => abs_names cwd ab ++ [snd cl]) cls)).
    { intro X. apply in_map_iff in X as (cl&X&_). apply (f_equal (@length _)) in X. rewrite app_length in X. cbn in X. lia. }
    assert (at' : forall q, ~ In q (map (fun cl => abs_names cwd ab ++ [snd cl]) cls) -> at_place t' q = at_place t q). { intros q Hq. destruct q; [reflexivity|]. apply Hfr, Hq. }
    rewrite Forall_forall in HL. destruct (HL _ Hi) as (target&Er&Et). cbn [fst snd] in *.
    pose proof (at' _ Hout) as Hf'. rewrite Hf in Hf'. pose proof (at' _ HDout) as HD'. rewrite HD in HD'.
    destruct (join_plain cwd ab loc Hab Hp) as (Hsp&Ea).
    assert (Et' : at_place t' (abs_names cwd ab ++ [loc]) = Some (NLink target)) by (rewrite at_snoc; exact Et).
    destruct (link_resolves cwd dl ab Hw Hdl Hab t' copy loc target b W' HD' H1 H2 Hp Er Et' Hf') as (R1&R2).
    split; [|split; [exists target; exact Et|split; [exact R1|]]].
    + rewrite <- Ea. apply resolve_simple; [exact W'|exact Hsp|rewrite Ea, removelast_last; exact HD'|]. rewrite Ea, Et'. reflexivity.
    + unfold read_text. rewrite R2. destruct (download_parent cwd dl Hdl t copy b W H1 H2 Hf) as (Hpar&_).
      rewrite (presolve_simple cwd t true (path_join dl copy) W); [|apply (download_simple dl Hdl copy H1 H2)|exact Hpar|fold (download cwd dl copy); rewrite Hf; exact I].
      fold (download cwd dl copy). unfold read_place. rewrite Hf, Hf'. reflexivity.
Qed.
Print Assumptions C59_links.
(** Running it again changes nothing. *)
Theorem C59_links_rerun : forall cwd sha1 tar dl ab subs l cls d t t', good_place cwd -> well_formed t -> ab <> [] -> ~ In dotdot (names dl) -> ~ In dotdot (names ab) ->
  at_place t (abs_names cwd ab) = Some NDir -> Forall2 (fun x cl => ready cwd dl ab t x (fst cl) (snd cl)) l cls ->
  Forall (fun x => x_srcfmt x = Some (u "abif") \/ unnamed x /\ d = Some (u "abif")) l -> NoDup (map snd cls) ->
  (forall c1 c2, In c1 cls -> In c2 cls -> download cwd dl (fst c1) <> abs_names cwd ab ++ [snd c2]) ->
  process_extfilelist cwd sha1 tar dl ab l d subs t = (Ok tt, t') ->
  exists t'', process_extfilelist cwd sha1 tar dl ab l d subs t' = (Ok tt, t'') /\ forall q, t'' q = t' q.
Proof.
  intros cwd sha1 tar dl ab subs l cls d t t' Hw W Hne Hdl Hab HD HF Hfmt Hnd Hsep Hp.
  destruct (links_all cwd sha1 tar dl ab subs Hw Hdl Hab l cls d t W HD HF Hfmt Hnd Hsep) as (t1&E&W'&HL&Hfr).
  assert (Hex : exists_at cwd t ab = true). { unfold exists_at, looks_up. rewrite (resolve_dir cwd t true ab W Hne Hab HD), HD. reflexivity. }
  rewrite process_exists in Hp by exact Hex. rewrite E in Hp. injection Hp as <-.
  assert (at' : forall q, ~ In q (map (fun cl => abs_names cwd ab ++ [snd cl]) cls) -> at_place t1 q = at_place t q). { intros q Hq. destruct q; [reflexivity|]. apply Hfr, Hq. }
  assert (HDout : ~ In (abs_names cwd ab) (map (fun cl => abs_names cwd ab ++ [snd cl]) cls)).
  { intro X. apply in_map_iff in X as (cl&X&_). apply (f_equal (@length _)) in X. rewrite app_length in X. cbn in X. lia. }
  assert (HD' : at_place t1 (abs_names cwd ab) = Some NDir) by (rewrite (at' _ HDout); exact HD).
  assert (HF' : Forall2 (fun x cl => ready cwd dl ab t1 x (fst cl) (snd cl)) l cls).
  { assert (G : forall l0 cls0, Forall2 (fun x cl => ready cwd dl ab t x (fst cl) (snd cl)) l0 cls0 -> incl cls0 cls -> Forall2 (fun x cl => ready cwd dl ab t1 x (fst cl) (snd cl)) l0 cls0).
    { intros l0 cls0 H Hin. induction H as [|y cl l0 cls0 Hy HF0 IH]; constructor; [|apply IH; intros z Hz; apply Hin; right; exact Hz].
      destruct Hy as (Y1&Y2&Y3&(b&Y4)&Y5&Y6&Y7). assert (Hi : In cl cls) by (apply Hin; left; reflexivity). refine (conj Y1 (conj Y2 (conj Y3 (conj _ (conj Y5 (conj Y6 _)))))).
      - exists b. rewrite at'; [exact Y4|]. intro X. apply in_map_iff in X as (c2&X&X2). exact (Hsep cl c2 Hi X2 (eq_sym X)).
      - rewrite at_snoc. rewrite Forall_forall in HL. destruct (HL _ Hi) as (tg&_&->). discriminate. }
    apply G; [exact HF|apply incl_refl]. }
  destruct (links_all cwd sha1 tar dl ab subs Hw Hdl Hab l cls d t1 W' HD' HF' Hfmt Hnd Hsep) as (t2&E2&_&HL2&Hfr2). exists t2. split.
  - rewrite process_exists; [exact E2|]. unfold exists_at, looks_up. rewrite (resolve_dir cwd t1 true ab W' Hne Hab HD'), HD'. reflexivity.
  - intro q. destruct (in_dec (list_eq_dec (list_eq_dec N.eq_dec)) q (map (fun cl => abs_names cwd ab ++ [snd cl]) cls)) as [Hq|Hq]; [|apply Hfr2, Hq].
    apply in_map_iff in Hq as (cl&<-&Hq). rewrite Forall_forall in HL, HL2. destruct (HL _ Hq) as (g1&G1&->), (HL2 _ Hq) as (g2&G2&->). congruence.
Qed.
Print Assumptions C59_links_rerun.

(** ** Conversions *)
(** Nothing but new directories. *)
Definition more_dirs (t t' : tree) : Prop := forall q, t' q = t q \/ (t q = None /\ t' q = Some NDir).
Lemma more_refl t : more_dirs t t. Proof. intro q. left; reflexivity. Qed.
Lemma more_trans t1 t2 t3 : more_dirs t1 t2 -> more_dirs t2 t3 -> more_dirs t1 t3.
Proof. intros H1 H2 q. destruct (H1 q) as [E|(E&F)], (H2 q) as [E'|(E'&F')]; [left; congruence|right; split; congruence|right; split; congruence|congruence]. Qed.
Lemma mkdir_more r t : more_dirs t (snd (mkdir_place r t)).
Proof.
  destruct r as [p|e]; [|apply more_refl]. cbn [mkdir_place]. destruct (at_place t p) eqn:E; [apply more_refl|]. cbn [snd]. intro q. unfold put. destruct (place_eqb_spec q p) as [->|n]; [|left; reflexivity]. right. split; [|reflexivity]. destruct p; [discriminate E|exact E].
Qed.
Lemma path_mkdir_more cwd abs l t : more_dirs t (snd (path_mkdir cwd abs l t)).
Proof.
  unfold path_mkdir. pose proof (mkdir_more (presolve cwd t false abs l) t) as H. destruct (mkdir_place _ t) as [[[]|e] t']; [exact H|]. cbn [snd] in H. destruct e; try exact H; destruct (is_dir _ _); exact H.
Qed.
Lemma path_mkdirs_more cwd abs rl : forall t, more_dirs t (snd (path_mkdirs cwd abs rl t)).
Proof.
  induction rl as [|c rl IH]; intro t; cbn [path_mkdirs].
  - pose proof (mkdir_more (presolve cwd t false abs (rev [])) t) as H. destruct (mkdir_place _ t) as [[[]|e] t']; [exact H|]. cbn [snd] in H. destruct e; try exact H; destruct (is_dir _ _); exact H.
  - pose proof (mkdir_more (presolve cwd t false abs (rev (c :: rl))) t) as H. destruct (mkdir_place _ t) as [[[]|e] t']; [exact H|]. cbn [snd] in H.
    destruct e; try (destruct (is_dir _ _); exact H). unfold abind. pose proof (IH t') as H2. destruct (path_mkdirs cwd abs rl t') as [[[]|e] t2]; cbn [snd] in H2; [|apply (more_trans _ _ _ H H2)].
    apply (more_trans _ _ _ H). apply (more_trans _ _ _ H2). apply path_mkdir_more.
Qed.
(** A path that leads to a file or to nothing leads there also after a file is put there. *)
Lemma walk_put_file p b t : at_place t p = None \/ (exists b', at_place t p = Some (NFile b')) -> forall n cur l, walk n t true cur l = Ok p -> walk n (put p (Some (NFile b)) t) true cur l = Ok p.
Proof.
  intro Hp. assert (Hne : p <> []) by (intros ->; destruct Hp as [E|(b'&E)]; discriminate E).
  induction n as [n IHn] using (well_founded_induction Wf_nat.lt_wf). intros cur l. revert cur. induction l as [|c r IH]; intro cur; [rewrite !walk_nil; auto|]. rewrite !walk_cons.
  destruct (str_eqb c [] || str_eqb c dot); [apply IH|]. destruct (str_eqb c dotdot); [apply IH|].
  destruct (place_eqb_spec (cur ++ [c]) p) as [->|N1].
  - rewrite at_put_same by exact Hne. destruct Hp as [E|(b'&E)]; rewrite E; destruct r; auto; discriminate.
  - rewrite at_put_other by exact N1. destruct (at_place t (cur ++ [c])) as [[|b'|tg]|]; auto. cbn [negb]. destruct r as [|d r].
    + destruct n; [discriminate|]. apply IHn. lia.
    + destruct n; [discriminate|]. apply IHn. lia.
Qed.

Lemma read_all_ok cwd t files : forall blobs, read_all cwd files t = Ok blobs -> Forall2 (fun f b => read_text cwd t f = Ok b) files blobs.
Proof.
  induction files as [|f r IH]; intros blobs H; cbn [read_all] in H; [injection H as <-; constructor|]. destruct (read_text cwd t f) as [s|e] eqn:E; [|destruct e; discriminate H]. destruct (read_all cwd r t) as [l|e]; [|discriminate H]. injection H as <-. constructor; [exact E|apply IH; reflexivity].
Qed.
Definition convertible (f : str) : Prop := f = u "debtally" \/ f = u "preflib" \/ f = u "sftxt".
Definition copies (x : extfile) : option (list str) := match x_localcopies x with Some l => Some l | None => option_map (fun c => [c]) (x_localcopy x) end.
Definition described (x : extfile) : dict str := match x_desc x with Some (c :: d) => [(u "description", c :: d)] | _ => [] end.
Lemma convert_entry cwd sha1 tar dl ab subs x fmt cs loc t : convertible fmt -> exists_at cwd t ab = true -> copies x = Some cs -> x_abifloc x = Some loc ->
  process_extfilelist cwd sha1 tar dl ab [naming x (Some fmt)] None subs t = convert_files_to_abif cwd sha1 fmt (map (path_join dl) cs) (path_join ab loc) (x_desc x) t.
Proof.
  intros Hf Hx Hc Hl. rewrite process_exists by exact Hx. cbn [process_entries naming x_srcfmt].
  assert (Ef : fmt <> []) by (destruct Hf as [->|[->| ->]]; discriminate). destruct fmt as [|z zs]; [congruence|]. cbn [or_else]. set (fmt := z :: zs) in *.
  assert (E : process_entry cwd sha1 tar dl ab subs (naming x (Some fmt)) (Some fmt) t = convert_files_to_abif cwd sha1 fmt (map (path_join dl) cs) (path_join ab loc) (x_desc x) t).
  { rewrite entry_irrelevant. unfold process_entry. assert (E1 : is_fmt (Some fmt) "abif" = false) by (destruct Hf as [->|[->| ->]]; reflexivity). assert (E2 : is_fmt (Some fmt) "debtally" || is_fmt (Some fmt) "preflib" || is_fmt (Some fmt) "sftxt" = true) by (destruct Hf as [->|[->| ->]]; reflexivity).
    rewrite E1, E2. unfold copies in Hc. unfold abind at 1. destruct (x_localcopies x) as [l|].
    - injection Hc as ->. cbn [aret]. rewrite Hl. reflexivity.
    - destruct (x_localcopy x) as [c|]; [|discriminate Hc]. injection Hc as <-. cbn [akey lift of_option aret abind]. rewrite Hl. reflexivity. }
  cbv delta [abind] beta. refine (eq_trans (f_equal (fun r : result unit * tree => let (r0, t') := r in match r0 with Ok _ => aret tt t' | Err e => (Err e, t') end) E) _). destruct (convert_files_to_abif _ _ _ _ _ _ t) as [[[]|e] t']; reflexivity.
Qed.

(** A converted entry: the result is the conversion of the texts of all its downloads, with the entry's description; it
    stands in the file the entry's name leads to, and apart from new directories nothing else has changed. *)
Theorem C59_converted : forall cwd sha1 tar dl ab subs x fmt cs loc t t', convertible fmt -> exists_at cwd t ab = true -> copies x = Some cs -> x_abifloc x = Some loc ->
  process_extfilelist cwd sha1 tar dl ab [naming x (Some fmt)] None subs t = (Ok tt, t') ->
  exists blobs text bytes p, Forall2 (fun c b => read_text cwd t (path_join dl c) = Ok b) cs blobs /\
    convert_text_to_abif sha1 fmt blobs false false (described x) = Ok text /\
    let out := path_join ab loc in presolve cwd t' true (is_abs out) (pnames out) = Ok p /\ at_place t' p = Some (NFile bytes) /\ utf8_encode text = Ok bytes /\
    forall q, q <> p -> t' q = t q \/ (t q = None /\ t' q = Some NDir).
Proof.
  intros cwd sha1 tar dl ab subs x fmt cs loc t t' Hf Hx Hc Hl H. rewrite (convert_entry cwd sha1 tar dl ab subs x fmt cs loc t Hf Hx Hc Hl) in H.
  unfold convert_files_to_abif in H. cbv zeta in H. fold (described x) in H. unfold abind, lift in H. destruct (read_all cwd (map (path_join dl) cs) t) as [blobs|e] eqn:Eb; [|discriminate H].
  match type of H with context [convert_text_to_abif ?a ?b ?c ?d ?e ?f] => destruct (convert_text_to_abif a b c d e f) as [text|e9] eqn:Et end; [|discriminate H].
  pose proof (path_mkdirs_more cwd (is_abs (path_join ab loc)) (match rev (pnames (path_join ab loc)) with [] => [] | _ :: r => r end) t) as Hm. fold (mkdir_parent cwd (path_join ab loc)) in Hm.
  destruct (mkdir_parent cwd (path_join ab loc) t) as [[[]|e] t1]; [|discriminate H]. cbn [snd] in Hm.
  unfold write_text in H. destruct (presolve cwd t1 true _ _) as [p|e] eqn:Ep; [|discriminate H].
  assert (Hn : at_place t1 p = None \/ exists b', at_place t1 p = Some (NFile b')). { destruct (at_place t1 p) as [[|b'|g]|]; try discriminate H; [right; exists b'; reflexivity|left; reflexivity]. }
  assert (Hp : p <> []) by (intros ->; destruct Hn as [E|(b'&E)]; discriminate E).
  assert (H' : match utf8_encode text with Ok b => (Ok tt, put p (Some (NFile b)) t1) | Err e => (Err e, put p (Some (NFile [])) t1) end = (Ok tt, t')). { destruct Hn as [E|(b'&E)]; rewrite E in H; exact H. }
  destruct (utf8_encode text) as [bytes|e] eqn:Ee; [|discriminate H']. injection H' as <-. exists blobs, text, bytes, p. split; [|split; [exact Et|split; [|split; [|split; [exact Ee|]]]]].
  - apply read_all_ok in Eb. clear - Eb. remember (map (path_join dl) cs) as l eqn:E. revert cs E. induction Eb as [|f b l bs Hfb HF IH]; intros [|c cs] E; try discriminate E; [constructor|]. injection E as -> ->. constructor; [exact Hfb|apply IH; reflexivity].
  - unfold presolve in *. apply walk_put_file; [exact Hn|exact Ep].
  - apply at_put_same, Hp.
  - intros q Hq. rewrite put_other by exact Hq. apply Hm.
Qed.
Print Assumptions C59_converted.
(** Whatever goes wrong, only new directories and, if the text cannot be encoded, the result's file can differ. *)
Theorem C59_failed : forall cwd sha1 tar dl ab subs x fmt cs loc t e t', convertible fmt -> exists_at cwd t ab = true -> copies x = Some cs -> x_abifloc x = Some loc ->
  process_extfilelist cwd sha1 tar dl ab [naming x (Some fmt)] None subs t = (Err e, t') ->
  (forall q, t' q = t q \/ (t q = None /\ t' q = Some NDir)) \/
  (exists blobs text, Forall2 (fun c b => read_text cwd t (path_join dl c) = Ok b) cs blobs /\ convert_text_to_abif sha1 fmt blobs false false (described x) = Ok text /\ forallb scalar text = false).
Proof.
  intros cwd sha1 tar dl ab subs x fmt cs loc t e t' Hf Hx Hc Hl H. rewrite (convert_entry cwd sha1 tar dl ab subs x fmt cs loc t Hf Hx Hc Hl) in H.
  unfold convert_files_to_abif in H. cbv zeta in H. fold (described x) in H. unfold abind, lift in H. destruct (read_all cwd (map (path_join dl) cs) t) as [blobs|e0] eqn:Eb; [|injection H as <- <-; left; apply more_refl].
  match type of H with context [convert_text_to_abif ?a ?b ?c ?d ?e ?f] => destruct (convert_text_to_abif a b c d e f) as [text|e9] eqn:Et end; [|injection H as <- <-; left; apply more_refl].
  pose proof (path_mkdirs_more cwd (is_abs (path_join ab loc)) (match rev (pnames (path_join ab loc)) with [] => [] | _ :: r => r end) t) as Hm. fold (mkdir_parent cwd (path_join ab loc)) in Hm.
  destruct (mkdir_parent cwd (path_join ab loc) t) as [[[]|e0] t1]; [|injection H as <- <-; left; exact Hm]. cbn [snd] in Hm.
  unfold write_text in H. destruct (presolve cwd t1 true _ _) as [p|e0] eqn:Ep; [|injection H as <- <-; left; exact Hm].
  unfold utf8_encode in H. destruct (forallb scalar text) eqn:Es.
  - left. destruct (at_place t1 p) as [[|b'|g]|]; try discriminate H; injection H as <- <-; exact Hm.
  - right. exists blobs, text. split; [|split; [exact Et|exact Es]]. apply read_all_ok in Eb. clear - Eb. remember (map (path_join dl) cs) as l eqn:E. revert cs E. induction Eb as [|f b l bs Hfb HF IH]; intros [|c cs] E; try discriminate E; [constructor|]. injection E as -> ->. constructor; [exact Hfb|apply IH; reflexivity].
Qed.
Print Assumptions C59_failed.
(** A download that is not there ends the program with sys.exit(1) before anything is changed. *)
Theorem C59_missing_input : forall cwd sha1 tar dl ab subs x fmt before f after blobs loc t, convertible fmt -> exists_at cwd t ab = true -> copies x = Some (before ++ f :: after) -> x_abifloc x = Some loc ->
  Forall2 (fun c b => read_text cwd t (path_join dl c) = Ok b) before blobs -> read_text cwd t (path_join dl f) = Err FileNotFoundError ->
  process_extfilelist cwd sha1 tar dl ab [naming x (Some fmt)] None subs t = (Err SystemExit, t).
Proof.
  intros cwd sha1 tar dl ab subs x fmt before f after blobs loc t Hf Hx Hc Hl HF Hr. rewrite (convert_entry cwd sha1 tar dl ab subs x fmt _ loc t Hf Hx Hc Hl).
  assert (E : read_all cwd (map (path_join dl) (before ++ f :: after)) t = Err SystemExit). { clear - HF Hr. induction HF as [|c b cs bs H1 H2 IH]; cbn [app map read_all]; [rewrite Hr; reflexivity|]. rewrite H1, IH. reflexivity. }
  unfold convert_files_to_abif, abind. rewrite E. reflexivity.
Qed.
Print Assumptions C59_missing_input.

(** ** Archives of nameq files *)
(** A file that the writing of text brought about: what the name leads to, and what else changed. *)
Lemma write_text_ok cwd out text t t' : write_text cwd out text t = (Ok tt, t') ->
  exists bytes p, presolve cwd t' true (is_abs out) (pnames out) = Ok p /\ at_place t' p = Some (NFile bytes) /\ utf8_encode text = Ok bytes /\
    forall q, q <> p -> t' q = t q.
Proof.
  intro H. unfold write_text in H. destruct (presolve cwd t true _ _) as [p|e] eqn:Ep; [|discriminate H].
  assert (Hn : at_place t p = None \/ exists b', at_place t p = Some (NFile b')). { destruct (at_place t p) as [[|b'|g]|]; try discriminate H; [right; exists b'; reflexivity|left; reflexivity]. }
  assert (Hp : p <> []) by (intros ->; destruct Hn as [E|(b'&E)]; discriminate E).
  assert (H' : match utf8_encode text with Ok b => (Ok tt, put p (Some (NFile b)) t) | Err e => (Err e, put p (Some (NFile [])) t) end = (Ok tt, t')). { destruct Hn as [E|(b'&E)]; rewrite E in H; exact H. }
  destruct (utf8_encode text) as [bytes|e] eqn:Ee; [|discriminate H']. injection H' as <-. exists bytes, p. split; [|split; [|split; [reflexivity|]]].
  - unfold presolve in *. apply walk_put_file; [exact Hn|exact Ep].
  - apply at_put_same, Hp.
  - intros q Hq. apply put_other; exact Hq.
Qed.
Lemma archive_entry cwd sha1 tar dl ab subs x arch t : exists_at cwd t ab = true -> x_localcopies x = None -> x_localcopy x = Some arch ->
  process_extfilelist cwd sha1 tar dl ab [naming x (Some (u "nameq_archive"))] None (Some subs) t = convert_subfiles cwd tar (path_join dl arch) subs t.
Proof.
  intros Hx Hc Ha. rewrite process_exists by exact Hx. cbn [process_entries naming x_srcfmt].
  assert (E : process_entry cwd sha1 tar dl ab (Some subs) (naming x (Some (u "nameq_archive"))) (Some (u "nameq_archive")) t = convert_subfiles cwd tar (path_join dl arch) subs t).
  { unfold process_entry. cbn [naming x_localcopies x_localcopy]. rewrite Hc, Ha. reflexivity. }
  change (or_else (Some (u "nameq_archive")) None) with (Some (u "nameq_archive")).
  cbv delta [abind] beta. refine (eq_trans (f_equal (fun r : result unit * tree => let (r0, t') := r in match r0 with Ok _ => aret tt t' | Err e => (Err e, t') end) E) _).
  destruct (convert_subfiles cwd tar (path_join dl arch) subs t) as [[[]|e] t']; reflexivity.
Qed.
(** A member of an archive: the file its abifloc leads to (from the current directory, not from the directory of the
    results) holds the consolidated ballots of the member's text; apart from new directories nothing else has changed,
    and in particular the archive has not. *)
Theorem C59_archive_member : forall cwd sha1 tar dl ab x arch member loc t t', exists_at cwd t ab = true -> x_localcopies x = None -> x_localcopy x = Some arch ->
  process_extfilelist cwd sha1 tar dl ab [naming x (Some (u "nameq_archive"))] None (Some [Subfile (Some member) (Some loc)]) t = (Ok tt, t') ->
  exists archive content m text bytes p, read_place t (resolve cwd t true (path_join dl arch)) = Ok archive /\ tar archive member = Ok content /\
    convert_nameq_to_jabmod (utf8_decode content) = Ok m /\ convert_jabmod_to_abif (consolidate m) = Ok text /\
    presolve cwd t' true (is_abs loc) (pnames loc) = Ok p /\ at_place t' p = Some (NFile bytes) /\ utf8_encode text = Ok bytes /\
    forall q, q <> p -> t' q = t q \/ (t q = None /\ t' q = Some NDir).
Proof.
  intros cwd sha1 tar dl ab x arch member loc t t' Hx Hc Ha H. rewrite (archive_entry cwd sha1 tar dl ab _ x arch t Hx Hc Ha) in H.
  cbn [convert_subfiles] in H. unfold abind, lift, akey in H. cbn [sb_archive_subfile sb_abifloc of_option] in H.
  destruct (read_place t (resolve cwd t true (path_join dl arch))) as [archive|e] eqn:E1; [|discriminate H].
  cbn [lift] in H. destruct (tar archive member) as [content|e] eqn:E2; [|discriminate H].
  match type of H with context [convert_nameq_to_jabmod ?a] => destruct (convert_nameq_to_jabmod a) as [m|e] eqn:E3 end; [|discriminate H].
  match type of H with context [convert_jabmod_to_abif ?a] => destruct (convert_jabmod_to_abif a) as [text|e] eqn:E4 end; [|discriminate H].
  cbn [lift] in H.
  pose proof (path_mkdirs_more cwd (is_abs loc) (match rev (pnames loc) with [] => [] | _ :: r => r end) t) as Hm. fold (mkdir_parent cwd loc) in Hm.
  destruct (mkdir_parent cwd loc t) as [[[]|e] t1]; [|discriminate H]. cbn [snd] in Hm.
  destruct (write_text cwd loc text t1) as [[[]|e] t2] eqn:E5; [|discriminate H]. cbn [aret] in H. injection H as <-.
  destruct (write_text_ok _ _ _ _ _ E5) as (bytes&p&P1&P2&P3&P4). exists archive, content, m, text, bytes, p.
  split; [reflexivity|]. repeat (split; [assumption|]). intros q Hq. rewrite P4 by exact Hq. apply Hm.
Qed.
Print Assumptions C59_archive_member.
(** Several members are extracted one after the other; the first failure ends it. *)
Theorem C59_archive_sequence : forall cwd sha1 tar dl ab x arch s subs t, exists_at cwd t ab = true -> x_localcopies x = None -> x_localcopy x = Some arch ->
  let one l := process_extfilelist cwd sha1 tar dl ab [naming x (Some (u "nameq_archive"))] None (Some l) in
  (forall t1, one [s] t = (Ok tt, t1) -> exists_at cwd t1 ab = true -> one (s :: subs) t = one subs t1) /\
  (forall e t1, one [s] t = (Err e, t1) -> one (s :: subs) t = (Err e, t1)).
Proof.
  intros cwd sha1 tar dl ab x arch s subs t Hx Hc Ha one.
  assert (E : one (s :: subs) t = abind (convert_subfiles cwd tar (path_join dl arch) [s]) (fun _ => convert_subfiles cwd tar (path_join dl arch) subs) t).
  { unfold one. rewrite (archive_entry cwd sha1 tar dl ab _ x arch t Hx Hc Ha). cbn [convert_subfiles]. unfold abind. cbv beta.
    destruct (read_place _ _); [|reflexivity]. destruct (akey (sb_archive_subfile s) t) as [[member|] ?]; [|reflexivity]. destruct (lift (tar _ member) _) as [[content|] ?]; [|reflexivity].
    destruct (lift _ _) as [[m|] ?]; [|reflexivity]. destruct (lift _ _) as [[text|] ?]; [|reflexivity]. destruct (akey _ _) as [[loc|] ?]; [|reflexivity].
    destruct (mkdir_parent cwd loc _) as [[[]|] ?]; [|reflexivity]. destruct (write_text cwd loc text _) as [[[]|] ?]; reflexivity. }
  assert (E1 : one [s] t = convert_subfiles cwd tar (path_join dl arch) [s] t) by (apply archive_entry; assumption).
  split.
  - intros t1 H Hx1. rewrite E1 in H. rewrite E. unfold abind at 1. rewrite H. symmetry. apply archive_entry; assumption.
  - intros e t1 H. rewrite E1 in H. rewrite E. unfold abind at 1. rewrite H. reflexivity.
Qed.
Print Assumptions C59_archive_sequence.

(** ** Reading text *)
(** The bytes stand for the text, each of whose line ends may be written as LF, CRLF or CR. *)
Inductive lines_written : str -> str -> Prop :=
| lw_nil : lines_written [] []
| lw_char c s raw : c <> 10%N -> c <> 13%N -> lines_written s raw -> lines_written (c :: s) (c :: raw)
| lw_lf s raw : lines_written s raw -> lines_written (10%N :: s) (10%N :: raw)
| lw_crlf s raw : lines_written s raw -> lines_written (10%N :: s) (13%N :: 10%N :: raw)
| lw_cr s raw : lines_written s raw -> (forall r, raw <> 10%N :: r) -> lines_written (10%N :: s) (13%N :: raw).
Lemma universal_written s raw : lines_written s raw -> universal_newlines raw = s.
Proof.
  induction 1 as [|c s raw H1 H2 H IH|s raw H IH|s raw H IH|s raw H IH Hr]; [reflexivity| | | |].
  - transitivity (c :: universal_newlines raw); [|rewrite IH; reflexivity]. clear - H2. destruct (N.eq_dec c 13) as [->|]; [congruence|]. cbn [universal_newlines].
    repeat (match goal with |- context [match ?x with _ => _ end] => destruct x end; try reflexivity; try congruence).
  - cbn [universal_newlines]. rewrite IH. reflexivity.
  - cbn [universal_newlines]. rewrite IH. reflexivity.
  - transitivity (10%N :: universal_newlines raw); [|rewrite IH; reflexivity]. clear - Hr. destruct raw as [|x r]; [reflexivity|].
    destruct (N.eq_dec x 10) as [->|n]; [exfalso; apply (Hr r); reflexivity|]. cbn [universal_newlines]. destruct x as [|p]; [reflexivity|]. do 4 (destruct p as [p|p|]; try reflexivity). congruence.
Qed.
(** So a download's text is read the same whatever line ends it was written with. *)
Theorem C59_line_ends : forall cwd t f p raw s, presolve cwd t true (is_abs f) (pnames f) = Ok p -> at_place t p = Some (NFile (flat_map utf8_char raw)) ->
  forallb scalar raw = true -> lines_written s raw -> read_text cwd t f = Ok s.
Proof.
  intros cwd t f p raw s Ep Ea Hs Hw. unfold read_text, read_place. rewrite Ep, Ea. unfold decode_strict. rewrite decode_encode by exact Hs.
  rewrite str_eqb_refl, Hs. cbn [andb]. rewrite (universal_written s raw Hw). reflexivity.
Qed.
Print Assumptions C59_line_ends.

(** ** Examples, and what does not hold *)
Definition tree_of (l : list (place * node)) : tree := fun p => match find (fun e => place_eqb p (fst e)) l with Some e => Some (snd e) | None => None end.
Definition home : place := [u "home"; u "me"].
Definition no_tar : list N -> str -> result (list N) := fun _ _ => Err KeyError.
Definition no_sha : hash := fun _ => [].
Definition base : list (place * node) :=
  [([u "home"], NDir); (home, NDir); (home ++ [u "dl"], NDir); (home ++ [u "dl"; u "tests"], NDir); (home ++ [u "abif"], NDir); (home ++ [u "abif"; u "sub"], NDir);
   (home ++ [u "dl"; u "tests"; u "t1.abif"], NFile (u "5:A>B")); (home ++ [u "dl"; u "t2.abif"], NFile (u "3:B>A"));
   (home ++ [u "dl"; u "p.toc"], NFile (u "# ALTERNATIVE NAME 1: Ann" ++ [10%N] ++ u "# ALTERNATIVE NAME 2: Bob" ++ [10%N] ++ u "4: 2,1" ++ [10%N]))].
Lemma wf_tree_of l : forallb (fun e => match rev (fst e) with [] => true | _ :: r => match at_place (tree_of l) (rev r) with Some NDir => true | _ => false end end) l = true -> well_formed (tree_of l).
Proof.
  intros H p c Hp. unfold tree_of in Hp at 1. destruct (find (fun e => place_eqb (p ++ [c]) (fst e)) l) as [e|] eqn:E; [|congruence]. apply find_some in E as [Hi E]. destruct (place_eqb_spec (p ++ [c]) (fst e)) as [E'|]; [|discriminate E].
  rewrite forallb_forall in H. specialize (H e Hi). cbv beta in H. destruct e as [pe ne]. cbn [fst] in *. subst pe. rewrite rev_app_distr in H. cbn [rev app] in H. rewrite rev_involutive in H. destruct (at_place (tree_of l) p) as [[| |]|]; congruence.
Qed.
Definition entry (copy : string) (fmt : option string) (loc : string) : extfile := Extfile None (Some (u copy)) (option_map u fmt) None (Some (u loc)).
Lemma simple_by p before c : names p = before ++ [c] -> forallb (fun x => negb (str_eqb x dotdot)) (names p) = true -> plain_name c = true -> simple_path p.
Proof. intros E H Hc. split; [|eauto]. intro X. rewrite forallb_forall in H. specialize (H _ X). rewrite str_eqb_refl in H. discriminate H. Qed.

Example C59_links_sample :
  let l := [entry "tests/t1.abif" (Some "abif"%string) "one.abif"; entry "t2.abif" None "two.abif"] in
  let cls := [(u "tests/t1.abif", u "one.abif"); (u "t2.abif", u "two.abif")] in
  good_place home /\ well_formed (tree_of base) /\ Forall2 (fun x cl => ready home (u "dl/") (u "abif") (tree_of base) x (fst cl) (snd cl)) l cls /\
  (forall c1 c2, In c1 cls -> In c2 cls -> download home (u "dl/") (fst c1) <> abs_names home (u "abif") ++ [snd c2]) /\
  exists t', process_extfilelist home no_sha no_tar (u "dl/") (u "abif") l (Some (u "abif")) None (tree_of base) = (Ok tt, t') /\
    t' (home ++ [u "abif"; u "one.abif"]) = Some (NLink (u "../dl/tests/t1.abif")) /\ read_text home t' (u "abif/two.abif") = Ok (u "3:B>A").
Proof.
  cbv zeta. split; [|split; [|split; [|split]]].
  - intros c [<-|[<-|[]]]; reflexivity.
  - apply wf_tree_of. vm_compute. reflexivity.
  - repeat constructor.
    + apply (simple_by _ [u "tests"] (u "t1.abif")); vm_compute; reflexivity.
    + apply (simple_by _ [u "tests"] (u "t1.abif")); vm_compute; reflexivity.
    + exists (u "5:A>B"). vm_compute. reflexivity.
    + vm_compute. discriminate.
    + apply (simple_by _ [] (u "t2.abif")); vm_compute; reflexivity.
    + apply (simple_by _ [] (u "t2.abif")); vm_compute; reflexivity.
    + exists (u "3:B>A"). vm_compute. reflexivity.
    + vm_compute. discriminate.
  - intros c1 c2 [<-|[<-|[]]] [<-|[<-|[]]]; vm_compute; discriminate.
  - eexists. split; [vm_compute; reflexivity|]. split; vm_compute; reflexivity.
Qed.
Example C59_converted_sample : exists t', process_extfilelist home no_sha no_tar (u "dl") (u "abif") [naming (entry "p.toc" None "deep/er/p.abif") (Some (u "preflib"))] None None (tree_of base) = (Ok tt, t') /\
  read_text home t' (u "abif/deep/er/p.abif") =
    Ok (u "#------- metadata -------" ++ [10%N] ++ u "{ballotcount: 4}" ++ [10%N] ++ u "#------ candlines ------" ++ [10%N] ++ u "=Ann:[Ann]" ++ [10%N] ++ u "=Bob:[Bob]" ++ [10%N]
        ++ u "#------- votelines ------" ++ [10%N] ++ u "4:Bob>Ann" ++ [10%N]) /\
  process_extfilelist home no_sha no_tar (u "dl") (u "abif") [naming (entry "q.toc" None "q.abif") (Some (u "preflib"))] None None (tree_of base) = (Err SystemExit, tree_of base).
Proof. eexists. split; [vm_compute; reflexivity|]. split; vm_compute; reflexivity. Qed.

Definition tar_of (l : list (string * str)) : list N -> str -> result (list N) := fun _ m => match find (fun e => str_eqb m (u (fst e))) l with Some e => Ok (snd e) | None => Err KeyError end.
Example C59_archive_sample : exists t', process_extfilelist home no_sha (tar_of [("a.txt"%string, u "A=1&B=2" ++ [10%N] ++ u "A=1&B=2"); ("b.txt"%string, u "B=1")]) (u "dl") (u "abif")
    [naming (Extfile None (Some (u "t2.abif")) None None None) (Some (u "nameq_archive"))] None (Some [Subfile (Some (u "a.txt")) (Some (u "out/a.abif")); Subfile (Some (u "b.txt")) (Some (u "abif/b.abif"))]) (tree_of base) = (Ok tt, t') /\
  read_text home t' (u "out/a.abif") =
    Ok (u "#------- metadata -------" ++ [10%N] ++ u "{version: ""0.1""}" ++ [10%N] ++ u "{ballotcount: 2}" ++ [10%N] ++ u "#------ candlines ------" ++ [10%N] ++ u "=A:[A]" ++ [10%N] ++ u "=B:[B]" ++ [10%N]
        ++ u "#------- votelines ------" ++ [10%N] ++ u "2:A>B" ++ [10%N]) /\
  read_text home t' (u "dl/t2.abif") = Ok (u "3:B>A").
Proof. eexists. split; [vm_compute; reflexivity|]. split; vm_compute; reflexivity. Qed.

(** An entry without a format is not converted with the fetchspec's default if an earlier entry names another format. *)
Theorem C59_own_format_refuted : exists l x d t, unnamed x /\
  fst (process_extfilelist home no_sha no_tar (u "dl") (u "abif") (l ++ [x]) d None t) = Err VotelineExn /\
  exists t', process_extfilelist home no_sha no_tar (u "dl") (u "abif") [naming x d] None None t = (Ok tt, t') /\ read_text home t' (u "abif/two.abif") = Ok (u "3:B>A").
Proof.
  exists [entry "p.toc" (Some "preflib"%string) "p.abif"], (entry "t2.abif" None "two.abif"), (Some (u "abif")), (tree_of base). split; [left; reflexivity|]. split; [vm_compute; reflexivity|]. eexists. split; vm_compute; reflexivity.
Qed.
Print Assumptions C59_own_format_refuted.
(** If the entry's place is in a subdirectory of the ABIF directory, the link made leads nowhere, and success is reported. *)
Theorem C59_link_in_subdirectory_refuted : exists x t t', process_extfilelist home no_sha no_tar (u "dl") (u "abif") [x] (Some (u "abif")) None t = (Ok tt, t') /\
  x = entry "t2.abif" None "sub/two.abif" /\ read_text home t (u "dl/t2.abif") = Ok (u "3:B>A") /\ read_text home t' (u "abif/sub/two.abif") = Err FileNotFoundError.
Proof. exists (entry "t2.abif" None "sub/two.abif"), (tree_of base). eexists. split; [vm_compute; reflexivity|]. split; [reflexivity|]. split; vm_compute; reflexivity. Qed.
Print Assumptions C59_link_in_subdirectory_refuted.
(** A link is made, and success reported, for a download that is not there. *)
Theorem C59_missing_download_refuted : exists x t t', process_extfilelist home no_sha no_tar (u "dl") (u "abif") [x] (Some (u "abif")) None t = (Ok tt, t') /\
  read_text home t (u "dl/none.abif") = Err FileNotFoundError /\ x = entry "none.abif" None "two.abif" /\ read_text home t' (u "abif/two.abif") = Err FileNotFoundError.
Proof. exists (entry "none.abif" None "two.abif"), (tree_of base). eexists. split; [vm_compute; reflexivity|]. split; [vm_compute; reflexivity|]. split; [reflexivity|vm_compute; reflexivity]. Qed.
Print Assumptions C59_missing_download_refuted.
(** With one directory for both and the same name, the download is deleted and replaced by a link to itself. *)
Theorem C59_same_place_refuted : exists x t t', process_extfilelist home no_sha no_tar (u "dl") (u "dl") [x] (Some (u "abif")) None t = (Ok tt, t') /\
  read_text home t (u "dl/t2.abif") = Ok (u "3:B>A") /\ t' (home ++ [u "dl"; u "t2.abif"]) = Some (NLink (u "t2.abif")) /\ read_text home t' (u "dl/t2.abif") = Err OSError.
Proof. exists (entry "t2.abif" None "t2.abif"), (tree_of base). eexists. split; [vm_compute; reflexivity|]. split; [vm_compute; reflexivity|]. split; vm_compute; reflexivity. Qed.
Print Assumptions C59_same_place_refuted.
(** A conversion written where an earlier run left a link overwrites the download the link leads to. *)
Theorem C59_overwrites_download_refuted : exists t t1 t2,
  process_extfilelist home no_sha no_tar (u "dl") (u "abif") [entry "p.toc" (Some "abif"%string) "p.abif"] None None t = (Ok tt, t1) /\
  process_extfilelist home no_sha no_tar (u "dl") (u "abif") [entry "p.toc" (Some "preflib"%string) "p.abif"] None None t1 = (Ok tt, t2) /\
  read_text home t1 (u "dl/p.toc") = read_text home t (u "dl/p.toc") /\ (exists s, read_text home t2 (u "dl/p.toc") = Ok (u "#------- metadata -------" ++ s)).
Proof. exists (tree_of base). eexists. eexists. split; [vm_compute; reflexivity|]. split; [vm_compute; reflexivity|]. split; [vm_compute; reflexivity|]. eexists. vm_compute. reflexivity. Qed.
Print Assumptions C59_overwrites_download_refuted.
