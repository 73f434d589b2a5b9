(** * PropsCrash: C100, a conversion that is interrupted and run again *)

From Coq Require Import Lia.
From Verif Require Import PyBase PyFacts UrlText FetchModel PosixModel Jabmod ParserModel WriterModel NameqModel DebtallyModel ConvertModel ExtfileModel PosixFacts PropsExtfile CrashModel.
Local Open Scope Z_scope.

(** ** The same run as ExtfileModel *)
Definition erase {A} (x : tact A) : act A := fun t => fst (x t).
Lemma erase_bind {A B} (x : tact A) (f : A -> tact B) t : erase (tbind x f) t = abind (erase x) (fun a => erase (f a)) t.
Proof. unfold erase, tbind, abind. destruct (x t) as [[[a|e] t'] l]; cbn [fst]; [|reflexivity]. destruct (f a t') as [[r t2] l2]. reflexivity. Qed.
Lemma erase_once {A} (x : act A) t : erase (once x) t = x t. Proof. unfold erase, once. destruct (x t). reflexivity. Qed.
Lemma abind_ext {A B} (x x' : act A) (f f' : A -> act B) t : (forall t, x t = x' t) -> (forall a t, f a t = f' a t) -> abind x f t = abind x' f' t.
Proof. intros H1 H2. unfold abind. rewrite H1. destruct (x' t) as [[a|e] t']; [apply H2|reflexivity]. Qed.
Section Same.
Variables (cwd : place) (sha1 : hash) (tar : list N -> str -> result (list N)).
Lemma makedirs_same n : forall name t, erase (makedirs_steps cwd n name) t = os_makedirs cwd n name t.
Proof.
  induction n as [|n IH]; intros name t; [reflexivity|]. unfold erase. cbn [makedirs_steps os_makedirs]. destruct (match basename name with [] => _ | _ => _ end) as [head tail].
  destruct (nonempty head && nonempty tail && negb (exists_at cwd t head)); [|exact (erase_once _ t)]. rewrite <- IH. unfold erase. destruct (makedirs_steps cwd n head t) as [[r t'] l]. cbn [fst].
  assert (G : fst (if str_eqb tail dot then (Ok tt, t', l) else let '(r0, t2, l2) := once (os_mkdir cwd name) t' in (r0, t2, l ++ l2)) = if str_eqb tail dot then (Ok tt, t') else os_mkdir cwd name t').
  { destruct (str_eqb tail dot); [reflexivity|]. unfold once. destruct (os_mkdir cwd name t'). reflexivity. }
  destruct r as [[]|e]; [exact G|]. destruct e; try reflexivity. exact G.
Qed.
Lemma mkdirs_same abs rl : forall t, erase (mkdirs_steps cwd abs rl) t = path_mkdirs cwd abs rl t.
Proof.
  induction rl as [|c rl IH]; intro t; unfold erase; cbn [mkdirs_steps path_mkdirs]; destruct (mkdir_place _ t) as [[a|e] t']; try reflexivity.
  - destruct e; try reflexivity; destruct (is_dir _ t'); reflexivity.
  - destruct e; try (destruct (is_dir _ t'); reflexivity). change (erase (tbind (mkdirs_steps cwd abs rl) (fun _ => once (path_mkdir cwd abs (rev (c :: rl))))) t' = abind (path_mkdirs cwd abs rl) (fun _ => path_mkdir cwd abs (rev (c :: rl))) t').
    rewrite erase_bind. apply abind_ext; [exact IH|]. intros _ t0. apply erase_once.
Qed.
Lemma write_same f s t : erase (write_steps cwd f s) t = write_text cwd f s t.
Proof. unfold erase, write_steps, write_text. destruct (presolve cwd t true _ _) as [p|e]; [|reflexivity]. destruct (at_place t p) as [[| |]|]; try reflexivity; destruct (utf8_encode s); reflexivity. Qed.
Lemma convert_same fmt ins out desc t : erase (convert_steps cwd sha1 fmt ins out desc) t = convert_files_to_abif cwd sha1 fmt ins out desc t.
Proof.
  unfold convert_steps, convert_files_to_abif. cbv zeta. rewrite erase_bind. apply abind_ext; [reflexivity|]. intros bl t1. rewrite erase_bind. apply abind_ext; [reflexivity|]. intros tx t2. rewrite erase_bind. apply abind_ext; [intro; apply mkdirs_same|]. intros _ t3. apply write_same.
Qed.
Lemma subfiles_same fn : forall subs t, erase (subfile_steps cwd tar fn subs) t = convert_subfiles cwd tar fn subs t.
Proof.
  induction subs as [|s subs IH]; intro t; [reflexivity|]. cbn [subfile_steps convert_subfiles]. do 6 (rewrite erase_bind; apply abind_ext; [reflexivity|]; intros ? ?). rewrite erase_bind. apply abind_ext; [intro; apply mkdirs_same|]. intros _ ?. rewrite erase_bind. apply abind_ext; [intro; apply write_same|]. intros _ ?. apply IH.
Qed.
Lemma link_same infile ab out t : erase (link_steps cwd infile ab out) t = link_file cwd infile ab out t.
Proof.
  unfold link_steps, link_file. rewrite erase_bind. apply abind_ext; [reflexivity|]. intros sv t1. unfold erase, once at 1. destruct (os_symlink cwd sv out t1) as [[[]|e] t']; [reflexivity|]. destruct e; try reflexivity.
  rewrite <- (abind_ext (erase (once (os_remove cwd out))) (os_remove cwd out) (fun _ => erase (once (os_symlink cwd sv out))) (fun _ => os_symlink cwd sv out) t' (erase_once _) (fun _ => erase_once _)), <- erase_bind. unfold erase. destruct (tbind _ _ t') as [[r t2] l2]. reflexivity.
Qed.
Lemma entry_same dl ab subs x f t : erase (entry_steps cwd sha1 tar dl ab subs x f) t = process_entry cwd sha1 tar dl ab subs x f t.
Proof.
  unfold entry_steps, process_entry. rewrite erase_bind. apply abind_ext; [intro t0; destruct (x_localcopies x); [reflexivity|]; rewrite erase_bind; apply abind_ext; reflexivity|]. intros cs t1. cbv zeta.
  destruct (is_fmt f "abif"); [rewrite erase_bind; apply abind_ext; [reflexivity|]; intros ? ?; rewrite erase_bind; apply abind_ext; [reflexivity|]; intros ? ?; apply link_same|].
  destruct (is_fmt f "debtally" || is_fmt f "preflib" || is_fmt f "sftxt"); [rewrite erase_bind; apply abind_ext; [reflexivity|]; intros ? ?; apply convert_same|].
  destruct (is_fmt f "nameq_archive"); [|reflexivity]. rewrite erase_bind; apply abind_ext; [reflexivity|]; intros ? ?. rewrite erase_bind; apply abind_ext; [reflexivity|]; intros ? ?. apply subfiles_same.
Qed.
Lemma entries_same dl ab subs : forall l f t, erase (entries_steps cwd sha1 tar dl ab subs l f) t = process_entries cwd sha1 tar dl ab subs l f t.
Proof. induction l as [|x l IH]; intros f t; [reflexivity|]. cbn [entries_steps process_entries]. rewrite erase_bind. apply abind_ext; [intro; apply entry_same|]. intros _ t1. apply IH. Qed.
End Same.
(** The run with its intermediate states is the run of C59: same result, same files. *)
Theorem C100_same_run : forall cwd sha1 tar dl ab l d subs t, fst (extfilelist_steps cwd sha1 tar dl ab l d subs t) = process_extfilelist cwd sha1 tar dl ab l d subs t.
Proof.
  intros cwd sha1 tar dl ab l d subs t. change (erase (extfilelist_steps cwd sha1 tar dl ab l d subs) t = process_extfilelist cwd sha1 tar dl ab l d subs t). unfold extfilelist_steps, process_extfilelist.
  etransitivity; [apply (erase_bind _ _ t)|]. apply abind_ext; [|intros _ t1; apply entries_same]. intro t0. unfold erase. destruct (exists_at cwd t0 ab); [reflexivity|]. exact (makedirs_same cwd _ ab t0).
Qed.
Print Assumptions C100_same_run.

(** ** Specification *)
Section Spec.
Variables (cwd : place) (sha1 : hash) (tar : list N -> str -> result (list N)) (dl ab : str).
Definition inputs (x : extfile) : list str := match copies x with Some cs => cs | None => [] end.
(** Below the download directory, without '..', and a file. *)
Definition downloaded (t : tree) (c : str) : Prop := simple_path c /\ is_abs c = false /\ exists b, at_place t (download cwd dl c) = Some (NFile b).
(** Entry x, with format f, is to make v under the name loc in the ABIF directory: a link to the first download, or a file with the conversion of the downloads; what
    has the name so far is no directory, and for a file no link either. *)
Inductive makes (t : tree) (f : str) (x : extfile) (loc : str) : node -> Prop :=
| makes_link copy rest target : f = u "abif" -> copies x = Some (copy :: rest) -> downloaded t copy -> x_abifloc x = Some loc -> plain_name loc = true ->
    at_place t (abs_names cwd ab ++ [loc]) <> Some NDir -> relpath cwd (path_join dl copy) ab = Ok target -> makes t f x loc (NLink target)
| makes_file cs blobs text bytes : convertible f -> copies x = Some cs -> Forall (downloaded t) cs -> x_abifloc x = Some loc -> plain_name loc = true ->
    (at_place t (abs_names cwd ab ++ [loc]) = None \/ exists b, at_place t (abs_names cwd ab ++ [loc]) = Some (NFile b)) ->
    Forall2 (fun c b => read_text cwd t (path_join dl c) = Ok b) cs blobs -> convert_text_to_abif sha1 f blobs false false (described x) = Ok text -> utf8_encode text = Ok bytes ->
    makes t f x loc (NFile bytes).
(** All entries, each with its own format or the one before; d is the default. *)
Inductive plan (t : tree) : option str -> list extfile -> list (str * node) -> Prop :=
| plan_nil d : plan t d [] []
| plan_cons d x f loc v l outs : (x_srcfmt x = Some f /\ f <> [] \/ unnamed x /\ d = Some f) -> makes t f x loc v -> plan t (Some f) l outs -> plan t d (x :: l) ((loc, v) :: outs).
(** What may stand under the name when not all is done: what stood there, what is to be there, nothing while a link is replaced, or a beginning of the file. *)
Definition begun (old : option node) (v : node) (now : option node) : Prop :=
  now = old \/ now = Some v \/ match v with NLink _ => now = None | NFile b => exists k, now = Some (NFile (firstn k b)) | NDir => False end.
Definition out (loc : str) : place := abs_names cwd ab ++ [loc].
(** The run passes through these points: a file of every length; a link that is missing, if something is to be replaced, and one that is there. *)
Definition passes (old : option node) (loc : str) (v : node) (l : list tree) : Prop :=
  match v with
  | NFile b => forall k, (k <= length b)%nat -> exists t, In t l /\ t (out loc) = Some (NFile (firstn k b))
  | _ => (exists t, In t l /\ t (out loc) = Some v) /\ (old <> None -> exists t, In t l /\ t (out loc) = None)
  end.
(** A run, cut off anywhere, and runs after that, cut off anywhere. *)
Inductive interrupted (l : list extfile) (d : option str) (subs : option (list subfile)) (t : tree) : tree -> Prop :=
| never : interrupted l d subs t t
| again t1 t2 : interrupted l d subs t t1 -> In t2 (crash_trees cwd sha1 tar dl ab l d subs t1) -> interrupted l d subs t t2.
End Spec.

Section Proof.
Variables (cwd : place) (sha1 : hash) (tar : list N -> str -> result (list N)) (dl ab : str) (subs : option (list subfile)).
Hypothesis cwd_ok : good_place cwd.
Hypothesis dl_ok : ~ In dotdot (names dl).
Hypothesis ab_ok : ~ In dotdot (names ab).
Hypothesis ab_ne : ab <> [].
Notation D := (abs_names cwd ab).
Notation out := (out cwd ab).
Lemma D_out c : D <> D ++ [c]. Proof. intro E. apply (f_equal (@length _)) in E. rewrite app_length in E. cbn in E. lia. Qed.

(** The parent is there. *)
Lemma parent_there t loc : well_formed t -> at_place t D = Some NDir -> plain_name loc = true -> parent_steps cwd (path_join ab loc) t = (Ok tt, t, []).
Proof.
  intros W HD Hl. pose proof (plain_is_abs loc Hl) as Hab. pose proof Hl as Hl'. apply plain_name_spec in Hl' as (Hn&_&Hdd&Hsl). destruct (join_names ab loc Hn Hab) as (l&E&Ef&Hi).
  assert (En : names loc = [loc]) by (apply split_on_none, Hsl). rewrite En in E. assert (Hdl : ~ In dotdot (filter solid l)) by (intro X; apply filter_In in X as (X&_); exact (ab_ok (Hi X))).
  assert (ED : D = start_of cwd ab ++ filter solid l). { unfold abs_names. rewrite norm_plain by exact ab_ok. rewrite Ef. reflexivity. }
  assert (Ep : pnames (path_join ab loc) = filter solid l ++ [loc]). { unfold pnames. rewrite E, filter_app. change (fun c => negb (str_eqb c [] || str_eqb c dot)) with solid. cbn [filter]. rewrite (plain_solid loc Hl). reflexivity. }
  assert (E2 : filter solid (filter solid l) = filter solid l). { clear. induction l as [|x l IH]; [reflexivity|]. cbn [filter]. destruct (solid x) eqn:E; [|exact IH]. cbn [filter]. rewrite E, IH. reflexivity. }
  assert (R : forall f, presolve cwd t f (is_abs (path_join ab loc)) (filter solid l) = Ok D).
  { intro f. unfold presolve. rewrite (is_abs_join ab loc Hn Hab). fold (start_of cwd ab). pose proof (walk_dirs max_links t f [] W (filter solid l) (start_of cwd ab) Hdl) as G. rewrite E2, app_nil_r, <- ED, walk_nil in G. exact (G HD). }
  unfold parent_steps. rewrite Ep, rev_app_distr. cbn [rev app]. destruct (rev (filter solid l)) as [|c rl] eqn:Er; cbn [mkdirs_steps]; [change (rev []) with (@nil str)|rewrite <- Er, rev_involutive].
  - assert (Em : filter solid l = []) by (rewrite <- (rev_involutive (filter solid l)), Er; reflexivity). rewrite Em in R. rewrite !R. unfold mkdir_place. rewrite HD. rewrite R. unfold is_dir, looks_up. rewrite HD. reflexivity.
  - rewrite R. unfold mkdir_place. rewrite HD. rewrite R. unfold is_dir, looks_up. rewrite HD. reflexivity.
Qed.
Lemma out_resolve t loc f : well_formed t -> at_place t D = Some NDir -> plain_name loc = true -> match at_place t (out loc) with Some (NLink _) => f = false | _ => True end ->
  resolve cwd t f (path_join ab loc) = Ok (out loc) /\ presolve cwd t f (is_abs (path_join ab loc)) (pnames (path_join ab loc)) = Ok (out loc).
Proof.
  intros W HD Hl Hn. unfold out in *. destruct (join_plain cwd ab loc ab_ok Hl) as (Hsp&Ea). rewrite <- Ea in *. split; [apply resolve_simple|apply presolve_simple]; try assumption; rewrite Ea, removelast_last; exact HD.
Qed.
Lemma step_makes t f x loc v : well_formed t -> at_place t D = Some NDir -> makes cwd sha1 dl ab t f x loc v -> exists t' tr, entry_steps cwd sha1 tar dl ab subs x (Some f) t = (Ok tt, t', tr) /\ t' (out loc) = Some v /\ (forall q, q <> out loc -> t' q = t q) /\
  Forall (fun t1 => begun (t (out loc)) v (t1 (out loc)) /\ forall q, q <> out loc -> t1 q = t q) tr /\ passes cwd ab (t (out loc)) loc v tr.
Proof.
  intros W HD Hm. assert (Ent : forall cs, copies x = Some cs -> (match x_localcopies x with Some l => tret l | None => tbind (tkey (x_localcopy x)) (fun c => tret [c]) end) t = (Ok cs, t, [])).
  { intros cs Hc. unfold copies in Hc. destruct (x_localcopies x) as [l|]; [injection Hc as ->; reflexivity|]. destruct (x_localcopy x); [|discriminate Hc]. injection Hc as <-. reflexivity. }
  destruct Hm as [copy rest target -> Hc (H1&H2&b&Hf) Hl Hp Hn Hr|cs blobs text bytes Hf Hc Hd Hl Hp Hn HF Ht Hb].
  - unfold entry_steps. unfold tbind at 1. rewrite (Ent _ Hc). change (is_fmt (Some (u "abif")) "abif") with true. cbv iota zeta. rewrite Hl. cbn [map].
    change (let '(r, t2, l2) := tbind (tkey (Some loc)) (fun loc0 => tbind (tlift (of_option IndexError (nth_error (path_join dl copy :: map (path_join dl) rest) 0))) (fun infile => link_steps cwd infile ab (path_join ab loc0))) t in (r, t2, [] ++ l2)) with
      (let '(r, t2, l2) := tbind (tkey (Some loc)) (fun loc0 => tbind (tlift (Ok (path_join dl copy))) (fun infile => link_steps cwd infile ab (path_join ab loc0))) t in (r, t2, [] ++ l2)).
    unfold tbind, tkey, tlift. cbn [of_option app]. unfold link_steps, tbind, tlift. rewrite Hr. cbn [app].
    assert (Et : target <> []).
    { destruct (download_parent cwd dl dl_ok t copy b W H1 H2 Hf) as (Hpar&Hne). destruct (relpath_walk cwd t 0 true (path_join dl copy) ab target D (download cwd dl copy) W) as (T1&_); try assumption; try reflexivity; [apply good_abs; [exact cwd_ok|]; apply (download_simple dl dl_ok copy H1 H2)|congruence|rewrite Hf; exact I]. }
    assert (Hres : forall t0, well_formed t0 -> at_place t0 D = Some NDir -> resolve cwd t0 false (path_join ab loc) = Ok (out loc)).
    { intros t1 W0 HD0. apply (out_resolve t1 loc false W0 HD0 Hp). destruct (at_place t1 (out loc)) as [[| |]|]; auto. }
    unfold once at 1. unfold os_symlink at 1. destruct target as [|z zs]; [congruence|]. set (target := z :: zs) in *. rewrite (Hres t W HD). fold (out loc) in Hn. destruct (at_place t (out loc)) as [nd|] eqn:En.
    + assert (Hrm : os_remove cwd (path_join ab loc) t = (Ok tt, put (out loc) None t)). { unfold os_remove. rewrite (Hres t W HD), En. destruct nd; [congruence| |]; reflexivity. }
      unfold once at 1. rewrite Hrm. set (t1 := put (out loc) None t).
      assert (W1 : well_formed t1). { apply (wf_change t t1 D loc W HD); [fold (out loc); congruence|]. intros q Hq. apply put_other, Hq. }
      assert (HD1 : at_place t1 D = Some NDir) by (unfold t1; rewrite at_put_other; [exact HD|apply D_out]).
      assert (Hs : os_symlink cwd target (path_join ab loc) t1 = (Ok tt, put (out loc) (Some (NLink target)) t1)). { unfold os_symlink. unfold target at 1. rewrite (Hres t1 W1 HD1). unfold t1 at 1. rewrite at_put_same by apply snoc_ne. reflexivity. }
      unfold once. rewrite Hs. exists (put (out loc) (Some (NLink target)) t1). eexists. split; [reflexivity|]. split; [apply put_same|]. split; [intros q Hq; rewrite put_other by exact Hq; apply put_other, Hq|].
      split.
      { apply Forall_cons; [split; [left; reflexivity|reflexivity]|]. apply Forall_cons; [split; [right; right; apply put_same|intros q Hq; apply put_other, Hq]|]. apply Forall_cons; [|constructor]. split; [right; left; apply put_same|intros q Hq; rewrite put_other by exact Hq; apply put_other, Hq]. }
      split; [eexists; split; [right; right; left; reflexivity|apply put_same]|]. intros _. eexists. split; [right; left; reflexivity|apply put_same].
    + exists (put (out loc) (Some (NLink target)) t). eexists. split; [reflexivity|]. split; [apply put_same|]. split; [intros q Hq; apply put_other, Hq|]. split; [apply Forall_cons; [|constructor]; split; [right; left; apply put_same|intros q Hq; apply put_other, Hq]|].
      split; [eexists; split; [left; reflexivity|apply put_same]|]. intro Hc0. exfalso. apply Hc0. rewrite <- En. unfold PropsCrash.out. symmetry. apply at_snoc.
  - unfold entry_steps. unfold tbind at 1. rewrite (Ent _ Hc).
    assert (E1 : is_fmt (Some f) "abif" = false) by (destruct Hf as [->|[->| ->]]; reflexivity). assert (E2 : is_fmt (Some f) "debtally" || is_fmt (Some f) "preflib" || is_fmt (Some f) "sftxt" = true) by (destruct Hf as [->|[->| ->]]; reflexivity).
    cbv zeta. rewrite E1, E2. rewrite Hl. unfold tbind at 1, tkey, tlift. cbn [of_option]. unfold convert_steps. cbv zeta. unfold tbind, tlift.
    assert (Er : read_all cwd (map (path_join dl) cs) t = Ok blobs). { clear - HF. induction HF as [|c b cs bs H _ IH]; cbn [map read_all]; [reflexivity|]. rewrite H, IH. reflexivity. }
    rewrite Er. match goal with |- context [convert_text_to_abif ?a ?b ?c ?d ?e ?g] => change (convert_text_to_abif a b c d e g) with (convert_text_to_abif sha1 f blobs false false (described x)) end. rewrite Ht. rewrite (parent_there t loc W HD Hp). unfold write_steps. fold (out loc) in Hn.
    assert (Hnl : match at_place t (out loc) with Some (NLink _) => true = false | _ => True end) by (destruct Hn as [->|(b&->)]; exact I).
    rewrite (proj2 (out_resolve t loc true W HD Hp Hnl)). rewrite Hb.
    assert (G : forall A (a b : A), match at_place t (out loc) with Some NDir | Some (NLink _) => a | _ => b end = b) by (intros; destruct Hn as [->|(b0&->)]; reflexivity). rewrite G.
    exists (put (out loc) (Some (NFile bytes)) t). eexists. split; [reflexivity|]. split; [apply put_same|]. split; [intros q Hq; apply put_other, Hq|].
    cbn [app]. split; [apply Forall_forall; intros t1 Hin; apply in_map_iff in Hin as (k&<-&_); split; [right; right; exists k; apply put_same|intros q Hq; apply put_other, Hq]|].
    intros k Hk. exists (put (out loc) (Some (NFile (firstn k bytes))) t). split; [|apply put_same]. change (map (fun k => put (out loc) (Some (NFile (firstn k bytes))) t) (seq 0 (S (length bytes)))) with (map (fun k => put (out loc) (Some (NFile (firstn k bytes))) t) (seq 0 (S (length bytes)))). apply (in_map (fun k => put (out loc) (Some (NFile (firstn k bytes))) t)). apply in_seq. lia.
Qed.

(** ** On the way from t *)
Variables (t : tree) (outs : list (str * node)).
Hypothesis wf : well_formed t.
Hypothesis HD : at_place t D = Some NDir.
Hypothesis once_each : NoDup (map fst outs).
Definition amid (tc : tree) : Prop := (forall q, ~ In q (map (fun o => out (fst o)) outs) -> tc q = t q) /\ Forall (fun o => begun (t (out (fst o))) (snd o) (tc (out (fst o)))) outs.
Definition fits (o : str * node) : Prop := plain_name (fst o) = true /\ at_place t (out (fst o)) <> Some NDir /\ snd o <> NDir.
Hypothesis all_fit : Forall fits outs.
Lemma makes_fits f x loc v : makes cwd sha1 dl ab t f x loc v -> fits (loc, v).
Proof. intros [copy rest target _ _ _ _ Hp Hn _|cs blobs text bytes _ _ _ _ Hp Hn _ _ _]; split; [exact Hp|split; [exact Hn|discriminate]|exact Hp|split; [|discriminate]]. cbn [fst]. unfold PropsCrash.out. destruct Hn as [->|(b&->)]; discriminate. Qed.
Lemma plan_fits d l os : plan cwd sha1 dl ab t d l os -> Forall fits os.
Proof. induction 1; constructor; [eapply makes_fits; eassumption|assumption]. Qed.
Lemma begun_begun old v m n : begun old v m -> begun m v n -> begun old v n.
Proof. intros H1 [-> | [-> | H]]; [exact H1|right; left; reflexivity|right; right; exact H]. Qed.
Lemma amid_start : amid t.
Proof. split; [reflexivity|]. apply Forall_forall. intros o _. left. reflexivity. Qed.
Lemma D_apart : ~ In D (map (fun o => out (fst o)) outs).
Proof. intro X. apply in_map_iff in X as (o&E&_). exact (D_out _ (eq_sym E)). Qed.
Lemma amid_at tc q : amid tc -> ~ In q (map (fun o => out (fst o)) outs) -> at_place tc q = at_place t q.
Proof. intros (H&_) Hq. destruct q; [reflexivity|]. apply H, Hq. Qed.
Lemma dir_apart q : at_place t q = Some NDir -> ~ In q (map (fun o => out (fst o)) outs).
Proof. intros Hq X. apply in_map_iff in X as (o&E&Ho). rewrite Forall_forall in all_fit. destruct (all_fit o Ho) as (_&H&_). rewrite E in H. exact (H Hq). Qed.
Lemma amid_wf tc : amid tc -> well_formed tc /\ at_place tc D = Some NDir.
Proof.
  intro H. assert (G : at_place tc D = Some NDir) by (rewrite (amid_at tc D H D_apart); exact HD). split; [|exact G].
  intros q c Hq. destruct (in_dec (list_eq_dec (list_eq_dec N.eq_dec)) (q ++ [c]) (map (fun o => out (fst o)) outs)) as [X|X].
  - apply in_map_iff in X as (o&E&_). unfold PropsCrash.out in E. apply app_inj_tail in E as (<-&_). exact G.
  - rewrite (proj1 H _ X) in Hq. pose proof (wf q c Hq) as Hd. rewrite (amid_at tc q H (dir_apart q Hd)). exact Hd.
Qed.
Lemma amid_nodir tc loc v : amid tc -> In (loc, v) outs -> at_place tc (out loc) <> Some NDir.
Proof.
  intros (_&H) Hi. rewrite Forall_forall in H, all_fit. destruct (all_fit _ Hi) as (_&Hn&Hv). specialize (H _ Hi). cbn [fst snd] in *. unfold PropsCrash.out in *. rewrite at_snoc in *. destruct H as [-> | [-> | H]]; [exact Hn|congruence|].
  destruct v; [destruct H|destruct H as (k&->); discriminate|rewrite H; discriminate].
Qed.
Lemma down_amid tc c : amid tc -> (forall o, In o outs -> download cwd dl c <> out (fst o)) -> downloaded cwd dl t c -> downloaded cwd dl tc c /\ read_text cwd tc (path_join dl c) = read_text cwd t (path_join dl c).
Proof.
  intros H Hs (H1&H2&b&Hf). assert (X : ~ In (download cwd dl c) (map (fun o => out (fst o)) outs)) by (intro X; apply in_map_iff in X as (o&E&Ho); exact (Hs o Ho (eq_sym E))).
  pose proof (amid_at tc _ H X) as Ec. rewrite Hf in Ec. split; [split; [exact H1|split; [exact H2|exists b; exact Ec]]|].
  destruct (amid_wf tc H) as (Wc&_). destruct (download_parent cwd dl dl_ok t c b wf H1 H2 Hf) as (P1&_). destruct (download_parent cwd dl dl_ok tc c b Wc H1 H2 Ec) as (P2&_).
  unfold read_text. rewrite (presolve_simple cwd t true (path_join dl c) wf); [|apply (download_simple dl dl_ok c H1 H2)|exact P1|fold (download cwd dl c); rewrite Hf; exact I].
  rewrite (presolve_simple cwd tc true (path_join dl c) Wc); [|apply (download_simple dl dl_ok c H1 H2)|exact P2|fold (download cwd dl c); rewrite Ec; exact I]. fold (download cwd dl c). unfold read_place. rewrite Hf, Ec. reflexivity.
Qed.
Lemma makes_amid tc f x loc v : amid tc -> In (loc, v) outs -> (forall c o, In c (inputs x) -> In o outs -> download cwd dl c <> out (fst o)) -> makes cwd sha1 dl ab t f x loc v -> makes cwd sha1 dl ab tc f x loc v.
Proof.
  intros H Hi Hs Hm. pose proof (amid_nodir tc loc v H Hi) as Hn'. unfold inputs in Hs. destruct Hm as [copy rest target Hf Hc Hd Hl Hp Hn Hr|cs blobs text bytes Hf Hc Hd Hl Hp Hn HF Ht Hb].
  - rewrite Hc in Hs. eapply makes_link; try eassumption. apply (down_amid tc copy H); [|exact Hd]. intros o Ho. apply Hs; [left; reflexivity|exact Ho].
  - rewrite Hc in Hs. assert (G : forall c, In c cs -> downloaded cwd dl tc c /\ read_text cwd tc (path_join dl c) = read_text cwd t (path_join dl c)).
    { intros c Hin. rewrite Forall_forall in Hd. apply (down_amid tc c H); [|apply Hd, Hin]. intros o Ho. apply Hs; assumption. }
    eapply makes_file; try eassumption.
    + apply Forall_forall. intros c Hin. apply G, Hin.
    + destruct H as (_&H). rewrite Forall_forall in H. specialize (H _ Hi). cbn [fst snd] in H. unfold PropsCrash.out in H. rewrite !at_snoc in *. destruct H as [-> | [-> | (k&->)]]; [exact Hn|right; eexists; reflexivity|right; eexists; reflexivity].
    + clear - HF G. induction HF as [|c b cs bs E _ IH]; constructor; [rewrite (proj2 (G c (or_introl eq_refl))); exact E|apply IH; intros c' Hc; apply G; right; exact Hc].
Qed.
Lemma amid_change tc t1 loc v : amid tc -> In (loc, v) outs -> begun (tc (out loc)) v (t1 (out loc)) -> (forall q, q <> out loc -> t1 q = tc q) -> amid t1.
Proof.
  intros (H1&H2) Hi Hb Hf. split.
  - intros q Hq. rewrite Hf; [apply H1, Hq|]. intros ->. apply Hq. apply in_map_iff. exists (loc, v). split; [reflexivity|exact Hi].
  - rewrite Forall_forall in *. intros [loc' v'] Ho. pose proof (H2 _ Ho) as B. cbn [fst snd] in *. destruct (list_eq_dec N.eq_dec loc' loc) as [-> | Nl].
    + assert (v' = v). { clear - once_each Hi Ho. induction outs as [|[a b] os IH]; [destruct Hi|]. cbn [map fst] in once_each. inversion once_each as [|? ? N1 N2]; subst. destruct Hi as [Hi|Hi], Ho as [Ho|Ho]; [congruence| | |apply IH; assumption]; exfalso; apply N1.
        - injection Hi as -> ->. exact (in_map fst _ _ Ho).
        - injection Ho as -> ->. exact (in_map fst _ _ Hi). }
      subst v'. eapply begun_begun; eassumption.
    + rewrite Hf; [exact B|]. intro E. apply app_inj_tail in E as (_&E). exact (Nl E).
Qed.
Lemma entries_amid : forall l d os tc, plan cwd sha1 dl ab t d l os -> incl os outs -> NoDup (map fst os) -> (forall x c o, In x l -> In c (inputs x) -> In o outs -> download cwd dl c <> out (fst o)) -> amid tc ->
  exists t' tr, entries_steps cwd sha1 tar dl ab subs l d tc = (Ok tt, t', tr) /\ amid t' /\ Forall amid tr /\ (forall o, In o os -> t' (out (fst o)) = Some (snd o)) /\ (forall q, ~ In q (map (fun o => out (fst o)) os) -> t' q = tc q) /\
    (forall o, In o os -> passes cwd ab (tc (out (fst o))) (fst o) (snd o) tr).
Proof.
  induction l as [|x l IH]; intros d os tc Hp Hi Hnd Hs H; inversion Hp as [|d0 x0 f loc v l0 os0 Hf Hm Hp0]; subst.
  - exists tc, []. split; [reflexivity|]. split; [exact H|]. split; [constructor|]. split; [intros o []|]. split; [reflexivity|intros o []].
  - inversion Hnd as [|? ? N1 N2]; subst. assert (Hin : In (loc, v) outs) by (apply Hi; left; reflexivity). destruct (amid_wf tc H) as (Wc&HDc).
    assert (Eo : or_else (x_srcfmt x) d = Some f). { destruct Hf as [(E&Hne)|(E&->)]; [rewrite E; destruct f; [congruence|reflexivity]|apply or_else_unnamed, E]. }
    pose proof (makes_amid tc f x loc v H Hin (fun c o => Hs x c o (or_introl eq_refl)) Hm) as Hmc. destruct (step_makes tc f x loc v Wc HDc Hmc) as (t1&tr1&E1&V1&F1&T1&P1).
    assert (A1 : amid t1) by (apply (amid_change tc t1 loc v H Hin); [right; left; exact V1|exact F1]).
    destruct (IH (Some f) os0 t1 Hp0) as (t2&tr2&E2&A2&T2&V2&F2&P2); [intros o Ho; apply Hi; right; exact Ho|exact N2|intros y c o Hy; apply Hs; right; exact Hy|exact A1|].
    exists t2, (tr1 ++ tr2). split; [cbn [entries_steps]; cbv zeta; rewrite Eo; unfold tbind; rewrite E1, E2; reflexivity|]. split; [exact A2|]. split.
    + apply Forall_app. split; [|exact T2]. rewrite Forall_forall in *. intros tq Hq. destruct (T1 tq Hq) as (B&Fq). apply (amid_change tc tq loc v H Hin B Fq).
    + assert (Nx : ~ In (out loc) (map (fun o => out (fst o)) os0)). { intro X. apply in_map_iff in X as (o&E&X). apply app_inj_tail in E as (_&E). apply N1. cbn [fst]. rewrite <- E. exact (in_map fst _ _ X). }
      split; [|split].
      * intros o [<- | Ho]; [cbn [fst snd]; rewrite F2 by exact Nx; exact V1|apply V2, Ho].
      * intros q Hq. cbn [map fst] in Hq. rewrite F2 by (intro X; apply Hq; right; exact X). apply F1. intros ->. apply Hq. left; reflexivity.
      * assert (Pm : forall old o l1 l2, passes cwd ab old (fst o) (snd o) l1 \/ passes cwd ab old (fst o) (snd o) l2 -> passes cwd ab old (fst o) (snd o) (l1 ++ l2)).
        { intros old o l1 l2 Hpp. assert (Hm1 : forall P : tree -> Prop, (exists t, In t l1 /\ P t) \/ (exists t, In t l2 /\ P t) -> exists t, In t (l1 ++ l2) /\ P t) by (intros P [(t0&I0&P0)|(t0&I0&P0)]; exists t0; (split; [apply in_or_app; auto|exact P0])).
          unfold passes in *. destruct (snd o) as [|b|tg].
          - split; [|intro H0]; apply Hm1; (destruct Hpp as [Hpp|Hpp]; [left|right]); first [exact (proj1 Hpp)|exact (proj2 Hpp H0)].
          - intros k Hk. apply Hm1. destruct Hpp as [Hpp|Hpp]; [left|right]; exact (Hpp k Hk).
          - split; [|intro H0]; apply Hm1; (destruct Hpp as [Hpp|Hpp]; [left|right]); first [exact (proj1 Hpp)|exact (proj2 Hpp H0)]. }
        intros o [<- | Ho]; apply Pm; [left; exact P1|right]. rewrite <- F1; [apply P2, Ho|]. intro E. apply app_inj_tail in E as (_&E). apply N1. cbn [fst]. rewrite <- E. exact (in_map fst _ _ Ho).
Qed.
Lemma run_amid l d tc : plan cwd sha1 dl ab t d l outs -> (forall x c o, In x l -> In c (inputs x) -> In o outs -> download cwd dl c <> out (fst o)) -> amid tc ->
  exists t' tr, extfilelist_steps cwd sha1 tar dl ab l d subs tc = (Ok tt, t', tr) /\ amid t' /\ Forall amid tr /\ (forall o, In o outs -> t' (out (fst o)) = Some (snd o)) /\
    (forall o, In o outs -> passes cwd ab (tc (out (fst o))) (fst o) (snd o) tr).
Proof.
  intros Hp Hs H. destruct (entries_amid l d outs tc Hp (incl_refl _) once_each Hs H) as (t'&tr&E&A&T&V&_&Pa). exists t', tr. split; [|auto].
  destruct (amid_wf tc H) as (Wc&HDc). unfold extfilelist_steps, tbind. assert (Ex : exists_at cwd tc ab = true) by (unfold exists_at, looks_up; rewrite (resolve_dir cwd tc true ab Wc ab_ne ab_ok HDc), HDc; reflexivity). rewrite Ex, E. reflexivity.
Qed.
End Proof.

(** However often and wherever runs are cut off: files other than the ones to be made are untouched, each of these is as it was, or done, or a beginning of it, or (a
    link) missing; and the next run that is not cut off succeeds, with every file as it is to be and all else as it was before the first run. *)
Theorem C100_repaired : forall cwd sha1 tar dl ab l d subs t outs tc, good_place cwd -> well_formed t -> ab <> [] -> ~ In dotdot (names dl) -> ~ In dotdot (names ab) ->
  at_place t (abs_names cwd ab) = Some NDir -> plan cwd sha1 dl ab t d l outs -> NoDup (map fst outs) ->
  (forall x c o, In x l -> In c (inputs x) -> In o outs -> download cwd dl c <> out cwd ab (fst o)) ->
  interrupted cwd sha1 tar dl ab l d subs t tc ->
  (forall q, ~ In q (map (fun o => out cwd ab (fst o)) outs) -> tc q = t q) /\
  (forall loc v, In (loc, v) outs -> begun (t (out cwd ab loc)) v (tc (out cwd ab loc))) /\
  exists t', process_extfilelist cwd sha1 tar dl ab l d subs tc = (Ok tt, t') /\
    (forall loc v, In (loc, v) outs -> t' (out cwd ab loc) = Some v) /\
    (forall q, ~ In q (map (fun o => out cwd ab (fst o)) outs) -> t' q = t q).
Proof.
  intros cwd sha1 tar dl ab l d subs t outs tc Hw W Hne Hdl Hab HD Hp Hnd Hs Hint. pose proof (plan_fits cwd sha1 dl ab t d l outs Hp) as Hfit.
  assert (R : forall tq, amid cwd ab t outs tq -> _) by (exact (fun tq => run_amid cwd sha1 tar dl ab subs Hw Hdl Hab Hne t outs W HD Hnd Hfit l d tq Hp Hs)).
  assert (A : amid cwd ab t outs tc).
  { induction Hint as [|t1 t2 _ IH Hc]; [apply amid_start|]. destruct (R t1 IH) as (t'&tr&E&_&T&_). unfold crash_trees in Hc. rewrite E in Hc. destruct Hc as [<- | Hc]; [exact IH|]. rewrite Forall_forall in T. exact (T t2 Hc). }
  destruct (R tc A) as (t'&tr&E&A'&_&V&_). split; [apply A|]. split; [intros loc v Hi; destruct A as (_&A); rewrite Forall_forall in A; exact (A _ Hi)|].
  exists t'. split; [rewrite <- C100_same_run, E; reflexivity|]. split; [intros loc v Hi; exact (V _ Hi)|apply A'].
Qed.
Print Assumptions C100_repaired.
(** The points of interruption are there: for every file to be made, a run can be cut off when the file has any length from none to all of it; for every link, when it is
    there, and when what it replaces is gone and it is not there yet. *)
Theorem C100_crash_points : forall cwd sha1 tar dl ab l d subs t outs loc v, good_place cwd -> well_formed t -> ab <> [] -> ~ In dotdot (names dl) -> ~ In dotdot (names ab) ->
  at_place t (abs_names cwd ab) = Some NDir -> plan cwd sha1 dl ab t d l outs -> NoDup (map fst outs) ->
  (forall x c o, In x l -> In c (inputs x) -> In o outs -> download cwd dl c <> out cwd ab (fst o)) -> In (loc, v) outs ->
  passes cwd ab (t (out cwd ab loc)) loc v (crash_trees cwd sha1 tar dl ab l d subs t).
Proof.
  intros cwd sha1 tar dl ab l d subs t outs loc v Hw W Hne Hdl Hab HD Hp Hnd Hs Hi. pose proof (plan_fits cwd sha1 dl ab t d l outs Hp) as Hfit.
  destruct (run_amid cwd sha1 tar dl ab subs Hw Hdl Hab Hne t outs W HD Hnd Hfit l d t Hp Hs (amid_start cwd ab t outs)) as (t'&tr&E&_&_&_&Pa). unfold crash_trees. rewrite E. cbn [snd]. specialize (Pa _ Hi). cbn [fst snd] in Pa.
  assert (Hm : forall P : tree -> Prop, (exists t0, In t0 tr /\ P t0) -> exists t0, In t0 (t :: tr) /\ P t0) by (intros P (t0&I0&P0); exists t0; split; [right; exact I0|exact P0]).
  unfold passes in *. destruct v; [destruct Pa as (P1&P2); split; [apply Hm, P1|intro X; apply Hm, (P2 X)]|intros k Hk; apply Hm, (Pa k Hk)|destruct Pa as (P1&P2); split; [apply Hm, P1|intro X; apply Hm, (P2 X)]].
Qed.
Print Assumptions C100_crash_points.

(** ** Examples, and what does not hold *)
Definition two_entries : list extfile := [entry "tests/t1.abif" (Some "abif"%string) "one.abif"; entry "p.toc" (Some "preflib"%string) "p.abif"].
Definition p_abif : str := u "#------- metadata -------" ++ [10%N] ++ u "{ballotcount: 4}" ++ [10%N] ++ u "#------ candlines ------" ++ [10%N] ++ u "=Ann:[Ann]" ++ [10%N] ++ u "=Bob:[Bob]" ++ [10%N] ++ u "#------- votelines ------" ++ [10%N] ++ u "4:Bob>Ann" ++ [10%N].
Definition two_outs : list (str * node) := [(u "one.abif", NLink (u "../dl/tests/t1.abif")); (u "p.abif", NFile p_abif)].
Example C100_sample : well_formed (tree_of base) /\ plan home no_sha (u "dl") (u "abif") (tree_of base) None two_entries two_outs /\ NoDup (map fst two_outs) /\
  (forall x c o, In x two_entries -> In c (inputs x) -> In o two_outs -> download home (u "dl") c <> out home (u "abif") (fst o)).
Proof.
  split; [apply wf_tree_of; vm_compute; reflexivity|]. split; [|split].
  - apply plan_cons with (f := u "abif"); [left; split; [reflexivity|discriminate]| |apply plan_cons with (f := u "preflib"); [left; split; [reflexivity|discriminate]| |constructor]].
    + eapply makes_link with (copy := u "tests/t1.abif"); try reflexivity; [|vm_compute; discriminate]. split; [apply (simple_by _ [u "tests"] (u "t1.abif")); vm_compute; reflexivity|]. split; [reflexivity|]. exists (u "5:A>B"). vm_compute. reflexivity.
    + eapply makes_file with (cs := [u "p.toc"]) (text := p_abif).
      * right. left. reflexivity.
      * reflexivity.
      * apply Forall_cons; [|constructor]. split; [apply (simple_by _ [] (u "p.toc")); vm_compute; reflexivity|]. split; [reflexivity|]. eexists. vm_compute. reflexivity.
      * reflexivity.
      * reflexivity.
      * left. vm_compute. reflexivity.
      * apply Forall2_cons; [|constructor]. vm_compute. reflexivity.
      * vm_compute. reflexivity.
      * vm_compute. reflexivity.
  - apply NoDup_cons; [intros [X|[]]; discriminate X|]. apply NoDup_cons; [intros []|constructor].
  - intros x c o [<- | [<- | []]] [<- | []] [<- | [<- | []]]; vm_compute; discriminate.
Qed.
(** Not so: what an interrupted run leaves can be told from an ABIF file.  The beginning that ends within the last name is read, with four ballots, and a candidate
    nobody has heard of. *)
Theorem C100_half_file_refuted : exists tc s m, interrupted home no_sha no_tar (u "dl") (u "abif") two_entries None None (tree_of base) tc /\
  read_text home tc (u "abif/p.abif") = Ok s /\ convert_abif_to_jabmod s false true false = Ok m /\ convert_abif_to_jabmod p_abif false true false <> Ok m /\
  length s = (length p_abif - 3)%nat.
Proof.
  exists (nth (2 + (length p_abif - 3)) (crash_trees home no_sha no_tar (u "dl") (u "abif") two_entries None None (tree_of base)) (tree_of base)), (firstn (length p_abif - 3) p_abif). eexists.
  split; [|split; [vm_compute; reflexivity|split; [vm_compute; reflexivity|split; [vm_compute; discriminate|vm_compute; reflexivity]]]].
  eapply again; [apply never|]. apply nth_In. apply Nat.ltb_lt. vm_compute. reflexivity.
Qed.
Print Assumptions C100_half_file_refuted.
