(** * PropsLog: C62, the log file *)

From Coq Require Import Lia.
From Verif Require Import PyBase PyFacts FetchModel PosixModel LogModel PropsFetch.
Local Open Scope Z_scope.

(** ** Specification *)
(** The calls that ask for the singleton. *)
Definition asks (c : logcall) : bool := match c with CNew _ | CTestLog _ _ _ _ _ _ | CTestBlob _ _ => true | _ => false end.
(** A name in a log line: cut after [k] characters and marked with two dots, unless it is short enough, or no limit (or 0)
    is given. *)
Definition name_shown (limit : option nat) (s : str) : str :=
  match limit with
  | None | Some O => s
  | Some k => if (length s <=? k)%nat then s else firstn k s ++ u ".."
  end.
(** A log line: function, file and line number of the caller (if asked for), the message, and a newline (if asked for). *)
Definition line_shown (msg : str) (newline showframeinfo : bool) (maxfunc maxfile : option nat) (fr : frame) : str :=
  let place := name_shown maxfunc (fr_function fr) ++ u " (" ++ name_shown maxfile (basename (fr_filename fr)) ++ u ":" ++ z2s (fr_lineno fr) ++ u "): " in
  match showframeinfo, newline with
  | true, true => place ++ msg ++ [10%N]
  | true, false => place ++ msg
  | false, true => msg ++ [10%N]
  | false, false => msg
  end.
(** A logged object: its text as lines, between two mark lines if a mark is given. *)
Definition blob_shown (blob : str) (mark : option str) : str :=
  match mark with
  | None | Some [] => blob ++ [10%N]
  | Some m => (u "--" ++ m ++ u "START--" ++ [10%N]) ++ (blob ++ [10%N]) ++ (u "--" ++ m ++ u "END--" ++ [10%N])
  end.
(** What a call adds to an open log. *)
Definition adds (c : logcall) : str :=
  match c with
  | CLog m n sh mf ml (_ :: fr :: _) | CTestLog m n sh mf ml (fr :: _) => line_shown m n sh mf ml fr
  | CBlob b k | CTestBlob b k => blob_shown b k
  | _ => []
  end.
Lemma shortened_shown s k : shortened s k = name_shown k s.
Proof. destruct k as [[|k]|]; try reflexivity. unfold shortened, name_shown. destruct (Nat.ltb_spec (S k) (length s)), (Nat.leb_spec (length s) (S k)); try reflexivity; lia. Qed.
Lemma log_text_shown m n sh mf ml fr : log_text m n sh mf ml fr = line_shown m n sh mf ml fr.
Proof. unfold log_text, line_shown. rewrite !shortened_shown. destruct sh, n; cbv zeta; rewrite ?app_nil_r, <- ?app_assoc; reflexivity. Qed.
Lemma blob_text_shown b k : blob_text b k = blob_shown b k.
Proof. destruct k as [[|c k]|]; try reflexivity. unfold blob_text, blob_shown, truthy. rewrite <- !app_assoc. reflexivity. Qed.
(** A usable ABIFLIB_LOG. *)
Definition usable (e : logenv) (f : str) : Prop := le_var e = Some f /\ f <> [] /\ is_abs f = true /\ le_exists e (dirname f) = true /\ le_open e = true.
Definition content (f : str) (files : dict str) : str := match dget f files with Some c => c | None => [] end.
Definition is_close (c : logcall) : Prop := c = CClose.

Lemma perform_all_app h1 h2 s : perform_all (h1 ++ h2) s = let (x1, s1) := perform_all h1 s in let (x2, s2) := perform_all h2 s1 in (x1 ++ x2, s2).
Proof.
  revert s. induction h1 as [|[c e] h1 IH]; intro s; cbn [app perform_all]; [destruct (perform_all h2 s); reflexivity|]. destruct (perform_call c e s) as [x s1]. rewrite IH. destruct (perform_all h1 s1) as [x1 s2]. destruct (perform_all h2 s2). reflexivity.
Qed.
(** Once the singleton exists, asking for it does nothing. *)
Lemma new_again force e s : lg_instance s = true -> log_new force e s = (Ok tt, s).
Proof. intro H. unfold log_new. rewrite H. reflexivity. Qed.
(** Without an open file nothing is written. *)
Lemma silent_call c e s : lg_instance s = true \/ asks c = false -> lg_filehandle s = None -> let s' := snd (perform_call c e s) in
  lg_filehandle s' = None /\ lg_instance s' = lg_instance s /\ lg_files s' = lg_files s /\ lg_opens s' = lg_opens s /\ (fst (perform_call c e s) = Ok tt \/ exists m n sh mf ml fs, (c = CLog m n sh mf ml fs \/ c = CTestLog m n sh mf ml fs) /\ fst (perform_call c e s) = Err TypeError).
Proof.
  intros Hi Hh. assert (Hn : asks c = true -> forall f, log_new f e s = (Ok tt, s)). { intros Ha f. apply new_again. destruct Hi; [assumption|congruence]. }
  destruct c as [f|m n sh mf ml fs|b k| |m n sh mf ml fs|b k]; cbn [perform_call asks] in *.
  - rewrite (Hn eq_refl). cbn. auto 10.
  - unfold log_log. destruct (nth_error fs 1); rewrite ?Hh; cbn; repeat split; auto. right. repeat eexists. left; reflexivity.
  - unfold log_blob. rewrite Hh. cbn. auto 10.
  - unfold log_close. rewrite Hh. cbn. auto 10.
  - rewrite (Hn eq_refl). unfold log_log. destruct (nth_error (test_frame :: fs) 1); rewrite ?Hh; cbn; repeat split; auto. right. repeat eexists. right; reflexivity.
  - rewrite (Hn eq_refl). unfold log_blob. rewrite Hh. cbn. auto 10.
Qed.
Lemma silent_all h : forall s, lg_instance s = true \/ Forall (fun ce => asks (fst ce) = false) h -> lg_filehandle s = None ->
  let s' := snd (perform_all h s) in lg_filehandle s' = None /\ lg_instance s' = lg_instance s /\ lg_files s' = lg_files s /\ lg_opens s' = lg_opens s.
Proof.
  induction h as [|[c e] h IH]; intros s Hi Hh; cbn [perform_all]; [cbn; auto|].
  assert (Hc : lg_instance s = true \/ asks c = false) by (destruct Hi as [Hi|Hi]; [left; exact Hi|right; inversion Hi; assumption]).
  pose proof (silent_call c e s Hc Hh) as (A1&A2&A3&A4&_). destruct (perform_call c e s) as [x s1]. cbn [snd] in *.
  destruct (IH s1) as (B1&B2&B3&B4); [destruct Hi as [Hi|Hi]; [left; congruence|right; inversion Hi; assumption]|exact A1|]. destruct (perform_all h s1) as [xs s2]. cbn [snd] in *. repeat split; congruence.
Qed.
(** With an open file, every call but close adds its text. *)
Lemma open_call c e s f : lg_instance s = true -> lg_filehandle s = Some f -> c <> CClose -> let s' := snd (perform_call c e s) in
  lg_filehandle s' = Some f /\ lg_instance s' = true /\ content f (lg_files s') = content f (lg_files s) ++ adds c /\ lg_opens s' = lg_opens s /\ forall g, g <> f -> dget g (lg_files s') = dget g (lg_files s).
Proof.
  intros Hi Hh Hc. assert (Ap : forall text, let s' := append_to f text s in lg_filehandle s' = Some f /\ lg_instance s' = true /\ content f (lg_files s') = content f (lg_files s) ++ text /\ lg_opens s' = lg_opens s /\ forall g, g <> f -> dget g (lg_files s') = dget g (lg_files s)).
  { intro text. cbn. repeat split; auto; [unfold content; rewrite dget_dset_same; reflexivity|]. intros g Hg. apply dget_dset_other; exact Hg || (intro X; apply Hg; symmetry; exact X). }
  assert (Id : let s' := s in lg_filehandle s' = Some f /\ lg_instance s' = true /\ content f (lg_files s') = content f (lg_files s) ++ [] /\ lg_opens s' = lg_opens s /\ forall g, g <> f -> dget g (lg_files s') = dget g (lg_files s)).
  { cbn. rewrite app_nil_r. auto 10. }
  destruct c as [fo|m n sh mf ml fs|b k| |m n sh mf ml fs|b k]; cbn [perform_call adds]; try congruence; rewrite ?new_again by exact Hi.
  - exact Id.
  - unfold log_log. destruct fs as [|f0 [|f1 fs]]; cbn [nth_error]; [exact Id|exact Id|]. rewrite Hh, ?log_text_shown, ?blob_text_shown. apply Ap.
  - unfold log_blob. rewrite Hh, ?log_text_shown, ?blob_text_shown. apply Ap.
  - unfold log_log. destruct fs as [|f1 fs]; cbn [nth_error]; [exact Id|]. rewrite Hh, ?log_text_shown, ?blob_text_shown. apply Ap.
  - unfold log_blob. rewrite Hh, ?log_text_shown, ?blob_text_shown. apply Ap.
Qed.
Lemma open_all h f : forall s, lg_instance s = true -> lg_filehandle s = Some f -> Forall (fun ce => fst ce <> CClose) h -> let s' := snd (perform_all h s) in
  lg_filehandle s' = Some f /\ lg_instance s' = true /\ content f (lg_files s') = content f (lg_files s) ++ concat (map (fun ce => adds (fst ce)) h) /\ lg_opens s' = lg_opens s /\ forall g, g <> f -> dget g (lg_files s') = dget g (lg_files s).
Proof.
  induction h as [|[c e] h IH]; intros s Hi Hh HF; cbn [perform_all map concat]; [cbn; rewrite app_nil_r; auto 10|]. inversion HF as [|x l H1 H2]; subst. cbn [fst] in H1.
  pose proof (open_call c e s f Hi Hh H1) as (A1&A2&A3&A4&A5). destruct (perform_call c e s) as [x s1]. cbn [snd] in *. destruct (IH s1 A2 A1 H2) as (B1&B2&B3&B4&B5). destruct (perform_all h s1) as [xs s2]. cbn [snd fst] in *.
  repeat split; try congruence; [rewrite B3, A3, <- app_assoc; reflexivity|]. intros g Hg. rewrite B5, A5 by exact Hg. reflexivity.
Qed.
(** The first call that asks, with a usable variable. *)
Lemma first_call c e s f : lg_instance s = false -> lg_filehandle s = None -> asks c = true -> usable e f -> let s' := snd (perform_call c e s) in
  lg_filehandle s' = Some f /\ lg_instance s' = true /\ content f (lg_files s') = content f (lg_files s) ++ adds c /\ lg_opens s' = lg_opens s ++ [f] /\ forall g, g <> f -> dget g (lg_files s') = dget g (lg_files s).
Proof.
  intros Hi Hh Ha (U1&U2&U3&U4&U5).
  assert (N : forall force, exists s1, log_new force e s = (Ok tt, s1) /\ lg_filehandle s1 = Some f /\ lg_instance s1 = true /\ content f (lg_files s1) = content f (lg_files s) /\ lg_opens s1 = lg_opens s ++ [f] /\ forall g, g <> f -> dget g (lg_files s1) = dget g (lg_files s)).
  { intro force. unfold log_new. rewrite Hi, U1. destruct f as [|z zs]; [congruence|]. cbn [truthy]. rewrite U3. cbv zeta. rewrite U4, U5. eexists. split; [reflexivity|]. cbn [lg_filehandle lg_instance lg_files lg_opens]. split; [reflexivity|split; [reflexivity|split; [|split; [reflexivity|]]]].
    - unfold content at 1. rewrite dget_dset_same. reflexivity.
    - intros g Hg. apply dget_dset_other; exact Hg || (intro X; apply Hg; symmetry; exact X). }
  destruct (N false) as (s1&E1&S1&S2&S3&S4&S5).
  destruct c as [fo|m n sh mf ml fs|b k| |m n sh mf ml fs|b k]; try discriminate Ha; cbn [perform_call].
  - destruct (N fo) as (s2&->&T1&T2&T3&T4&T5). cbn [snd adds]. rewrite app_nil_r. auto 10.
  - rewrite E1. pose proof (open_call (CLog m n sh mf ml (test_frame :: fs)) e s1 f S2 S1) as (A1&A2&A3&A4&A5); [discriminate|]. cbn [perform_call] in *. destruct (log_log _ _ _ _ _ _ s1) as [x s2]. cbn [snd] in *.
    repeat split; try congruence; [rewrite A3, S3; destruct fs; reflexivity|]. intros g Hg. rewrite A5, S5 by exact Hg. reflexivity.
  - rewrite E1. pose proof (open_call (CBlob b k) e s1 f S2 S1) as (A1&A2&A3&A4&A5); [discriminate|]. cbn [perform_call] in *. destruct (log_blob _ _ s1) as [x s2]. cbn [snd] in *.
    repeat split; try congruence; [rewrite A3, S3; reflexivity|]. intros g Hg. rewrite A5, S5 by exact Hg. reflexivity.
Qed.

(** A program starts; the first call that asks for the log has a usable ABIFLIB_LOG.  Then, whatever the variable is later, the
    file gets the texts of that call and of all calls up to the first close_file, in order, behind what it held;
    it is opened once, and no other file is touched. *)
Theorem C62_log : forall files before c0 e0 during rest f, Forall (fun ce => asks (fst ce) = false) before -> asks c0 = true -> usable e0 f ->
  Forall (fun ce => fst ce <> CClose) during -> match rest with [] => True | ce :: _ => fst ce = CClose end ->
  let s := snd (perform_all (before ++ (c0, e0) :: during ++ rest) (new_instance files)) in
  content f (lg_files s) = content f files ++ concat (map (fun ce => adds (fst ce)) ((c0, e0) :: during)) /\
  lg_opens s = [f] /\ forall g, g <> f -> dget g (lg_files s) = dget g files.
Proof.
  intros files before c0 e0 during rest f Hb Ha Hu Hd Hr. cbv zeta. rewrite perform_all_app.
  destruct (silent_all before (new_instance files) (or_intror Hb) eq_refl) as (A1&A2&A3&A4). destruct (perform_all before (new_instance files)) as [x1 s1]. cbn [snd new_instance lg_instance lg_files lg_opens] in *.
  cbn [perform_all]. destruct (first_call c0 e0 s1 f A2 A1 Ha Hu) as (B1&B2&B3&B4&B5). destruct (perform_call c0 e0 s1) as [x2 s2]. cbn [snd] in *.
  rewrite perform_all_app. destruct (open_all during f s2 B2 B1 Hd) as (C1&C2&C3&C4&C5). destruct (perform_all during s2) as [x3 s3]. cbn [snd] in *.
  assert (G : let s := snd (perform_all rest s3) in lg_files s = lg_files s3 /\ lg_opens s = lg_opens s3).
  { destruct rest as [|[c e] rest]; [split; reflexivity|]. cbn [fst] in Hr. subst c. cbn [perform_all perform_call]. unfold log_close. rewrite C1. destruct (silent_all rest (Logstate (lg_instance s3) (lg_filename s3) None (lg_msgs s3) (lg_files s3) (lg_opens s3))) as (D1&D2&D3&D4); [left; exact C2|reflexivity|].
    destruct (perform_all rest _) as [x4 s4]. cbn [snd lg_files lg_opens] in *. auto. }
  destruct (perform_all rest s3) as [x4 s4]. cbn [snd] in *. destruct G as (G1&G2). rewrite G1, G2. split; [|split].
  - rewrite C3, B3, A3. cbn [map concat fst]. rewrite <- app_assoc. reflexivity.
  - rewrite C4, B4, A4. reflexivity.
  - intros g Hg. rewrite C5, B5, A3 by exact Hg. reflexivity.
Qed.
Print Assumptions C62_log.
(** Without ABIFLIB_LOG at the first call nothing is ever written or opened, even if the variable is set later. *)
Lemma unusable_call c e s : lg_instance s = false -> lg_filehandle s = None -> asks c = true -> (forall f, ~ usable e f) -> let s' := snd (perform_call c e s) in
  lg_filehandle s' = None /\ lg_instance s' = true /\ lg_files s' = lg_files s /\ lg_opens s' = lg_opens s.
Proof.
  intros Hi Hh Ha Hu.
  assert (N : forall force, let s' := snd (log_new force e s) in lg_filehandle s' = None /\ lg_instance s' = true /\ lg_files s' = lg_files s /\ lg_opens s' = lg_opens s).
  { intro force. unfold log_new. rewrite Hi. destruct (truthy (le_var e)) as [f|] eqn:E; [|destruct force; cbn; auto].
    assert (Hv : le_var e = Some f /\ f <> []) by (destruct (le_var e) as [[|z zs]|]; cbn [truthy] in E; [discriminate E|injection E as <-; split; [reflexivity|discriminate]|discriminate E]). destruct Hv as (V1&V2).
    destruct (is_abs f) eqn:E1; [|cbn; auto]. destruct (le_exists e (dirname f)) eqn:E2; [|cbn; auto]. destruct (le_open e) eqn:E3; [|cbn; auto]. exfalso. apply (Hu f). repeat split; assumption. }
  destruct c as [fo|m n sh mf ml fs|b k| |m n sh mf ml fs|b k]; try discriminate Ha; cbn [perform_call]; [apply N| |]; specialize (N false); destruct (log_new false e s) as [[[]|x] s1]; cbn [snd] in *; try exact N; destruct N as (N1&N2&N3&N4).
  - unfold log_log. destruct (nth_error _ 1); rewrite ?N1; cbn [snd]; auto.
  - unfold log_blob. rewrite N1. cbn [snd]. auto.
Qed.
Theorem C62_silent : forall files before c0 e0 rest, Forall (fun ce => asks (fst ce) = false) before -> asks c0 = true -> (forall f, ~ usable e0 f) ->
  let s := snd (perform_all (before ++ (c0, e0) :: rest) (new_instance files)) in lg_files s = files /\ lg_opens s = [].
Proof.
  intros files before c0 e0 rest Hb Ha Hu. cbv zeta. rewrite perform_all_app.
  destruct (silent_all before (new_instance files) (or_intror Hb) eq_refl) as (A1&A2&A3&A4). destruct (perform_all before (new_instance files)) as [x1 s1]. cbn [snd new_instance lg_instance lg_files lg_opens] in *.
  cbn [perform_all]. destruct (unusable_call c0 e0 s1 A2 A1 Ha Hu) as (B1&B2&B3&B4). destruct (perform_call c0 e0 s1) as [x2 s2]. cbn [snd] in *.
  destruct (silent_all rest s2 (or_introl B2) B1) as (C1&C2&C3&C4). destruct (perform_all rest s2) as [x3 s3]. cbn [snd] in *. split; congruence.
Qed.
Print Assumptions C62_silent.
(** In any history whatever at most one file is opened. *)
Theorem C62_one_open : forall files h, let s := snd (perform_all h (new_instance files)) in (length (lg_opens s) <= 1)%nat.
Proof.
  intros files h. cbv zeta. assert (S : (Forall (fun ce => asks (fst ce) = false) h) \/ exists before c0 e0 rest, h = before ++ (c0, e0) :: rest /\ Forall (fun ce => asks (fst ce) = false) before /\ asks c0 = true).
  { induction h as [|[c e] h IH]; [left; constructor|]. destruct (asks c) eqn:E; [right; exists [], c, e, h; repeat split; [constructor|exact E]|]. destruct IH as [IH|(b&c0&e0&r&->&H1&H2)]; [left; constructor; assumption|right]. exists ((c, e) :: b), c0, e0, r. repeat split; [constructor; assumption|exact H2]. }
  destruct S as [S|(b&c0&e0&r&->&H1&H2)].
  - destruct (silent_all h (new_instance files) (or_intror S) eq_refl) as (_&_&_&->). cbn. lia.
  - assert (U : (exists f, usable e0 f) \/ forall f, ~ usable e0 f).
    { unfold usable. destruct (le_var e0) as [[|z zs]|]; [right; intros f (X&Y&_); injection X as <-; congruence| |right; intros f (X&_); discriminate X].
      destruct (is_abs (z :: zs)) eqn:E1; [|right; intros f (X&_&Y&_); injection X as <-; congruence]. destruct (le_exists e0 (dirname (z :: zs))) eqn:E2; [|right; intros f (X&_&_&Y&_); injection X as <-; congruence].
      destruct (le_open e0) eqn:E3; [|right; intros f (X&_&_&_&Y); congruence]. left. exists (z :: zs). repeat split; auto. discriminate. }
    destruct U as [(f&U)|U]; [|destruct (C62_silent files b c0 e0 r H1 H2 U) as (_&->); cbn; lia].
    assert (Sp : exists during rest, r = during ++ rest /\ Forall (fun ce => fst ce <> CClose) during /\ match rest with [] => True | ce :: _ => fst ce = CClose end).
    { clear. induction r as [|[c e] r (d&rs&->&D1&D2)]; [exists [], []; repeat split; constructor|]. assert (X : c = CClose \/ c <> CClose) by (destruct c; auto; right; discriminate). destruct X as [->|X].
      - exists [], ((CClose, e) :: d ++ rs). repeat split; [constructor].
      - exists ((c, e) :: d), rs. repeat split; [constructor; assumption|exact D2]. }
    destruct Sp as (d&rs&->&D1&D2). destruct (C62_log files b c0 e0 d rs f H1 H2 U D1 D2) as (_&->&_). cbn. lia.
Qed.
Print Assumptions C62_one_open.

(** ** What does not hold *)
Definition plain_env (var : option str) : logenv := Logenv var (fun _ => true) true.
Definition at_line (n : Z) : list frame := [Frame (u "test_counting") (u "/src/pytests/scorestar_test.py") n; Frame (u "run") (u "/usr/lib/pytest.py") 7].
(** A wrong ABIFLIB_LOG is reported at the first call only; later calls succeed and write nothing. *)
Theorem C62_misconfiguration_refuted : exists call e, perform_all [(call, e); (call, e); (CNew true, e)] (new_instance []) =
  ([Err ValueError; Ok tt; Ok tt], Logstate true (Some (u "abif.log")) None [u "ABIFLIB_LOG needs to be an absolute path: abif.log"] [] []).
Proof. exists (CTestLog (u "x") true true (Some 10%nat) (Some 10%nat) (at_line 1)), (plain_env (Some (u "abif.log"))). vm_compute. reflexivity. Qed.
Print Assumptions C62_misconfiguration_refuted.
(** log called by a script's own top level fails, with or without a log file. *)
Theorem C62_top_level_refuted : forall m n sh mf ml fr e s, perform_call (CLog m n sh mf ml [fr]) e s = (Err TypeError, s).
Proof. reflexivity. Qed.
Print Assumptions C62_top_level_refuted.
(** After close_file the log is not opened again. *)
Theorem C62_after_close : forall h s, lg_instance s = true -> lg_filehandle s = None -> let s' := snd (perform_all h s) in lg_files s' = lg_files s /\ lg_opens s' = lg_opens s.
Proof. intros h s H1 H2. destruct (silent_all h s (or_introl H1) H2) as (_&_&H3&H4). auto. Qed.
Print Assumptions C62_after_close.

Example C62_sample : let e := plain_env (Some (u "/tmp/abif.log")) in
  snd (perform_all [(CTestLog (u "one") true true (Some 10%nat) (Some 10%nat) (at_line 31), e); (CTestBlob (u "{'a': 1}") (Some (u "D")), plain_env None); (CLog (u "two") false false None None (at_line 2), e); (CClose, e); (CTestLog (u "three") true true None None (at_line 3), e)]
    (new_instance [(u "/tmp/abif.log", u "old" ++ [10%N]); (u "/tmp/other", u "x")])) =
  Logstate true (Some (u "/tmp/abif.log")) None [u "ABIFLIB_LOG set to /tmp/abif.log.  Amending additional debugging output there."]
    [(u "/tmp/abif.log", u "old" ++ [10%N] ++ u "test_count.. (scorestar_..:31): one" ++ [10%N] ++ u "--DSTART--" ++ [10%N] ++ u "{'a': 1}" ++ [10%N] ++ u "--DEND--" ++ [10%N] ++ u "two"); (u "/tmp/other", u "x")]
    [u "/tmp/abif.log"] /\ usable e (u "/tmp/abif.log").
Proof. cbv zeta. split; [vm_compute; reflexivity|]. repeat split; try reflexivity. discriminate. Qed.
