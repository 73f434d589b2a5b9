(** * PropsArgvFlags: C91, a switch with a value *)

From Coq Require Import Lia.
From Verif Require Import PyBase PyFacts Jabmod TextFacts CliModel ArgvModel PropsArgv.
Local Open Scope Z_scope.

Definition a_switch (n : str) : Prop := n = u "-h" \/ n = u "-d" \/ exists long, In long [u "--help"; u "--debug"; u "--cleanws"; u "--add-scores"] /\ abbreviates n long.
Lemma switch_value n v : a_switch n -> exists t, parse_optional (n ++ u "=" ++ v) = inl (Some t) /\ options_of t (n ++ u "=" ++ v) = inr UsageError /\ n ++ u "=" ++ v <> u "--".
Proof.
  intro H. assert (G : In n ([u "-h"; u "-d"] ++ flat_map (fun long => map (fun k => firstn k long) (seq 3 (length long - 2))) [u "--help"; u "--debug"; u "--cleanws"; u "--add-scores"])).
  { destruct H as [-> | [-> | (long&Hl&Ha)]]; [left; reflexivity|right; left; reflexivity|]. apply in_or_app. right. apply in_flat_map. exists long. split; [exact Hl|]. apply abbreviations, Ha. }
  clear H. vm_compute in G. repeat (destruct G as [<- | G]; [eexists; split; [reflexivity|]; split; [destruct v; reflexivity|discriminate]|]). destruct G.
Qed.
Lemma consume_stops : forall n toks g ns ex x t s, (length toks <= n)%nat -> In (TOption t s) toks -> options_of t s = inr UsageError -> consume toks g ns ex <> inl x.
Proof.
  induction n as [|n IH]; intros toks g ns ex x t s Hn Hi Ho E; [destruct toks; [destruct Hi|cbn in Hn; lia]|]. destruct toks as [|y r]; [destruct Hi|]. cbn [length] in Hn. destruct Hi as [-> | Hi].
  - cbn [consume] in E. destruct (close_group g ns ex). rewrite Ho in E. discriminate E.
  - destruct y as [o s0|s0|]; cbn [consume] in E; [|exact (IH r _ _ _ _ _ _ ltac:(lia) Hi Ho E)|exact (IH r _ _ _ _ _ _ ltac:(lia) Hi Ho E)].
    destruct (close_group g ns ex) as [n1 ex1]. destruct (options_of o s0) as [[fl lo]|]; [|discriminate E]. cbn [then_ fst snd] in E. destruct lo as [|a v|a|z].
    + destruct (take_flags fl n1); [|discriminate E]. exact (IH r _ _ _ _ _ _ ltac:(lia) Hi Ho E).
    + destruct (take_flags fl n1); [|discriminate E]. cbn [then_] in E. destruct (take_option a v _); [|discriminate E]. exact (IH r _ _ _ _ _ _ ltac:(lia) Hi Ho E).
    + destruct r as [|[|v|] r']; try discriminate E. destruct Hi as [Hi|Hi]; [discriminate Hi|]. destruct (take_flags fl n1); [|discriminate E]. cbn [then_] in E. destruct (take_option a v _); [|discriminate E]. cbn [length] in Hn. exact (IH r' _ _ _ _ _ _ ltac:(lia) Hi Ho E).
    + destruct (take_flags fl n1); [|discriminate E]. exact (IH r _ _ _ _ _ _ ltac:(lia) Hi Ho E).
Qed.
(** -d, --debug, --cleanws, --add-scores and -h take no value: with =VALUE, even an empty one, the program does not run, wherever that stands before a --. *)
Theorem C91_switch_value : forall l1 n v l2 x, a_switch n -> ~ In (u "--") l1 -> parse_args (l1 ++ (n ++ u "=" ++ v) :: l2) <> inl x.
Proof.
  intros l1 n v l2 x Hs Hd H. destruct (switch_value n v Hs) as (t&Ht&Ho&Hn). unfold parse_args in H. destruct (classify (l1 ++ (n ++ u "=" ++ v) :: l2)) as [toks|] eqn:E; [|discriminate H]. cbn [then_] in H.
  assert (Hi : In (TOption t (n ++ u "=" ++ v)) toks).
  { clear H. revert toks E. induction l1 as [|y l1 IH]; intros toks E; cbn [app] in E.
    - rewrite (classify_opt _ _ _ Ht Hn) in E. destruct (classify l2); [|discriminate E]. injection E as <-. left. reflexivity.
    - cbn [classify] in E. destruct (str_eqb y (u "--")) eqn:Ey; [apply str_eqb_eq in Ey; exfalso; apply Hd; left; exact Ey|]. destruct (parse_optional y) as [o|]; [|discriminate E]. cbn [then_] in E.
      destruct (classify (l1 ++ (n ++ u "=" ++ v) :: l2)) as [l|]; [|discriminate E]. cbn [then_] in E. injection E as <-. right. exact (IH (fun X => Hd (or_intror X)) l eq_refl). }
  destruct (consume toks [] defaults []) as [[ns ex]|] eqn:Ec; [|discriminate H]. exact (consume_stops (length toks) toks [] defaults [] (ns, ex) t _ (le_n _) Hi Ho Ec).
Qed.
Print Assumptions C91_switch_value.
Example C91_switch_sample : a_switch (u "--deb") /\ parse_args [u "--deb="; u "x.abif"] = inr UsageError /\ parse_args [u "x.abif"; u "-d=1"] = inr UsageError /\ exists x, parse_args [u "--deb"; u "x.abif"] = inl x.
Proof. split; [right; right; exists (u "--debug"); split; [cbn; tauto|split; [cbn; lia|exists (u "ug"); reflexivity]]|]. split; [reflexivity|]. split; [reflexivity|]. eexists. reflexivity. Qed.
