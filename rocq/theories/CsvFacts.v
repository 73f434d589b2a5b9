(** * CsvFacts: the csv table has one row per ballot, and its text can be read back. *)

From Coq Require Import Lia Permutation.
From Verif Require Import PyBase PyFacts Jabmod Spec TextFacts UrlText JsonText WriterModel.
Local Open Scope Z_scope.

(** ** Specification *)
(** The ballots, one entry per ballot, in order. *)
Definition each_ballot (ls : list voteline) : list voteline := flat_map (fun v => repeat v (Z.to_nat (v_qty v))) ls.
(** The [i]-th ballot's id: its own if it has one, else the word voter and the number, six digits at least. *)
Definition row_id (i : N) (v : voteline) : str :=
  match v_voterid v with
  | Some ((_ :: _) as s) => s
  | _ => u "voter" ++ repeat 48%N (6 - length (n2s i)) ++ n2s i
  end.
(** The row of ballot number [i]: id, then per candidate its rank, blank if not ranked. *)
Definition ballot_row (cs : list str) (i : N) (v : voteline) : list str :=
  row_id i v :: map (fun c => match rank_on v c with Some r => z2s r | None => [] end) cs.
Fixpoint number_from (i : N) (cs : list str) (l : list voteline) : list (list str) :=
  match l with [] => [] | v :: r => ballot_row cs i v :: number_from (i + 1) cs r end.

(** A reader for comma-separated text: fields in double quotes may contain anything, a doubled quote
    stands for one; a carriage return outside quotes is skipped and a newline ends the row.
    [q]: inside quotes; [c]: the previous character was a quote that may have ended the quoted part. *)
Fixpoint csv_read_aux (s : str) (q c : bool) (field : str) (row : list str) : list (list str) :=
  match s with
  | [] => []
  | x :: r =>
      if q then
        if c then
          if N.eqb x 34 then csv_read_aux r true false (field ++ [34%N]) row
          else if N.eqb x 44 then csv_read_aux r false false [] (row ++ [field])
          else if N.eqb x 13 then csv_read_aux r false false field row
          else if N.eqb x 10 then (row ++ [field]) :: csv_read_aux r false false [] []
          else csv_read_aux r false false (field ++ [x]) row
        else if N.eqb x 34 then csv_read_aux r true true field row
        else csv_read_aux r true false (field ++ [x]) row
      else if N.eqb x 34 then csv_read_aux r true false field row
      else if N.eqb x 44 then csv_read_aux r false false [] (row ++ [field])
      else if N.eqb x 13 then csv_read_aux r false false field row
      else if N.eqb x 10 then (row ++ [field]) :: csv_read_aux r false false [] []
      else csv_read_aux r false false (field ++ [x]) row
  end.
Definition csv_read (s : str) : list (list str) := csv_read_aux s false false [] [].

(** ** Reading back *)
Lemma read_plain f : forall field row rest, existsb csv_special f = false ->
  csv_read_aux (f ++ rest) false false field row = csv_read_aux rest false false (field ++ f) row.
Proof.
  induction f as [|x f IH]; intros field row rest H; [rewrite app_nil_r; reflexivity|]. cbn [existsb] in H. apply orb_false_iff in H as [Hx Hf].
  unfold csv_special in Hx. apply orb_false_iff in Hx as [Hx H10]. apply orb_false_iff in Hx as [Hx H13]. apply orb_false_iff in Hx as [H44 H34].
  cbn [app csv_read_aux]. rewrite H34, H44, H13, H10, IH by exact Hf. rewrite <- app_assoc. reflexivity.
Qed.
Lemma read_quoted f : forall field row rest,
  csv_read_aux (flat_map (fun c => if N.eqb c 34 then [34%N; 34%N] else [c]) f ++ 34%N :: rest) true false field row =
  csv_read_aux rest true true (field ++ f) row.
Proof.
  induction f as [|x f IH]; intros field row rest; [rewrite app_nil_r; reflexivity|]. cbn [flat_map].
  destruct (N.eqb_spec x 34) as [->|n]; cbn [app csv_read_aux].
  - change (N.eqb 34 34) with true. cbn iota. rewrite IH, <- app_assoc. reflexivity.
  - rewrite (proj2 (N.eqb_neq _ _) n), IH, <- app_assoc. reflexivity.
Qed.
Lemma read_field_comma f row rest :
  csv_read_aux (csv_field f ++ 44%N :: rest) false false [] row = csv_read_aux rest false false [] (row ++ [f]).
Proof.
  unfold csv_field. destruct (existsb csv_special f) eqn:E.
  - unfold csv_quote. rewrite <- !app_assoc. cbn [app csv_read_aux]. change (N.eqb 34 34) with true. cbn iota. rewrite read_quoted. reflexivity.
  - rewrite read_plain by exact E. reflexivity.
Qed.
Lemma read_field_end f row rest :
  csv_read_aux (csv_field f ++ 13%N :: 10%N :: rest) false false [] row = (row ++ [f]) :: csv_read_aux rest false false [] [].
Proof.
  unfold csv_field. destruct (existsb csv_special f) eqn:E.
  - unfold csv_quote. rewrite <- !app_assoc. cbn [app csv_read_aux]. change (N.eqb 34 34) with true. cbn iota. rewrite read_quoted. reflexivity.
  - rewrite read_plain by exact E. reflexivity.
Qed.
Lemma read_fields fs : forall row rest, fs <> [] ->
  csv_read_aux (join [44%N] (map csv_field fs) ++ [13%N; 10%N] ++ rest) false false [] row = (row ++ fs) :: csv_read_aux rest false false [] [].
Proof.
  induction fs as [|f fs IH]; intros row rest Hn; [congruence|]. destruct fs as [|g fs].
  - cbn [map join]. apply read_field_end.
  - cbn [map]. change (join [44%N] (csv_field f :: csv_field g :: map csv_field fs)) with (csv_field f ++ [44%N] ++ join [44%N] (map csv_field (g :: fs))).
    rewrite <- !app_assoc. cbn [app]. rewrite read_field_comma. specialize (IH (row ++ [f]) rest ltac:(discriminate)). cbn [app] in IH. rewrite IH.
    rewrite <- app_assoc. reflexivity.
Qed.
Lemma read_row fs rest : fs <> [] -> csv_read_aux (csv_row fs ++ rest) false false [] [] = fs :: csv_read_aux rest false false [] [].
Proof.
  intro Hn. destruct fs as [|[|x f] [|g fs]]; try congruence.
  - reflexivity.
  - unfold csv_row. rewrite <- app_assoc. rewrite (read_fields ([] :: g :: fs)) by discriminate. reflexivity.
  - unfold csv_row. rewrite <- app_assoc. rewrite (read_fields [x :: f]) by discriminate. reflexivity.
  - unfold csv_row. rewrite <- app_assoc. rewrite (read_fields ((x :: f) :: g :: fs)) by discriminate. reflexivity.
Qed.
Lemma csv_read_rows rows : (forall r, In r rows -> r <> []) -> csv_read (concat (map csv_row rows)) = rows.
Proof.
  unfold csv_read. induction rows as [|r rows IH]; intro H; [reflexivity|]. cbn [map concat]. rewrite read_row by (apply H; left; reflexivity).
  rewrite IH by (intros x Hx; apply H; right; exact Hx). reflexivity.
Qed.

(** ** One row per ballot *)
Definition csv_line_ok (cs : list str) (v : voteline) : Prop :=
  (forall c p, In (c, p) (v_prefs v) -> p_rank p <> None) /\ incl (map fst (v_prefs v)) cs.

Lemma ranks_ok (prefs : dict pref) : (forall c p, In (c, p) prefs -> p_rank p <> None) ->
  exists d, mapM (fun kv => bind (of_option KeyError (p_rank (snd kv))) (fun r => Ok (fst kv, z2s r))) prefs = Ok d /\ map fst d = map fst prefs /\
    forall c, dget c d = match dget c prefs with Some p => option_map z2s (p_rank p) | None => None end.
Proof.
  induction prefs as [|[c p] prefs IH]; intro H; [exists []; cbn; auto|].
  destruct IH as (d&E&Hk&Hd); [intros c' p' Hin; apply (H c'); right; exact Hin|].
  destruct (p_rank p) as [r|] eqn:Er; [|exfalso; apply (H c p); [left; reflexivity|exact Er]].
  exists ((c, z2s r) :: d). cbn [mapM fst snd of_option bind]. rewrite Er. cbn [of_option bind]. rewrite E. cbn [bind]. split; [reflexivity|]. split; [cbn; congruence|].
  intro c'. cbn [dget]. destruct (str_eqb c' c); [rewrite Er; reflexivity|apply Hd].
Qed.

Lemma csv_ballot_ok cs i v : csv_line_ok cs v -> ~ In (u "voterid") cs ->
  csv_ballot (u "voterid" :: cs) i v = Ok (ballot_row cs i v).
Proof.
  intros [Hr Hi] Hv. destruct (ranks_ok _ Hr) as (d&E&Hk&Hd). unfold csv_ballot. rewrite E. cbn [bind].
  change (match v_voterid v with Some ((_ :: _) as s) => s | _ => auto_voter i end) with (row_id i v).
  assert (F : forallb (fun kv : str * str => memb (fst kv) (u "voterid" :: cs)) (dset (u "voterid") (row_id i v) d) = true).
  { apply forallb_forall. intros [k x] Hin. cbn [fst]. apply memb_In. assert (Hk' : In k (dkeys (dset (u "voterid") (row_id i v) d))) by (unfold dkeys; apply in_map_iff; exists (k, x); auto).
    apply In_dkeys_dset in Hk' as [->|Hk']; [left; reflexivity|]. right. apply Hi. rewrite <- Hk. exact Hk'. }
  rewrite F. f_equal. cbn [map]. rewrite dget_dset_same. unfold ballot_row. f_equal. apply map_ext_in. intros c Hc.
  rewrite dget_dset_other by (intros ->; exact (Hv Hc)). rewrite Hd. unfold rank_on. destruct (dget c (v_prefs v)) as [p|]; [|reflexivity]. destruct (p_rank p); reflexivity.
Qed.

Lemma number_from_app cs a : forall i b, number_from i cs (a ++ b) = number_from i cs a ++ number_from (i + N.of_nat (length a)) cs b.
Proof.
  induction a as [|v a IH]; intros i b; [cbn; rewrite N.add_0_r; reflexivity|]. cbn [app number_from length]. rewrite IH. f_equal. f_equal. f_equal. lia.
Qed.

Lemma csv_ballots_ok n cs i v : csv_line_ok cs v -> ~ In (u "voterid") cs ->
  csv_ballots n (u "voterid" :: cs) i v = Ok (number_from (i + 1) cs (repeat v n), i + N.of_nat n)%N.
Proof.
  intros H1 H2. revert i. induction n as [|n IH]; intro i; [cbn; rewrite N.add_0_r; reflexivity|].
  cbn [csv_ballots]. rewrite csv_ballot_ok by assumption. cbn [bind]. rewrite IH. cbn [bind repeat number_from]. do 2 f_equal. lia.
Qed.

Lemma csv_lines_ok cs ls : forall i, ~ In (u "voterid") cs -> (forall v, In v ls -> csv_line_ok cs v /\ 0 < v_qty v) ->
  csv_lines (u "voterid" :: cs) i ls = Ok (number_from (i + 1) cs (each_ballot ls)).
Proof.
  induction ls as [|v ls IH]; intros i Hv H; [reflexivity|]. destruct (H v (or_introl eq_refl)) as [H1 H2]. cbn [csv_lines each_ballot flat_map].
  assert (E : (v_qty v >? 0) = true) by lia. rewrite E. rewrite csv_ballots_ok by assumption. cbn [bind].
  rewrite IH by (auto; intros w Hw; apply H; right; exact Hw). cbn [bind]. f_equal. rewrite number_from_app, repeat_length. f_equal. f_equal. lia.
Qed.

Lemma csv_lines_bad cs ls v rest : forall i, ~ In (u "voterid") cs -> (forall v, In v ls -> csv_line_ok cs v /\ 0 < v_qty v) ->
  (v_qty v <= 0 -> csv_lines (u "voterid" :: cs) i (ls ++ v :: rest) = Err VotelineExn) /\
  (0 < v_qty v -> (exists c p, In (c, p) (v_prefs v) /\ p_rank p = None) -> csv_lines (u "voterid" :: cs) i (ls ++ v :: rest) = Err KeyError) /\
  (0 < v_qty v -> (forall c p, In (c, p) (v_prefs v) -> p_rank p <> None) -> (exists c, In c (map fst (v_prefs v)) /\ ~ In c cs /\ c <> u "voterid") ->
     csv_lines (u "voterid" :: cs) i (ls ++ v :: rest) = Err ValueError).
Proof.
  induction ls as [|w ls IH]; intros i Hv H.
  - cbn [app csv_lines]. split; [|split].
    + intro Hq. assert (E : (v_qty v >? 0) = false) by lia. rewrite E. reflexivity.
    + intros Hq (c&p&Hin&Er). assert (E : (v_qty v >? 0) = true) by lia. rewrite E. destruct (Z.to_nat (v_qty v)) as [|n] eqn:En; [lia|].
      cbn [csv_ballots]. unfold csv_ballot.
      assert (M : mapM (fun kv => bind (of_option KeyError (p_rank (snd kv))) (fun r => Ok (fst kv, z2s r))) (v_prefs v) = Err KeyError).
      { clear - Hin Er. induction (v_prefs v) as [|[c' p'] l IHl]; [destruct Hin|]. cbn [mapM fst snd]. destruct (p_rank p') as [r|] eqn:E'; cbn [of_option bind]; [|reflexivity].
        destruct Hin as [X|Hin]; [injection X as -> ->; congruence|]. rewrite IHl by exact Hin. reflexivity. }
      rewrite M. reflexivity.
    + intros Hq Hr (c&Hc&Hn&Hd). assert (E : (v_qty v >? 0) = true) by lia. rewrite E. destruct (Z.to_nat (v_qty v)) as [|n] eqn:En; [lia|].
      cbn [csv_ballots]. unfold csv_ballot. destruct (ranks_ok _ Hr) as (d&Ed&Hk&_). rewrite Ed. cbn [bind].
      match goal with |- context [forallb ?f ?l] => destruct (forallb f l) eqn:Ef end; [|reflexivity]. exfalso. rewrite forallb_forall in Ef.
      rewrite <- Hk in Hc. assert (Hc' : In c (dkeys (dset (u "voterid") (row_id (i + 1) v) d))) by (apply In_dkeys_dset; right; exact Hc).
      unfold dkeys in Hc'. apply in_map_iff in Hc' as ([k x]&Ek&Hin). cbn [fst] in Ek. subst k. specialize (Ef _ Hin). cbn [fst] in Ef. apply memb_In in Ef as [Ef|Ef]; [congruence|contradiction].
  - destruct (H w (or_introl eq_refl)) as [H1 H2]. destruct (IH (i + N.of_nat (Z.to_nat (v_qty w)))%N Hv ltac:(intros x Hx; apply H; right; exact Hx)) as (A1&A2&A3).
    cbn [app csv_lines]. assert (E : (w.(v_qty) >? 0) = true) by lia. rewrite E, csv_ballots_ok by assumption. cbn [bind].
    split; [|split]; intros; [rewrite A1|rewrite A2|rewrite A3]; auto.
Qed.
