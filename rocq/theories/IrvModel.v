(** * IrvModel: abiflib/irvtally.py *)

From Verif Require Import PyBase Jabmod PairwiseModel.
Local Open Scope Z_scope.
Local Open Scope res_scope.

(** What Python leaves to chance: [o_choice r] picks the index random.choice returns in round r (taken
    modulo the length of the list), [o_order r] is the order in which list(set) enumerates a set. (irvtally.py:180, 188, 190, 196) *)
Record oracle := Oracle {
  o_choice : nat -> nat;
  o_order : nat -> list str -> list str
}.

(** _eliminate_cands_from_votelines, irvtally.py:11-18 *)
Definition eliminate_cands (candlist : list str) (votelines : list voteline) : list voteline :=
  fold_left (fun ls cand =>
      map (fun l => if dmem cand (v_prefs l) then with_prefs l (ddel cand (v_prefs l)) else l) ls)
    candlist votelines.

(** 9999999999, "close enough to infinity" (irvtally.py:31, 62) *)
Definition big_rank : Z := 9999999999.

(** sorted(prefs.keys(), key=lambda key: prefs[key]['rank']), with the ranks (irvtally.py:26, 55).
    A missing rank is a KeyError. *)
Definition ranked_list (prefs : dict pref) : result (list (str * Z)) :=
  let* l := mapM (fun kv => let* r := of_option KeyError (p_rank (snd kv)) in Ok (fst kv, r)) prefs in
  Ok (sort_asc snd l).

(** The while loop of irvtally.py:35-38 / 66-69 over the reversed list of ranks. *)
Fixpoint yloop (revranks : list Z) (y : nat) (yrank xrank : Z) : nat :=
  if yrank >? xrank then
    match revranks with
    | [] => y
    | r :: rest => yloop rest (y - 1) r xrank
    end
  else y.

(** irvtally.py:28-38 / 58-69: the index y found for a non-empty rlist whose first rank is [xrank]. *)
Definition tier_end (rlist : list (str * Z)) (xrank : Z) : nat :=
  yloop (rev (map snd rlist)) (length rlist) big_rank xrank.

(** irvtally.py:25-48: is this voteline deleted as a top-rank overvote? *)
Definition top_overvoted (l : voteline) : result bool :=
  let* rlist := ranked_list (v_prefs l) in
  match rlist with
  | [] => Ok false
  | (_, xrank) :: _ => Ok (negb (Nat.eqb (tier_end rlist xrank) 0))
  end.

(** _discard_toprank_overvotes, irvtally.py:21-50.  Deleting element i of the list being enumerated
    makes the loop continue with what was element i+2: the line after a deleted one is kept unseen. *)
Fixpoint discard_overvotes (ls : list voteline) : result (Z * list voteline) :=
  match ls with
  | [] => Ok (0, [])
  | l :: r =>
      let* ov := top_overvoted l in
      if ov then
        match r with
        | [] => Ok (v_qty l, [])
        | l2 :: r2 =>
            let* (o, k) := discard_overvotes r2 in
            Ok (v_qty l + o, l2 :: k)
        end
      else
        let* (o, k) := discard_overvotes r in
        Ok (o, l :: k)
  end.

(** _get_valid_topcand_qty, irvtally.py:53-85 (the qty is always voteline['qty']).  [None] is the
    empty dict returned when nobody is left. *)
Fixpoint topcand (fuel : nat) (prefs : dict pref) : result (option str) :=
  let* rlist := ranked_list prefs in
  match rlist with
  | [] => Ok None
  | (xtok, xrank) :: _ =>
      let y := tier_end rlist xrank in
      if Nat.eqb y 0 then Ok (Some xtok)
      else match fuel with
           | O => Err RecursionError
           | S f =>
               let klist := map fst (skipn (S y) rlist) in
               topcand f (flat_map (fun k => match dget k prefs with Some p => [(k, p)] | None => [] end) klist)
           end
  end.

(** The dict mymeta, irvtally.py:107-142, 163-209 and 216-223 *)
Record irvmeta := IrvMeta {
  im_roundnum : nat;
  im_startingqty : Z;
  im_exhaustedqty : Z;
  im_overvoteqty : Z;
  im_ballotcount : Z;
  im_countedqty : Z;
  im_bottom_votes_percand : Z;
  im_leading_votes_percand : Z;
  im_penultimate_votes_percand : Z;
  im_starting_cands : list str;
  im_top_voteqty : Z;
  im_bottom_voteqty : Z;
  im_bottomtie : option (list str);   (* also 'tiecandlist' *)
  im_batch_elim : bool;
  im_random_elim : bool;
  im_eliminated : list str;           (* in the final round a Python set *)
  im_all_eliminated : list str;       (* a Python set *)
  im_winner : option (list str)
}.

(** State of the counting loop: roundcount, ballotcount, exhaustedqty. (irvtally.py:120-127) *)
Definition count_step (st : dict Z * Z * Z) (l : voteline) : result (dict Z * Z * Z) :=
  let '(rc, bc, ex) := st in
  let* rcand := topcand (length (v_prefs l)) (v_prefs l) in
  let rqty := v_qty l in
  match rcand with
  | Some ((_ :: _) as c) =>                    (* "if rcand:" - the empty string is false *)
      let* rc' := dmodE c (fun x => x + rqty) rc in
      Ok (rc', bc + rqty, ex)
  | _ => Ok (rc, bc + rqty, ex + rqty)
  end.

(** set.add / set.update on the list representing a set (irvtally.py:204-209) *)
Definition set_add (s : list str) (c : str) : list str := if memb c s then s else s ++ [c].
(** set.update, irvtally.py:204-209 *)
Definition set_update (s cs : list str) : list str := fold_left set_add cs s.

(** set(a) - set(b) as a list (irvtally.py:180-196 and 217-223) *)
Definition set_minus (a b : list str) : list str := filter (fun c => negb (memb c b)) a.

(** Pieces of _irv_count_internal that do not recurse. (irvtally.py:103-142) *)
Record roundinfo := RoundInfo {
  ri_roundcount : dict Z;
  ri_pruned : list voteline;
  ri_overvotes : Z;
  ri_ballotcount : Z;
  ri_exhausted : Z;
  ri_total : Z;
  ri_min : Z;
  ri_max : Z;
  ri_penult : Z
}.

(** irvtally.py:97-142 (parts 1-4): the count of one round. *)
Definition irv_round (candlist : list str) (votelines : list voteline) : result roundinfo :=
  let rc0 := fold_left (fun d c => dset c 0 d) candlist [] in
  let* (ov, pruned) := discard_overvotes votelines in
  let* (rc, bc, ex) := foldM count_step pruned (rc0, 0, 0) in
  let total := zsum (dvals rc) in
  let* mn := py_min (dvals rc) in
  let* mx := py_max (dvals rc) in
  let* pen := if mn =? mx then Ok mx else py_min (filter (fun v => v >? mn) (dvals rc)) in
  Ok (RoundInfo rc pruned ov bc ex total mn mx pen).

(** bottomcands, irvtally.py:147 *)
Definition bottom_cands (ri : roundinfo) : list str :=
  map fst (filter (fun cv => snd cv <=? ri_min ri) (ri_roundcount ri)).

(** winner, irvtally.py:214, 220 *)
Definition max_cands (ri : roundinfo) : list str :=
  map fst (filter (fun cv => snd cv =? ri_max ri) (ri_roundcount ri)).

(** irvtally.py:158-199: who goes, how ('bottomtie', 'batch_elim', 'random_elim', 'eliminated',
    thisroundloserlist with [None] for the list [None]). *)
Record elimdec := ElimDec {
  ed_bottomtie : option (list str);
  ed_batch : bool;
  ed_random : bool;
  ed_eliminated : list str;
  ed_loserlist : option (list str)
}.

(** irvtally.py:147-199: whom this round eliminates, and how *)
Definition elim_decision (o : oracle) (roundnum : nat) (ri : roundinfo) : elimdec :=
  let bottomcands := bottom_cands ri in
  if (1 <? length bottomcands)%nat then
    let bottomvotestot := zsum (map (fun c => match dget c (ri_roundcount ri) with Some v => v | None => 0 end) bottomcands) in
    if bottomvotestot <=? ri_penult ri then
      ElimDec (Some bottomcands) true false bottomcands None
    else
      let unlucky := nth (Nat.modulo (o_choice o roundnum) (length bottomcands)) bottomcands [] in
      ElimDec (Some bottomcands) false true [unlucky] (Some [unlucky])
  else ElimDec None false false bottomcands (Some bottomcands).

(** irvtally.py:200-209: 'all_eliminated'; [prev] is the previous round's set, if any. *)
Definition all_elim (prev : option (list str)) (ed : elimdec) : list str :=
  let s0 := [] in
  let s1 := match prev with Some p => set_update (set_update s0 p) (ed_eliminated ed) | None => s0 end in
  match ed_loserlist ed with Some l => set_update s1 l | None => s1 end.

(** _irv_count_internal, irvtally.py:88-232.  [fuel] bounds the number of rounds; [prevall] is the
    previous round's all_eliminated.  The comparison with total_votes/2 is exact here (float in
    Python).  Results: winner list, rounds, roundmeta (from this round on). *)
Fixpoint irv_count (fuel : nat) (o : oracle) (roundnum : nat) (prevall : option (list str))
    (candlist : list str) (votelines : list voteline)
  : result (list str * list (dict Z) * list irvmeta) :=
  match fuel with
  | O => Err RecursionError
  | S f =>
      let* ri := irv_round candlist votelines in
      let ed := elim_decision o roundnum ri in
      let alle := all_elim prevall ed in
      let meta elim win :=
        IrvMeta roundnum (zsum (map v_qty votelines)) (ri_exhausted ri) (ri_overvotes ri)
          (ri_ballotcount ri) (ri_total ri - ri_exhausted ri) (ri_min ri) (ri_max ri) (ri_penult ri)
          candlist (ri_min ri) (ri_max ri)
          (ed_bottomtie ed) (ed_batch ed) (ed_random ed) elim alle win in
      if ri_min ri =? ri_max ri then
        let w := max_cands ri in
        Ok (w, [ri_roundcount ri], [meta (set_minus candlist w) (Some w)])
      else if 2 * ri_max ri >? ri_total ri then
        let w := max_cands ri in
        Ok (w, [ri_roundcount ri], [meta (set_minus candlist w) (Some w)])
      else
        let nextcands := o_order o roundnum (set_minus candlist (ed_eliminated ed)) in
        let nextvotelines := eliminate_cands (ed_eliminated ed) (ri_pruned ri) in
        let* (w, rounds, metas) := irv_count f o (S roundnum) (Some alle) nextcands nextvotelines in
        Ok (w, ri_roundcount ri :: rounds, meta (ed_eliminated ed) None :: metas)
  end.

(** The dict IRV_dict_from_jabmod returns, irvtally.py:235-253 *)
Record irvdict := IrvDict {
  ir_canddict : dict str;
  ir_winner : list str;
  ir_rounds : list (dict Z);
  ir_roundmeta : list irvmeta;
  ir_winnerstr : str;
  ir_has_tie : bool
}.

(** IRV_dict_from_jabmod, irvtally.py:235-253 *)
Definition IRV_dict_from_jabmod (o : oracle) (m : jabmod) : result irvdict :=
  let canddict := j_candidates m in
  let candlist := dkeys canddict in
  let* (winner, rounds, roundmeta) := irv_count (S (length candlist)) o 1 None candlist (j_votelines m) in
  let* winnerstr :=
    if (1 <? length winner)%nat then
      let* names := mapM (fun w => dgetE w canddict) (sort_str winner) in
      Ok (join (u " and ") names)
    else
      let* w := of_option IndexError (nth_error winner 0) in
      dgetE w canddict in
  Ok (IrvDict canddict winner rounds roundmeta winnerstr
        (existsb (fun rm => match im_bottomtie rm with Some _ => true | None => false end) roundmeta)).

(** A line feed, as in the report of irvtally.py:255-281 *)
Definition nl : str := [10%N].

(** One round of get_IRV_report, irvtally.py:261-275.  rounds[i] and roundmeta[i] are paired. *)
Definition irv_round_text (i : nat) (rc : dict Z) (rm : irvmeta) : str :=
  nl ++ u "Round " ++ n2s (N.of_nat (S i)) ++ u ":" ++ nl
  ++ u "  Starting cands: " ++ join (u ", ") (sort_str (im_starting_cands rm)) ++ nl
  ++ u "  Total starting votes: " ++ z2s (im_startingqty rm) ++ nl
  ++ u "  Exhausted votes: " ++ z2s (im_exhaustedqty rm) ++ nl
  ++ u "  Overvotes: " ++ z2s (im_overvoteqty rm) ++ nl
  ++ u "  Total counted votes: " ++ z2s (im_countedqty rm) ++ nl
  ++ u "  Votes by candidate:" ++ nl
  ++ concat (map (fun cv => u "    " ++ fst cv ++ u ": " ++ z2s (snd cv) ++ nl) rc)
  ++ u "  Eliminated this round: " ++ join (u ", ") (sort_str (im_eliminated rm)) ++ nl.

(** irvtally.py:261-275: the rounds, one after the other *)
Fixpoint irv_rounds_text (i : nat) (rounds : list (dict Z)) (metas : list irvmeta) : result str :=
  match rounds with
  | [] => Ok []
  | rc :: r =>
      match metas with
      | [] => Err IndexError
      | rm :: ms => let* t := irv_rounds_text (S i) r ms in Ok (irv_round_text i rc rm ++ t)
      end
  end.

(** get_IRV_report, irvtally.py:255-281 *)
Definition get_IRV_report (d : irvdict) : result str :=
  let* body := irv_rounds_text 0 (ir_rounds d) (ir_roundmeta d) in
  if (1 <? length (ir_winner d))%nat then
    Ok (body ++ u "The IRV winners are " ++ join (u " and ") (sort_str (ir_winner d)) ++ nl)
  else
    let* w := of_option IndexError (nth_error (ir_winner d) 0) in
    Ok (body ++ u "The IRV winner is " ++ w ++ nl).
