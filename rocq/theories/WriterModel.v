(** * WriterModel: the ABIF writer, ranked lists, csv output and consolidation of abiflib/core.py *)

From Verif Require Import PyBase Jabmod UrlText JsonText.
Local Open Scope Z_scope.
Local Open Scope res_scope.

(** _abif_token_quote, core.py:470-479: brackets unless quote_plus leaves the token unchanged. *)
Definition abif_token_quote (tok : str) : result str :=
  let* q := quote_plus tok in
  Ok (if str_eqb q tok then tok else [91%N] ++ tok ++ [93%N]).

(** The optional rating suffix, core.py:515-516 *)
Definition rating_suffix (p : pref) : str :=
  match p_rating p with Some r => 47%N :: rating_str r | None => [] end.

(** _prefstr_from_ranked_line, core.py:503-528 ([lastrank] is never read).  The list is sorted by rank,
    every entry has one; the exception for decreasing ranks is kept. *)
Fixpoint prefstr_from_ranked (l : list (str * pref)) : result str :=
  match l with
  | [] => Ok []
  | (name, p) :: rest =>
      let* q := abif_token_quote name in
      match rest with
      | [] => Ok (q ++ rating_suffix p)
      | (_, p2) :: _ =>
          let* r1 := of_option KeyError (p_rank p) in
          let* r2 := of_option KeyError (p_rank p2) in
          if r1 <? r2 then let* t := prefstr_from_ranked rest in Ok (q ++ rating_suffix p ++ 62%N :: t)
          else if r1 =? r2 then let* t := prefstr_from_ranked rest in Ok (q ++ rating_suffix p ++ 61%N :: t)
          else Err ValueError
      end
  end.

(** The tier loop of _prefstr_from_ratings, core.py:535-551: [cur] is current_rating, [tier] the current
    tier.  Every entry has a readable rating here (see [votelinestr]). *)
Fixpoint rating_tiers (cur : Z) (tier : list (str * pref)) (l : list (str * pref)) : result (list (list (str * pref))) :=
  match l with
  | [] => Ok (match tier with [] => [] | _ => [tier] end)
  | (name, p) :: rest =>
      let* rating := match p_rating p with Some r => rating_int r | None => Err KeyError end in
      if rating =? cur then rating_tiers cur (tier ++ [(name, p)]) rest
      else
        let* ts := rating_tiers rating [(name, p)] rest in
        Ok (match tier with [] => ts | _ => tier :: ts end)
  end.

(** core.py:553-568: candidates of a tier joined by '=', tiers joined by '>'. *)
Definition tier_text (tier : list (str * pref)) : result str :=
  let* qs := mapM (fun np => let* q := abif_token_quote (fst np) in Ok (q ++ rating_suffix (snd np))) tier in
  Ok (join [61%N] qs).
(** _prefstr_from_ratings, core.py:531-568 *)
Definition prefstr_from_ratings (l : list (str * pref)) : result str :=
  let* tiers := rating_tiers 0 [] l in
  let* ts := mapM tier_text tiers in
  Ok (join [62%N] ts).

(** int(item[1].get('rating')), core.py:582: TypeError if there is none. *)
Definition rating_key (p : pref) : result Z :=
  match p_rating p with Some r => rating_int r | None => Err TypeError end.

(** Order of the tuples (-rating, token), core.py:582-583 *)
Definition rated_leb (x y : Z * (str * pref)) : bool :=
  if fst x =? fst y then str_leb (fst (snd x)) (fst (snd y)) else fst y <? fst x.

(** sorted(prefitems, key=lambda x: x[1]['rank']), core.py:593 *)
Definition sort_by_rank (prefs : dict pref) : result (list (str * pref)) :=
  let* l := mapM (fun kv => let* r := of_option KeyError (p_rank (snd kv)) in Ok (r, kv)) prefs in
  Ok (map snd (sort_asc fst l)).

(** _get_votelinestr_from_jabvoteline, core.py:571-597.  Only TypeError leads to the ranked form. *)
Definition prefs_text (prefs : dict pref) : result str :=
  match mapM (fun kv => let* r := rating_key (snd kv) in Ok (r, kv)) prefs with
  | Ok keyed => prefstr_from_ratings (map snd (sort_by rated_leb keyed))
  | Err TypeError => let* l := sort_by_rank prefs in prefstr_from_ranked l
  | Err e => Err e
  end.
(** _get_votelinestr_from_jabvoteline, core.py:571-597 *)
Definition votelinestr (v : voteline) : result str :=
  let* t := prefs_text (v_prefs v) in
  Ok (z2s (v_qty v) ++ [58%N] ++ t ++ [10%N]).

(** convert_jabmod_to_abif, core.py:438-467 *)
Definition meta_text (fv : str * json) : str :=
  u "{" ++ fst fv ++ u ": " ++ json_dumps (snd fv) ++ u "}" ++ [10%N].
(** core.py:453-456: one candidate line *)
Definition cand_text (tn : str * str) : result str :=
  let* q := abif_token_quote (fst tn) in
  Ok (u "=" ++ q ++ u ":[" ++ snd tn ++ u "]" ++ [10%N]).
(** convert_jabmod_to_abif, core.py:438-468 *)
Definition convert_jabmod_to_abif (m : jabmod) : result str :=
  let* cs := mapM cand_text (j_candidates m) in
  let* vs := mapM votelinestr (j_votelines m) in
  Ok (u "#------- metadata -------" ++ [10%N] ++ concat (map meta_text (j_metadata m)) ++
      u "#------ candlines ------" ++ [10%N] ++ concat cs ++
      u "#------- votelines ------" ++ [10%N] ++ concat vs).

(** Comparison of ratings as list.sort does it: two ints or two strs; mixed is a TypeError. (core.py:496-497) *)
Definition rating_leb (a b : ratingval) : result bool :=
  match a, b with
  | RInt x, RInt y => Ok (x <=? y)
  | RStr x, RStr y => Ok (str_leb x y)
  | _, _ => Err TypeError
  end.

(** ranklist_from_jabmod_voteline, core.py:482-500.  The sort by rating compares the stored values: when
    they are all ints it is numeric, when they are all strs it is alphabetical ("10" < "9"); a mixture of
    the two on a line with more than one candidate raises TypeError. *)
Definition all_int_ratings (prefs : dict pref) : option (list (Z * str)) :=
  fold_right (fun kv acc => match p_rating (snd kv), acc with
                            | Some (RInt z), Some l => Some ((z, fst kv) :: l)
                            | _, _ => None
                            end) (Some []) prefs.
(** core.py:482-500: the ratings, if all of them are strs *)
Definition all_str_ratings (prefs : dict pref) : option (list (str * str)) :=
  fold_right (fun kv acc => match p_rating (snd kv), acc with
                            | Some (RStr s), Some l => Some ((s, fst kv) :: l)
                            | _, _ => None
                            end) (Some []) prefs.
(** ranklist_from_jabmod_voteline, core.py:482-500 *)
Definition ranklist (v : voteline) : result (list str) :=
  match v_prefs v with
  | [] => Err IndexError
  | (_, p0) :: _ =>
      let firstrank := match p_rank p0 with Some r => negb (r =? 0) | None => false end in
      let firstrating := match p_rating p0 with Some r => rating_truthy r | None => false end in
      if firstrank then
        let* l := sort_by_rank (v_prefs v) in Ok (map fst l)
      else if firstrating then
        if existsb (fun kv => match p_rating (snd kv) with None => true | _ => false end) (v_prefs v) then Err KeyError
        else match all_int_ratings (v_prefs v), all_str_ratings (v_prefs v) with
             | Some l, _ => Ok (map snd (sort_desc fst l))
             | None, Some l => Ok (map snd (sort_by (fun x y => str_leb (fst y) (fst x)) l))
             | None, None => Err TypeError
             end
      else Ok (map fst (v_prefs v))
  end.

(** ** consolidate_jabmod_voteline_objects, core.py:667-680 *)

(** json.dumps(prefs, sort_keys=True): the keys of each dict in order.  As in [pref], only the keys
    nextdelim, rank and rating are represented (already in alphabetical order). (core.py:672) *)
Definition pref_json (p : pref) : json :=
  JObj ((match p_nextdelim p with Some d => [(u "nextdelim", JStr [d])] | None => [] end) ++
        (match p_rank p with Some r => [(u "rank", JInt r)] | None => [] end) ++
        (match p_rating p with Some (RInt z) => [(u "rating", JInt z)]
                             | Some (RStr s) => [(u "rating", JStr s)]
                             | None => [] end)).
(** core.py:672: the key under which identical votelines are merged *)
Definition prefs_key (prefs : dict pref) : str :=
  json_dumps (JObj (map (fun kv => (fst kv, pref_json (snd kv)))
                        (sort_by (fun a b => str_leb (fst a) (fst b)) prefs))).

(** core.py:671-675: one voteline *)
Definition consolidate_step (d : dict voteline) (v : voteline) : dict voteline :=
  let k := prefs_key (v_prefs v) in
  let d1 := if dmem k d then d else dset k (vl 0 (v_prefs v)) d in
  match dget k d1 with
  | Some w => dset k (with_qty w (v_qty w + v_qty v)) d1
  | None => d1
  end.
(** consolidate_jabmod_voteline_objects, core.py:667-679 *)
Definition consolidate (m : jabmod) : jabmod :=
  Jabmod (j_metadata m) (j_candidates m)
    (map snd (fold_left consolidate_step (j_votelines m) [])).

(** ** get_ranking_output_csv, core.py:640-664 *)

(** csv.writer with the default dialect (excel): a field is quoted if it contains a comma, a double quote,
    a carriage return or a newline, or is the only, empty field of its row; quotes are doubled. (core.py:645-659) *)
Definition csv_special (c : N) : bool := N.eqb c 44 || N.eqb c 34 || N.eqb c 13 || N.eqb c 10.
(** csv.writer: a quoted field (core.py:640-664) *)
Definition csv_quote (f : str) : str :=
  [34%N] ++ flat_map (fun c => if N.eqb c 34 then [34%N; 34%N] else [c]) f ++ [34%N].
(** csv.writer: a field (core.py:640-664) *)
Definition csv_field (f : str) : str := if existsb csv_special f then csv_quote f else f.
(** csv.writer: a row (core.py:640-664) *)
Definition csv_row (fields : list str) : str :=
  match fields with
  | [[]] => u """""" ++ [13%N; 10%N]
  | _ => join [44%N] (map csv_field fields) ++ [13%N; 10%N]
  end.

(** f"voter{i:06d}" (core.py:658) *)
Definition pad6 (s : str) : str := repeat 48%N (6 - length s) ++ s.
(** core.py:658: the id of a voter without one *)
Definition auto_voter (i : N) : str := u "voter" ++ pad6 (n2s i).

(** DictWriter.writerow: ValueError for a key that is not a field name (extrasaction 'raise'); missing
    fields are empty.  The key 'voterid' is set last, and so overrides a candidate of that name. (core.py:652-659) *)
Definition csv_ballot (fieldnames : list str) (i : N) (v : voteline) : result (list str) :=
  let* ranks := mapM (fun kv => let* r := of_option KeyError (p_rank (snd kv)) in Ok (fst kv, z2s r)) (v_prefs v) in
  let vid := match v_voterid v with Some ((_ :: _) as s) => s | _ => auto_voter i end in
  let row := dset (u "voterid") vid ranks in
  if forallb (fun kv => memb (fst kv) fieldnames) row then
    Ok (map (fun f => match dget f row with Some x => x | None => [] end) fieldnames)
  else Err ValueError.

(** The rows of one voteline: [n] ballots numbered from [i+1]. (core.py:650-659) *)
Fixpoint csv_ballots (n : nat) (fieldnames : list str) (i : N) (v : voteline) : result (list (list str) * N) :=
  match n with
  | O => Ok ([], i)
  | S n' =>
      let* r := csv_ballot fieldnames (i + 1)%N v in
      let* (rs, j) := csv_ballots n' fieldnames (i + 1)%N v in
      Ok (r :: rs, j)
  end.
(** core.py:648-663: the rows of all votelines *)
Fixpoint csv_lines (fieldnames : list str) (i : N) (ls : list voteline) : result (list (list str)) :=
  match ls with
  | [] => Ok []
  | v :: r =>
      if v_qty v >? 0 then
        let* (rows, j) := csv_ballots (Z.to_nat (v_qty v)) fieldnames i v in
        let* rest := csv_lines fieldnames j r in
        Ok (rows ++ rest)
      else Err VotelineExn
  end.
(** core.py:640-664: header and rows *)
Definition csv_table (m : jabmod) : result (list (list str)) :=
  let fieldnames := u "voterid" :: map fst (j_candidates m) in
  let* rows := csv_lines fieldnames 0 (j_votelines m) in
  Ok (fieldnames :: rows).
(** get_ranking_output_csv, core.py:640-664 *)
Definition get_ranking_output_csv (m : jabmod) : result str :=
  let* rows := csv_table m in
  Ok (concat (map csv_row rows)).
