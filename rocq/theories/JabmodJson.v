(** * JabmodJson: the jabmod as the Python object json.loads returns and json.dumps receives
    (abiftool.py:177, 240, util.py:39). *)

From Verif Require Import PyBase Jabmod PairwiseModel.
Local Open Scope Z_scope.

(** ** From a Python object to the model's record.  None: the object has no counterpart in the model. *)
(** A key that is missing and a key whose value is null are not distinguished. (abiftool.py:177) *)
Definition member (k : string) (l : dict json) : option json :=
  match dget (u k) l with Some JNull | None => None | Some v => Some v end.
(** Not in /repo: all elements, if each has a counterpart. *)
Fixpoint mapO {A B} (f : A -> option B) (l : list A) : option (list B) :=
  match l with
  | [] => Some []
  | x :: r => match f x, mapO f r with Some y, Some ys => Some (y :: ys) | _, _ => None end
  end.
(** A number of a jabmod (abiftool.py:177) *)
Definition int_of_json (j : json) : option Z := match j with JInt z => Some z | _ => None end.
(** A text of a jabmod (abiftool.py:177) *)
Definition str_of_json (j : json) : option str := match j with JStr s => Some s | _ => None end.
(** A rating: core.py:319 stores a str, core.py:330 an int *)
Definition rating_of_json (j : json) : option ratingval := match j with JInt z => Some (RInt z) | JStr s => Some (RStr s) | _ => None end.
(** nextdelim of core.py:383-385, one character *)
Definition delim_of_json (j : json) : option N := match j with JStr [c] => Some c | _ => None end.
(** An optional member: absent is fine, a value of another kind is not. (abiftool.py:177) *)
Definition opt_member {A} (f : json -> option A) (k : string) (l : dict json) : option (option A) :=
  match member k l with None => Some None | Some v => match f v with Some a => Some (Some a) | None => None end end.
(** The dict of a candidate on a voteline, core.py:373-385 *)
Definition pref_of_json (j : json) : option pref :=
  match j with
  | JObj l =>
      match opt_member int_of_json "rank" l, opt_member rating_of_json "rating" l, opt_member delim_of_json "nextdelim" l with
      | Some r, Some g, Some d => Some (Pref r g d)
      | _, _, _ => None
      end
  | _ => None
  end.
(** Not in /repo: one entry of a dict. *)
Definition entry {A B} (f : A -> option B) (kv : str * A) : option (str * B) :=
  match f (snd kv) with Some b => Some (fst kv, b) | None => None end.
(** A voteline, core.py:414-425 *)
Definition voteline_of_json (j : json) : option voteline :=
  match j with
  | JObj l =>
      match member "qty" l, member "prefs" l with
      | Some (JInt q), Some (JObj ps) =>
          match mapO (entry pref_of_json) ps, opt_member str_of_json "comment" l, opt_member str_of_json "prefstr" l, opt_member str_of_json "voterid" l, opt_member str_of_json "nameq" l with
          | Some prefs, Some c, Some p, Some v, Some n => Some (Voteline q prefs c p v n)
          | _, _, _, _, _ => None
          end
      | _, _ => None
      end
  | _ => None
  end.
(** A jabmod, core.py:199-207 *)
Definition jabmod_of_json (j : json) : option jabmod :=
  match j with
  | JObj l =>
      match member "metadata" l, member "candidates" l, member "votelines" l with
      | Some (JObj md), Some (JObj cs), Some (JArr vs) =>
          match mapO (entry str_of_json) cs, mapO voteline_of_json vs with
          | Some cands, Some votelines => Some (Jabmod md cands votelines)
          | _, _ => None
          end
      | _, _, _ => None
      end
  | _ => None
  end.

(** ** From the model's record to a Python object.  The keys are put in the order in which core.py:203-206 and
    374-424 first assign them; simplification: the order after later reassignments (and in other importers) is not tracked, and
    absent keys are left out where core.py:420 stores a null comment. *)
Definition opt_entry {A} (f : A -> json) (k : string) (o : option A) : list (str * json) :=
  match o with Some a => [(u k, f a)] | None => [] end.
(** A rating for json.dumps (abiftool.py:240) *)
Definition json_of_rating (r : ratingval) : json := match r with RInt z => JInt z | RStr s => JStr s end.
(** The dict of a candidate on a voteline for json.dumps (abiftool.py:240) *)
Definition json_of_pref (p : pref) : json :=
  JObj (opt_entry json_of_rating "rating" (p_rating p) ++ opt_entry JInt "rank" (p_rank p) ++ opt_entry (fun c => JStr [c]) "nextdelim" (p_nextdelim p)).
(** A voteline for json.dumps (abiftool.py:240) *)
Definition json_of_voteline (v : voteline) : json :=
  JObj ([(u "qty", JInt (v_qty v))] ++ opt_entry JStr "comment" (v_comment v)
        ++ [(u "prefs", JObj (map (fun cp => (fst cp, json_of_pref (snd cp))) (v_prefs v)))]
        ++ opt_entry JStr "prefstr" (v_prefstr v) ++ opt_entry JStr "voterid" (v_voterid v) ++ opt_entry JStr "nameq" (v_nameq v)).
(** A jabmod for json.dumps (abiftool.py:240) *)
Definition json_of_jabmod (m : jabmod) : json :=
  JObj [(u "candidates", JObj (map (fun kv => (fst kv, JStr (snd kv))) (j_candidates m))); (u "metadata", JObj (j_metadata m));
        (u "votelines", JArr (map json_of_voteline (j_votelines m)))].

(** The pairwise counts and the win/loss/tie table as Python objects (abiftool.py:232-233, 273-276). *)
Definition json_of_pairmat (m : pairmat) : json :=
  JObj (map (fun row => (fst row, JObj (map (fun c => (fst c, match snd c with Some z => JInt z | None => JNull end)) (snd row)))) m).
(** The win/loss/tie table for json.dumps (abiftool.py:272-276) *)
Definition json_of_wlt (d : dict wlt) : json :=
  JObj (map (fun kw => (fst kw, JObj [(u "wins", JInt (wins (snd kw))); (u "losses", JInt (losses (snd kw))); (u "ties", JInt (ties (snd kw)))])) d).
