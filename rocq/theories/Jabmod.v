(** * Jabmod: the "jabmod" data structure (JSON ABIF MODel) passed between all functions.

    core.py:199-207 creates it, core.py:399-430 fills it. *)

From Verif Require Export PyBase.

(** JSON values occurring in jabmod metadata.  Simplification: no floats. (core.py:183) *)
Inductive json :=
| JNull
| JBool (b : bool)
| JInt (z : Z)
| JStr (s : str)
| JArr (l : list json)
| JObj (l : list (str * json)).

(** A rating as stored: [int] (core.py:330, widj) or decimal [str] (core.py:317-320). *)
Inductive ratingval :=
| RInt (z : Z)
| RStr (s : str).

(** int(rating) (core.py:220 and 227) *)
Definition rating_int (r : ratingval) : result Z :=
  match r with RInt z => Ok z | RStr s => py_int s end.

(** f"{rating}" (core.py:531-568) *)
Definition rating_str (r : ratingval) : str :=
  match r with RInt z => z2s z | RStr s => s end.

(** Python truth value of a rating: 0 and "" are false (core.py:265, 374). *)
Definition rating_truthy (r : ratingval) : bool :=
  match r with RInt z => negb (Z.eqb z 0) | RStr s => negb (str_eqb s []) end.

(** The per-candidate dict of a voteline: keys "rank", "rating", "nextdelim" (core.py:373-385).
    Simplification: a key whose value is JSON null is treated as absent, and other keys a JSON
    jabmod might carry are dropped. *)
Record pref := Pref {
  p_rank : option Z;
  p_rating : option ratingval;
  p_nextdelim : option N
}.

(** The empty dict of core.py:373 *)
Definition empty_pref : pref := Pref None None None.
(** Not in /repo: a preference with a rank only. *)
Definition ranked (r : Z) : pref := Pref (Some r) None None.
(** prefs[c]['rank'] = r, core.py:237 and 378-380 *)
Definition set_rank (r : Z) (p : pref) : pref := Pref (Some r) (p_rating p) (p_nextdelim p).
(** prefs[c]['rating'] = r, core.py:267-269 and 375 *)
Definition set_rating (r : ratingval) (p : pref) : pref := Pref (p_rank p) (Some r) (p_nextdelim p).
(** prefs[c]['nextdelim'] = d, core.py:383-385 *)
Definition set_nextdelim (d : N) (p : pref) : pref := Pref (p_rank p) (p_rating p) (Some d).

(** One voteline (core.py:414-425): keys "qty", "prefs", and optionally "comment", "prefstr",
    "voterid", and "nameq" for lines read from a nameq file (nameq.py:35-39). *)
Record voteline := Voteline {
  v_qty : Z;
  v_prefs : dict pref;
  v_comment : option str;
  v_prefstr : option str;
  v_voterid : option str;
  v_nameq : option str
}.

(** A voteline carrying only qty and prefs. (core.py:667-679) *)
Definition vl (q : Z) (p : dict pref) : voteline := Voteline q p None None None None.
(** voteline['prefs'] = p (irvtally.py:11-18) *)
Definition with_prefs (v : voteline) (p : dict pref) : voteline :=
  Voteline (v_qty v) p (v_comment v) (v_prefstr v) (v_voterid v) (v_nameq v).
(** voteline['qty'] = q (core.py:675) *)
Definition with_qty (v : voteline) (q : Z) : voteline :=
  Voteline q (v_prefs v) (v_comment v) (v_prefstr v) (v_voterid v) (v_nameq v).

(** The jabmod, core.py:199-207; candidates by token *)
Record jabmod := Jabmod {
  j_metadata : dict json;
  j_candidates : dict str;
  j_votelines : list voteline
}.

(** The key of core.py:205 *)
Definition k_ballotcount : str := u "ballotcount".

(** core.py:199-207 *)
Definition emptyish : jabmod := Jabmod [(k_ballotcount, JInt 0)] [] [].
