(** Specification: how the tables of boundary rules of UAX #29 are read.
    A text is a list of code points.  A rule has a left and a right pattern, either of which may be empty, and an
    operator: × (do not break) or ÷ (break).  At the position between [b] (everything before) and [a] (everything
    after) a rule applies when some suffix of [b] matches its left pattern and some prefix of [a] its right
    pattern.  The first rule that applies decides. *)
From Verif Require Import Base.

Definition text := list N.

(** Patterns. *)
Inductive re :=
| Eps                          (* the empty text *)
| Cls (p : N -> bool)          (* one character of a class *)
| Cat (r s : re)
| Alt (r s : re)
| Star (r : re).
Definition Opt (r : re) : re := Alt r Eps.

Inductive matches : re -> text -> Prop :=
| m_eps : matches Eps []
| m_cls : forall p c, p c = true -> matches (Cls p) [c]
| m_cat : forall r s t u, matches r t -> matches s u -> matches (Cat r s) (t ++ u)
| m_altl : forall r s t, matches r t -> matches (Alt r s) t
| m_altr : forall r s t, matches s t -> matches (Alt r s) t
| m_star0 : forall r, matches (Star r) []
| m_star1 : forall r t u, matches r t -> matches (Star r) u -> matches (Star r) (t ++ u).

(** Left contexts: a suffix of what comes before, or all of it ("sot" in the tables). *)
Inductive left_context := Suffix (r : re) | Sot (r : re).

Inductive op := Join | Break.
Record rule := Rule { r_left : left_context; r_op : op; r_right : re }.

Definition ends_with (r : re) (b : text) : Prop := exists b1 b2, b = b1 ++ b2 /\ matches r b2.
Definition starts_with (r : re) (a : text) : Prop := exists a1 a2, a = a1 ++ a2 /\ matches r a1.
Definition left_applies (l : left_context) (b : text) : Prop :=
  match l with Suffix r => ends_with r b | Sot r => matches r b end.
Definition applies (r : rule) (b a : text) : Prop := left_applies (r_left r) b /\ starts_with (r_right r) a.

(** The first rule that applies decides; [None] when there is none. *)
Inductive says (b a : text) : list rule -> option op -> Prop :=
| says_none : says b a [] None
| says_this : forall r rs, applies r b a -> says b a (r :: rs) (Some (r_op r))
| says_next : forall r rs v, ~ applies r b a -> says b a rs v -> says b a (r :: rs) v.

(** A boundary relation [decides b a o]: at the position between [b] and [a] the rules say [o].
    [segs] is the segmentation of [cps]: non-empty pieces that make up the text, and an inner position is between
    two pieces exactly when the rules say break there.  (Breaking at the start and the end of text is implicit.) *)
Definition segmentation (decides : text -> text -> op -> Prop) (cps : text) (segs : list text) : Prop :=
  concat segs = cps
  /\ Forall (fun s => s <> []) segs
  /\ forall b a, b <> [] -> a <> [] -> cps = b ++ a ->
       ((exists s1 s2, segs = s1 ++ s2 /\ concat s1 = b) <-> decides b a Break).

(** "Treat X (Extend | Format)* as X": a character of the ignored class is removed unless it is at the start of the
    text or right after a character of the [keep] class.  [prev] is the character before the text, if any. *)
Fixpoint reduce (ignored keep : N -> bool) (prev : option N) (t : text) : text :=
  match t with
  | [] => []
  | c :: rest =>
    if ignored c && match prev with Some p => negb (keep p) | None => false end
    then reduce ignored keep (Some c) rest
    else c :: reduce ignored keep (Some c) rest
  end.
Fixpoint last_char (t : text) : option N :=
  match t with [] => None | [c] => Some c | _ :: rest => last_char rest end.

Declare Scope rule_scope.
Delimit Scope rule_scope with rule.
Notation "l × r" := (Rule l Join r) (at level 40, left associativity) : rule_scope.
Notation "l ÷ r" := (Rule l Break r) (at level 40, left associativity) : rule_scope.
(** Any text at all. *)
Definition Any : re := Eps.
(** Union of classes. *)
Definition either (p q : N -> bool) (c : N) : bool := p c || q c.
