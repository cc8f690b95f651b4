(** Model of the generated trie lookup: [lookup] and [lookupValue] of <pkg>/trie.go.
    The function bodies are identical in the four packages except for the table names
    (graphemes/trie.go:31-104, words/trie.go:34-107, sentences/trie.go:28-101, phrases/trie.go:33-106),
    so they are modelled once, over the two tables. *)
From Verif Require Import Base.
Local Open Scope N_scope.

(** A Go array of integers written as a keyed composite literal [ [n]T{ i: v, ... } ]: elements that are not
    listed are zero.  Stored as a binary tree so that it can be evaluated. *)
Inductive tree := Lf | Nd (l : tree) (v : N) (r : tree).

Fixpoint tget (p : positive) (t : tree) : N :=
  match t with
  | Lf => 0
  | Nd l v r => match p with xH => v | xO q => tget q l | xI q => tget q r end
  end.

Fixpoint tset (p : positive) (x : N) (t : tree) : tree :=
  match p, t with
  | xH, Lf => Nd Lf x Lf
  | xH, Nd l _ r => Nd l x r
  | xO q, Lf => Nd (tset q x Lf) 0 Lf
  | xO q, Nd l v r => Nd (tset q x l) v r
  | xI q, Lf => Nd Lf 0 (tset q x Lf)
  | xI q, Nd l v r => Nd l v (tset q x r)
  end.

Record arr := { arr_len : N; arr_tree : tree }.

Definition arr_of (n : N) (entries : list (N * N)) : arr :=
  {| arr_len := n;
     arr_tree := fold_left (fun t e => tset (N.succ_pos (fst e)) (snd e) t) entries Lf |}.

(** [a[i]] -- panics when out of range. *)
Definition arr_get (a : arr) (i : N) : res N :=
  if i <? arr_len a then Ok (tget (N.succ_pos i) (arr_tree a)) else Panic.

(** uint32 arithmetic wraps. *)
Definition u32 (x : N) : N := N.land x 0xFFFFFFFF.

(** graphemes/trie.go:99-104 (and the same lines in the other packages). *)
Definition lookupValue (values : arr) (n : N) (b : N) : res N :=
  arr_get values (u32 (u32 (N.shiftl n 6) + b)).

(** [c < 0x80 || 0xC0 <= c]: not a continuation byte. *)
Definition notCont (c : N) : bool := (c <? 0x80) || (0xC0 <=? c).

(** graphemes/trie.go:31-89 (and the same lines in the other packages).  The result is (value, width). *)
Definition lookup (values index : arr) (s : bytes) : res (N * nat) :=
  c0 <- byte_at s 0 ;;
  if c0 <? 0x80 then v <- arr_get values c0 ;; Ok (v, 1%nat)
  else if c0 <? 0xC2 then Ok (0, 1%nat)
  else if c0 <? 0xE0 then
    if (length s <? 2)%nat then Ok (0, 0%nat) else
    i <- arr_get index c0 ;;
    c1 <- byte_at s 1 ;;
    if notCont c1 then Ok (0, 1%nat) else
    v <- lookupValue values i c1 ;; Ok (v, 2%nat)
  else if c0 <? 0xF0 then
    if (length s <? 3)%nat then Ok (0, 0%nat) else
    i <- arr_get index c0 ;;
    c1 <- byte_at s 1 ;;
    if notCont c1 then Ok (0, 1%nat) else
    i <- arr_get index (u32 (u32 (N.shiftl i 6) + c1)) ;;
    c2 <- byte_at s 2 ;;
    if notCont c2 then Ok (0, 2%nat) else
    v <- lookupValue values i c2 ;; Ok (v, 3%nat)
  else if c0 <? 0xF8 then
    if (length s <? 4)%nat then Ok (0, 0%nat) else
    i <- arr_get index c0 ;;
    c1 <- byte_at s 1 ;;
    if notCont c1 then Ok (0, 1%nat) else
    i <- arr_get index (u32 (u32 (N.shiftl i 6) + c1)) ;;
    c2 <- byte_at s 2 ;;
    if notCont c2 then Ok (0, 2%nat) else
    i <- arr_get index (u32 (u32 (N.shiftl i 6) + c2)) ;;
    c3 <- byte_at s 3 ;;
    if notCont c3 then Ok (0, 3%nat) else
    v <- lookupValue values i c3 ;; Ok (v, 4%nat)
  else Ok (0, 1%nat).

(** [lookup.is(properties)]: (lookup & properties) != 0.
    graphemes/splitfunc.go:8-10, words/splitfunc.go:9-11, sentences/splitfunc.go:8-10, phrases/splitfunc.go:8-10. *)
Definition is (v p : N) : bool := negb (N.land v p =? 0).
