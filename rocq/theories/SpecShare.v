(** Specification: several clients with iterators of the packages, in one memory, taking turns in any order. *)
From Coq Require Import String.
From Verif Require Import SpecIter SpecApi ApiInst.
From Verif Require Import Base GoSyntax GoSem SpecCode SpecCode2 SpecIterators.
From Verif Require CodeGraphemes Words.
Local Open Scope string_scope.
Local Open Scope list_scope.

(** A client has a text, from which they make one iterator, and then makes the uses listed of it, in that order.  The one of internal/iterators also has a split function. *)
Inductive client :=
| CGraphemes (t : text) (us : list (use (bool * bool)))
| CWords (t : text) (us : list (use (option Words.Joiners + splitfun)))
| CSentences (t : text) (us : list (use Empty_set))
| CPhrases (t : text) (us : list (use Empty_set))
| CIterators (f : splitfun) (t : text) (us : list (use splitfun)).
Definition proper_client (max : nat) (c : client) : Prop :=
  exists str, match c with
  | CGraphemes t us => proper str max t /\ Forall (use_proper str max) us
  | CWords t us => proper str max t /\ Forall (any_use_proper str max) us
  | CSentences t us => proper str max t /\ Forall (use_proper str max) us
  | CPhrases t us => proper str max t /\ Forall (use_proper str max) us
  | CIterators f t us => returns_ints f /\ proper str max t /\ Forall (it_use_proper str max) us
  end.

(** What a client has in hand: the iterator, once it is made, and what the uses so far have returned. *)
Record progress := { pr_it : option val; pr_seen : list (list val) }.
Definition nothing : progress := {| pr_it := None; pr_seen := [] |}.
Fixpoint replace_nth {A} (i : nat) (x : A) (l : list A) : list A :=
  match l, i with
  | [], _ => []
  | _ :: r, O => x :: r
  | y :: r, S i => y :: replace_nth i x r
  end.

Section Programs.
  Variables pg pw ps pp pi : program.
  Variable nils : bool.
  Variables rounds depth : nat.
  (** The call that makes the iterator. *)
  Definition make (p : program) (t : text) (h : heap) : out (list val * heap) := call p rounds depth ("", if is_string (fst t) then "FromString" else "FromBytes") [text_val t] h.
  Definition start (c : client) : heap -> out (list val * heap) :=
    match c with
    | CGraphemes t _ => make pg t
    | CWords t _ => make pw t
    | CSentences t _ => make ps t
    | CPhrases t _ => make pp t
    | CIterators f t _ => call pi rounds depth ("", "New") [VExt f; text_val t]
    end.
  (** The calls that come after it. *)
  Definition calls (c : client) : list (val -> heap -> out (list val * heap)) :=
    match c with
    | CGraphemes _ us => map (fun u it => go_use graphemes_api pg rounds depth (CodeGraphemes.graphemes_config pg rounds depth) it u) us
    | CWords _ us => map (fun u it => go_use words_any pw rounds depth (words_any_config nils pw rounds depth) it u) us
    | CSentences _ us => map (fun u it => go_use sentences_api ps rounds depth (no_config ps rounds depth) it u) us
    | CPhrases _ us => map (fun u it => go_use phrases_api pp rounds depth (no_config pp rounds depth) it u) us
    | CIterators _ _ us => map (fun u it => go_it_use pi rounds depth it u) us
    end.
  (** One turn of a client: the first makes the iterator, the others make one use of it each.  A client who has made them all does nothing. *)
  Definition turn (c : client) (s : progress) (h : heap) : out (progress * heap) :=
    match pr_it s with
    | None => ' (vs, h) <== start c h ;; match vs with [it] => Done ({| pr_it := Some it; pr_seen := [] |}, h) | _ => Stuck end
    | Some it =>
        match nth_error (calls c) (length (pr_seen s)) with
        | Some u => ' (vs, h) <== u it h ;; Done ({| pr_it := Some it; pr_seen := pr_seen s ++ [vs] |}, h)
        | None => Done (s, h)
        end
    end.
  (** A schedule says whose turn it is. *)
  Fixpoint interleave (cs : list client) (sched : list nat) (ss : list progress) (h : heap) : out (list progress * heap) :=
    match sched with
    | [] => Done (ss, h)
    | i :: sched =>
        match nth_error cs i, nth_error ss i with
        | Some c, Some s => ' (s, h) <== turn c s h ;; interleave cs sched (replace_nth i s ss) h
        | _, _ => interleave cs sched ss h
        end
    end.
  (** What the first [k] uses of a client return if nobody else is there. *)
  Definition alone (c : client) (k : nat) (h : heap) : out (list (list val)) :=
    match c with
    | CGraphemes t us => go_client graphemes_api pg rounds depth (CodeGraphemes.graphemes_config pg rounds depth) t (firstn k us) h
    | CWords t us => go_client words_any pw rounds depth (words_any_config nils pw rounds depth) t (firstn k us) h
    | CSentences t us => go_client sentences_api ps rounds depth (no_config ps rounds depth) t (firstn k us) h
    | CPhrases t us => go_client phrases_api pp rounds depth (no_config pp rounds depth) t (firstn k us) h
    | CIterators f t us => go_it_client pi rounds depth f t (firstn k us) h
    end.
End Programs.

Definition turns (i : nat) (sched : list nat) : nat := count_occ Nat.eq_dec sched i.
(** The clients do not disturb each other: after any schedule each has seen what they would have seen alone, in any memory; nothing that was in memory before has changed;
    and a schedule comes to its end if each client alone would come to the end of their part. *)
Definition undisturbed (pg pw ps pp pi : program) (least : nat) : Prop :=
  forall nils rounds depth max cs sched h, Forall (proper_client max) cs -> (Z.of_nat max < 2 ^ 62)%Z -> (2 * max + 2 <= rounds)%nat -> (least <= depth)%nat ->
  let run := interleave pg pw ps pp pi nils rounds depth cs sched (map (fun _ => nothing) cs) h in
  let own := alone pg pw ps pp pi nils rounds depth in
  (forall ss h', run = Done (ss, h') ->
     (forall l x, hget l h = Some x -> hget l h' = Some x)
     /\ forall i c, nth_error cs i = Some c -> exists s, nth_error ss i = Some s
        /\ match turns i sched with O => s = nothing | S k => forall h0, own c k h0 = Done (pr_seen s) end)
  /\ ((forall i c k, nth_error cs i = Some c -> turns i sched = S k -> exists h0 l, own c k h0 = Done l) -> exists ss h', run = Done (ss, h')).
(** Clients whose split functions are those of the packages. *)
Definition settled (c : client) : Prop :=
  match c with
  | CWords _ us => forall f, ~ In (UConfig (inr f)) us
  | CIterators _ _ _ => False
  | _ => True
  end.
