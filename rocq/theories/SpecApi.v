(** Specification vocabulary: an iterator API as seen by a client, histories of calls, and what the client expects. *)
From Verif Require Import Base SpecIter.

(** The methods shared by the four iterators.  [Cfg] are the settings a client can change between calls (flags,
    joiners). *)
Record api := {
  It : Type;
  Cfg : Type;
  a_new : bytes -> It;
  a_next : It -> res (bool * It);
  a_value : It -> res bytes;
  a_start : It -> nat;
  a_end : It -> nat;
  a_reset : It -> It;
  a_settext : It -> bytes -> It;
  a_first : It -> res (bytes * It);
  a_config : It -> Cfg -> It
}.

(** A call made by the client. *)
Inductive call (C : Type) :=
| CNext | CReset | CSetText (d : bytes) | CFirst | CConfig (c : C).
Arguments CNext {C}.
Arguments CReset {C}.
Arguments CSetText {C} d.
Arguments CFirst {C}.
Arguments CConfig {C} c.

Section Api.
  Variable A : api.

  Definition do_call (it : It A) (c : call (Cfg A)) : res (It A) :=
    match c with
    | CNext => ' (_, it') <- a_next A it ;; Ok it'
    | CReset => Ok (a_reset A it)
    | CSetText d => Ok (a_settext A it d)
    | CFirst => ' (_, it') <- a_first A it ;; Ok it'
    | CConfig k => Ok (a_config A it k)
    end.

  (** A history of calls; the outcome is [Panic] as soon as one of them panics. *)
  Fixpoint history (cs : list (call (Cfg A))) (it : It A) : res (It A) :=
    match cs with
    | [] => Ok it
    | c :: rest => it' <- do_call it c ;; history rest it'
    end.

  (** The text and the settings after a history, by looking at the calls only. *)
  Fixpoint text_after (cs : list (call (Cfg A))) (d : bytes) : bytes :=
    match cs with
    | [] => d
    | CSetText d' :: rest => text_after rest d'
    | _ :: rest => text_after rest d
    end.
  Fixpoint configs_of (cs : list (call (Cfg A))) : list (call (Cfg A)) :=
    match cs with
    | [] => []
    | CConfig k :: rest => CConfig k :: configs_of rest
    | _ :: rest => configs_of rest
    end.

  (** All tokens from here on, with their positions. *)
  Definition observe (it : It A) : res (bytes * nat * nat) :=
    v <- a_value A it ;; Ok (v, a_start A it, a_end A it).
  Definition tokens (fuel : nat) (it : It A) : res (list bytes) := collect (a_next A) (a_value A) fuel it.
  Definition spans_of (fuel : nat) (it : It A) : res (list (bytes * nat * nat)) := collect (a_next A) observe fuel it.

  (** Calling Next k more times. *)
  Fixpoint next_times (k : nat) (it : It A) : res (It A) :=
    match k with O => Ok it | S k' => ' (_, it') <- a_next A it ;; next_times k' it' end.
End Api.

(** The text of a token list with positions. *)
Definition texts (l : list (bytes * nat * nat)) : list bytes := map (fun x => fst (fst x)) l.
