(** Specification vocabulary for C52: a Scanner as its client sees it. *)
From Verif Require Import Base Scanner SpecReader.

(** What the client can see after a call of Scan: its result, Bytes (or Text) and Err. *)
Record seen := { sn_more : bool; sn_token : bytes; sn_err : option serr }.

(** [n] calls of Scan, whatever they return. *)
Fixpoint scans (rd : reader) (fuel n : nat) (s : scanner) (r : rd_St rd) : res (list seen) :=
  match n with
  | O => Ok []
  | S n' =>
    ' (b, s', r') <- Scan rd fuel s r ;;
    l <- scans rd fuel n' s' r' ;;
    Ok ({| sn_more := b; sn_token := Bytes s'; sn_err := Err s' |} :: l)
  end.

(** The promises of the Scanner, for any number of calls, also after Scan has returned false. *)
Record promises (d : bytes) (l : list seen) : Prop := {
  (** a token is never empty, and there is one exactly when Scan returned true; *)
  p_token : forall o, In o l -> (sn_more o = true <-> sn_token o <> []);
  (** the tokens are consecutive, from the start of the data; *)
  p_prefix : exists rest, d = concat (map sn_token l) ++ rest;
  (** an error stays; *)
  p_error : forall i j o o', i < j -> nth_error l i = Some o -> nth_error l j = Some o' -> sn_err o <> None -> sn_err o' = sn_err o;
  (** after false nothing changes, unless the buffer was too small. *)
  p_end : forall i j o o', i < j -> nth_error l i = Some o -> nth_error l j = Some o' -> sn_more o = false -> sn_err o <> Some ErrTooLong -> o' = o
}.
Definition keeps_promises (f : splitfun) : Prop :=
  forall rd r d e s fuel n, delivers rd r d e -> fresh_scanner f s -> length d + 2 < fuel ->
  exists l, scans rd fuel n s r = Ok l /\ length l = n /\ promises d l.

(** The calls that configure a Scanner. *)
Inductive setting := Set_buffer (buf : bytes) (max : N) | Set_split (f : splitfun).
Definition set_one (s : scanner) (c : setting) : res scanner :=
  match c with Set_buffer buf max => Buffer s buf max | Set_split f => Split s f end.
Fixpoint configure (s : scanner) (cs : list setting) : res scanner :=
  match cs with [] => Ok s | c :: cs' => s' <- set_one s c ;; configure s' cs' end.
(** The split function that was set last. *)
Fixpoint last_split (f : splitfun) (cs : list setting) : splitfun :=
  match cs with [] => f | Set_buffer _ _ :: cs' => last_split f cs' | Set_split g :: cs' => last_split g cs' end.
