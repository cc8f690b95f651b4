(** Specification vocabulary: what a client sees who runs
      [for it.Next() { observe it }]
    and what it means to cut a text with a split function alone. *)
From Verif Require Import Base.

(** The client's loop.  [obs] is what is recorded after each [Next] that returned true, e.g. [Value].  The result
    is [Ok l] only when [Next] returned false after exactly [length l] times true, and nothing panicked. *)
Fixpoint collect {It O : Type} (next : It -> res (bool * It)) (obs : It -> res O) (fuel : nat) (it : It)
  : res (list O) :=
  match fuel with
  | O => OutOfFuel
  | S fuel' =>
    ' (more, it') <- next it ;;
    if more : bool then
      o <- obs it' ;;
      rest <- collect next obs fuel' it' ;;
      Ok (o :: rest)
    else Ok []
  end.

(** The tokens obtained by calling a split function again and again on the rest of the data, with atEOF = true. *)
Fixpoint chop (f : splitfun) (fuel : nat) (d : bytes) : res (list bytes) :=
  match fuel with
  | O => OutOfFuel
  | S fuel' =>
    if is_nil d then Ok []
    else
      o <- f d true ;;
      match so_token o with
      | Some tok =>
        rest <- chop f fuel' (skipn (Z.to_nat (so_advance o)) d) ;;
        Ok (tok :: rest)
      | None => Panic
      end
  end.

(** [spans data l]: the byte spans in [l] start at 0, follow each other without gap or overlap, and end at the
    end of [data]; each value is the text of its span and is not empty. *)
Fixpoint spans_from (data : bytes) (pos : nat) (l : list (bytes * nat * nat)) : Prop :=
  match l with
  | [] => pos = length data
  | (v, s, e) :: rest => s = pos /\ s < e <= length data /\ v = firstn (e - s) (skipn s data) /\ spans_from data e rest
  end.
Definition spans (data : bytes) (l : list (bytes * nat * nat)) : Prop := spans_from data 0 l.
