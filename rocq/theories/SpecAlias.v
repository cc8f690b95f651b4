(** Specification: writing to tokens one has been given. *)
From Verif Require Import Base SpecIter SpecApi Scanner Alias.

Definition no_append {C} (a : act C) : Prop := match a with AAppend _ _ => False | _ => True end.
Definition is_store {C} (a : act C) : bool := match a with AStore _ _ _ => true | _ => false end.
(** Whatever the client writes into the tokens they have been given, before or between the calls that follow: all tokens, and where they are, are the same as
    without the writing. *)
Definition writing_is_harmless (A : api) (over : It A -> bytes -> It A) : Prop :=
  forall acts w mem, fits mem w -> Forall no_append acts ->
  exists l, client A over acts w [] (a_new A (content mem w)) mem = Ok l
    /\ client A over (filter (fun a => negb (is_store a)) acts) w [] (a_new A (content mem w)) mem = Ok l.
(** Replacing each token by something as long, in place, replaces all tokens of the text as it was, and changes nothing outside the text.  [cs]: settings made before. *)
Definition transforms_in_place (A : api) (over : It A -> bytes -> It A) : Prop :=
  forall cs f w mem fuel, fits mem w -> (forall t, length (f t) = length t) -> w_len w < fuel ->
  let it := fold_left (a_config A) cs (a_new A (content mem w)) in
  exists toks, tokens A fuel it = Ok toks
    /\ transform A over fuel f w it mem = Ok (firstn (w_off w) mem ++ concat (map f toks) ++ skipn (w_off w + w_len w) mem).
(** The tokens of a Reader: what the client does to them, and what the Reader does to the rest of the buffer, has no effect. *)
Definition buffer_is_private (f : splitfun) : Prop :=
  forall rd scratch hand fuel s r, sc_split s = f -> sc_start s <= sc_end s <= length (sc_buf s) ->
  scan_all_s rd scratch hand fuel 0 s r = scan_all rd fuel s r.
