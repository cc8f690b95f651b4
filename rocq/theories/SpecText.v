(** Specification vocabulary for properties of the tokens of texts, for any of the four iterators. *)
From Verif Require Import Base SpecUtf8 SpecIter SpecApi SpecRules SpecNest.

(** C28: the tokens of well-formed text are well-formed. *)
Definition tokens_well_formed (A : api) : Prop := forall d fuel, well_formed d -> length d < fuel ->
  exists l, tokens A fuel (a_new A d) = Ok l /\ Forall well_formed l.

(** C32: text up to a line feed can be segmented without looking at what follows. *)
Definition line_by_line (A : api) : Prop := forall a b fuel, well_formed (a ++ [10%N]) -> whole_start b -> length ((a ++ [10%N]) ++ b) < fuel ->
  exists la lb, tokens A fuel (a_new A (a ++ [10%N])) = Ok la /\ tokens A fuel (a_new A b) = Ok lb
    /\ tokens A fuel (a_new A ((a ++ [10%N]) ++ b)) = Ok (la ++ lb).

(** C43: no boundary between CR and LF; a boundary after LF; a boundary before LF unless CR comes before it. *)
Definition crlf_kept (A : api) : Prop := forall b a fuel, scalars (b ++ [13; 10]%N ++ a) -> length (encode (b ++ [13; 10]%N ++ a)) < fuel ->
  exists l, tokens A fuel (a_new A (encode (b ++ [13; 10]%N ++ a))) = Ok l /\ ~ boundary l (length (encode b) + 1).
Definition lf_breaks_after (A : api) : Prop := forall b a fuel, scalars (b ++ 10%N :: a) -> length (encode (b ++ 10%N :: a)) < fuel ->
  exists l, tokens A fuel (a_new A (encode (b ++ 10%N :: a))) = Ok l /\ boundary l (length (encode b) + 1).
Definition lf_breaks_before (A : api) : Prop := forall b a fuel, scalars (b ++ 10%N :: a) -> length (encode (b ++ 10%N :: a)) < fuel ->
  last_char b <> Some 13%N ->
  exists l, tokens A fuel (a_new A (encode (b ++ 10%N :: a))) = Ok l /\ boundary l (length (encode b)).
