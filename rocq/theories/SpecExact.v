(** Specification: exactly where sentences end. *)
From Verif Require Import Base SpecUcd SpecRules SpecSentences SpecStop.

(** The last characters but marks: [T] followed by characters of [C]. *)
Definition tailed (T C : N -> Prop) (s : text) : Prop := exists p t m, s = p ++ t :: m /\ T t /\ Forall C m.
(** A terminator and closing characters, without a space; a full stop with nothing but marks after it; and such a full stop after a letter that has case. *)
Definition ends_tight (s : text) : Prop := tailed terminator (fun c => SB c = SB_Close \/ s_mark c) s.
Definition ends_dot (s : text) : Prop := tailed full_stop s_mark s.
Definition cased (c : N) : Prop := SB c = SB_Upper \/ SB c = SB_Lower.
Definition ends_dotted_letter (s : text) : Prop := exists p m, s = p ++ m /\ tailed cased s_mark p /\ exists t m', m = t :: m' /\ full_stop t /\ Forall s_mark m'.

(** Between [s] and [y :: a] a sentence ends. *)
Definition sentence_ends (s : text) (y : N) (a : text) : Prop :=
  ends_separated s /\ ~ ((exists s' c, s = s' ++ [c] /\ SB c = SB_CR) /\ SB y = SB_LF)
  \/ ends_stopped s /\ may_begin y
     /\ ~ (ends_tight s /\ SB y = SB_Close)              (* a question mark and a closing quote *)
     /\ ~ (ends_dot s /\ SB y = SB_Numeric)              (* 3.5 *)
     /\ ~ (ends_dotted_letter s /\ SB y = SB_Upper)      (* U.S *)
     /\ ~ (ends_full_stop s /\ goes_on_small (y :: a)).  (* e.g. this *)
