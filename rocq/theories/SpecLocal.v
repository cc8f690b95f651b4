(** Specification: the characters that settle what happens next to them, whatever stands further away. *)
From Verif Require Import Base SpecUcd SpecRules.

(** graphemes: anything but a combining mark, a joiner or a flag letter. *)
Definition g_settles (c : N) : Prop := GCB c <> GCB_Extend /\ GCB c <> GCB_ZWJ /\ GCB c <> GCB_Regional_Indicator.

(** words and phrases: anything but a mark, and the punctuation that may stand inside a word or a number; on the left not a flag letter either. *)
Definition w_settles (c : N) : Prop :=
  WB c <> WB_Extend /\ WB c <> WB_Format /\ WB c <> WB_ZWJ
  /\ WB c <> WB_MidLetter /\ WB c <> WB_MidNum /\ WB c <> WB_MidNumLet /\ WB c <> WB_Single_Quote /\ WB c <> WB_Double_Quote.
Definition w_settles_left (c : N) : Prop := w_settles c /\ WB c <> WB_Regional_Indicator.

(** sentences, on the left: anything but a mark, a full stop, a closing character or a space. *)
Definition s_settles_left (c : N) : Prop :=
  SB c <> SB_Extend /\ SB c <> SB_Format /\ SB c <> SB_ATerm /\ SB c <> SB_Close /\ SB c <> SB_Sp.
(** sentences, on the right: a letter, a terminator or a separator. *)
Definition s_settles_right (c : N) : Prop :=
  In (SB c) [SB_OLetter; SB_Upper; SB_Lower; SB_ATerm; SB_STerm; SB_Sep; SB_CR; SB_LF].
