(** Specification: emoji, after UTS #51 section 1.4 (the shapes; which of them are in use is a matter of fonts). *)
From Verif Require Import Base SpecUtf8 SpecUcd SpecRules SpecGraphemes SpecWords SpecNest.
Local Open Scope N_scope.

Definition ZERO_WIDTH_JOINER : N := 0x200D.
Definition pictograph (c : N) : Prop := scalar c /\ ExtPict c = true.
(** A skin tone, the emoji presentation selector, the enclosing keycap, and the tags of a tag sequence. *)
Definition modifier (c : N) : bool :=
  (0x1F3FB <=? c) && (c <=? 0x1F3FF) || (c =? 0xFE0F) || (c =? 0x20E3) || (0xE0020 <=? c) && (c <=? 0xE007F).
(** A pictograph with modifiers. *)
Inductive element : text -> Prop :=
| Element : forall p ms, pictograph p -> Forall (fun m => modifier m = true) ms -> element (p :: ms).
(** Elements joined by ZERO WIDTH JOINER: families, professions and so on. *)
Inductive joined : text -> Prop :=
| Single : forall e, element e -> joined e
| More : forall e s, element e -> joined s -> joined (e ++ ZERO_WIDTH_JOINER :: s).
(** A flag of two regional indicators. *)
Definition letter_symbol (c : N) : Prop := 0x1F1E6 <= c <= 0x1F1FF.
Inductive flag : text -> Prop := Flag : forall x y, letter_symbol x -> letter_symbol y -> flag [x; y].
(** A keycap: a digit, # or *, and the modifiers. *)
Definition keycap_base (c : N) : Prop := 0x30 <= c <= 0x39 \/ c = 0x23 \/ c = 0x2A.
Inductive keycap : text -> Prop := Keycap : forall k ms, keycap_base k -> Forall (fun m => modifier m = true) ms -> keycap (k :: ms).

Definition emoji (e : text) : Prop := joined e \/ flag e \/ keycap e.
(** For the rules of words: the joined elements begin with pictographs that are not also letters (U+2139 is). *)
Definition no_letter (s : text) : Prop := forall c, In c s -> ExtPict c = true -> WB c = WB_Other.
Definition word_emoji (e : text) : Prop := joined e /\ no_letter e \/ flag e.

(** A character of a flag. *)
Definition regional (c : N) : bool := gcb_beq (GCB c) GCB_Regional_Indicator || wb_beq (WB c) WB_Regional_Indicator.
(** The tokens [l] of a text that begins with [b], [e]: no boundary inside [e]. *)
Definition kept_whole (l : list bytes) (b e : text) : Prop :=
  forall e1 e2, e = e1 ++ e2 -> e1 <> [] -> e2 <> [] -> ~ boundary l (length (encode (b ++ e1))).
(** No regional indicator stands before, if [e] is a flag. *)
Definition free_before (b e : text) : Prop := flag e -> Forall (fun c => regional c = false) b.
