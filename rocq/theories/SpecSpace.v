(** Specification: the spaces between words (Word_Break = WSegSpace, as a list), and how texts begin and end. *)
From Verif Require Import Base SpecUcd SpecRules SpecWords.
Local Open Scope N_scope.

(** SPACE, OGHAM SPACE MARK, EN QUAD to SIX-PER-EM SPACE, PUNCTUATION SPACE to HAIR SPACE, MEDIUM MATHEMATICAL SPACE, IDEOGRAPHIC SPACE *)
Definition spaces : list N := [0x20; 0x1680; 0x2000; 0x2001; 0x2002; 0x2003; 0x2004; 0x2005; 0x2006; 0x2008; 0x2009; 0x200A; 0x205F; 0x3000].
Definition all_spaces (t : text) : Prop := Forall (fun c => In c spaces) t.
(** [t] does not end with a character [c] that is [p]; it does not begin with one. *)
Definition ends_without (p : N -> Prop) (t : text) : Prop := forall t' c, t = t' ++ [c] -> ~ p c.
Definition begins_without (p : N -> Prop) (t : text) : Prop := forall c t', t = c :: t' -> ~ p c.
Definition is_space (c : N) : Prop := In c spaces.
(** A combining mark, a format character or a joiner: it belongs to what stands before it. *)
Definition word_mark (c : N) : Prop := WB c = WB_Extend \/ WB c = WB_Format \/ WB c = WB_ZWJ.
Definition cluster_mark (c : N) : Prop := GCB c = GCB_Extend \/ GCB c = GCB_ZWJ \/ GCB c = GCB_SpacingMark.
Definition prepended (c : N) : Prop := GCB c = GCB_Prepend.
