(** Specification: text with control sequences in it, as it is sent to a terminal. *)
From Verif Require Import Base SpecUtf8 SpecUcd SpecRules SpecAnsi.
Local Open Scope N_scope.

(** Plain pieces, each followed by a sequence; and a last piece. *)
Fixpoint styled (ps : list (text * bytes)) (z : text) : bytes :=
  match ps with [] => encode z | (c, e) :: r => encode c ++ e ++ styled r z end.
Definition plain (ps : list (text * bytes)) (z : text) : text := concat (map fst ps) ++ z.

(** The pieces are text, without ESC if 7-bit sequences are looked for; [a7] and [a8] are the options of the Iterator. Before an 8-bit sequence
    there is no prepended character (C27). *)
Definition piece (a7 : bool) (c : text) : Prop := scalars c /\ (a7 = true -> ~ In ESC c).
Definition sequence (a7 a8 : bool) (c : text) (e v : bytes) : Prop :=
  a7 = true /\ ansi7 e v \/ a8 = true /\ ansi8 e v /\ forall c' x, c = c' ++ [x] -> GCB x <> GCB_Prepend.
Fixpoint styled_ok (a7 a8 : bool) (ps : list (text * bytes)) (z : text) : Prop :=
  match ps with [] => piece a7 z | (c, e) :: r => piece a7 c /\ sequence a7 a8 c e (styled r z) /\ styled_ok a7 a8 r z end.

(** The tokens of the pieces, [cut c l], and the sequences between them. *)
Inductive pieced (cut : text -> list bytes -> Prop) : list (text * bytes) -> text -> list bytes -> Prop :=
| P_last : forall z l, cut z l -> pieced cut [] z l
| P_next : forall c e r z l l', cut c l -> pieced cut r z l' -> pieced cut ((c, e) :: r) z (l ++ e :: l').

(** The test of a client for a sequence: a token that begins with ESC, or with a C1 byte. *)
Definition control_token (a7 a8 : bool) (t : bytes) : bool :=
  match t with [] => false | b :: _ => a7 && (b =? ESC) || a8 && (0x80 <=? b) && (b <=? 0x9F) end.
