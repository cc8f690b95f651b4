(** Specification: the format of the files of the Unicode Character Database (UAX #44, section 4.2), as far as it is used here. *)
From Verif Require Import Base.
Local Open Scope N_scope.

Definition digit (c d : N) : Prop := (0x30 <= c <= 0x39 /\ d = c - 0x30) \/ (0x41 <= c <= 0x46 /\ d = c - 0x41 + 10) \/ (0x61 <= c <= 0x66 /\ d = c - 0x61 + 10).
(** Hexadecimal digits and their value. *)
Inductive hexadecimal : bytes -> N -> Prop :=
  | hex_one : forall c d, digit c d -> hexadecimal [c] d
  | hex_more : forall s n c d, hexadecimal s n -> digit c d -> hexadecimal (s ++ [c]) (16 * n + d).

Definition blanks (w : bytes) : Prop := Forall (fun c => c = 0x20 \/ c = 0x09) w.
Definition name_char (c : N) : Prop := 0x30 <= c <= 0x39 \/ 0x41 <= c <= 0x5A \/ 0x61 <= c <= 0x7A \/ c = 0x5F.
Definition name (n : bytes) : Prop := n <> [] /\ Forall name_char n.

(** "1F600" or "1F600..1F64F". *)
Inductive span : bytes -> N -> N -> Prop :=
  | span_one : forall s lo, hexadecimal s lo -> span s lo lo
  | span_range : forall s s' lo hi, hexadecimal s lo -> hexadecimal s' hi -> lo <= hi -> span (s ++ [0x2E; 0x2E] ++ s') lo hi.

(** " Prepend " or " InCB; Linker ", which is called InCB_Linker. *)
Inductive label : bytes -> bytes -> Prop :=
  | label_one : forall w w' n, blanks w -> blanks w' -> name n -> label (w ++ n ++ w') n
  | label_two : forall w1 w2 w3 w4 n n', blanks w1 -> blanks w2 -> blanks w3 -> blanks w4 -> name n -> name n' ->
      label (w1 ++ n ++ w2 ++ [0x3B] ++ w3 ++ n' ++ w4) (n ++ [0x5F] ++ n').

(** Nothing, or # and a comment without ; *)
Inductive remark : bytes -> Prop :=
  | remark_none : remark []
  | remark_some : forall c, Forall (fun b => b <> 0x0A /\ b <> 0x3B) c -> remark (0x23 :: c).

(** Entries: first and last code point, and name. *)
Definition entry : Type := N * N * bytes.

Inductive line_says : bytes -> list entry -> Prop :=
  | line_blank : line_says [0x0A] []
  | line_comment : forall c, Forall (fun b => b <> 0x0A) c -> line_says (0x23 :: c ++ [0x0A]) []
  | line_entry : forall s w l t lo hi n, span s lo hi -> hi <= 0x10FFFF -> blanks w -> label l n -> remark t ->
      line_says (s ++ w ++ [0x3B] ++ l ++ t ++ [0x0A]) [(lo, hi, n)].

Inductive file_says : bytes -> list entry -> Prop :=
  | file_empty : file_says [] []
  | file_line : forall s f es es', line_says s es -> file_says f es' -> file_says (s ++ f) (es ++ es').

(** What a list of entries says about a name. *)
Definition named (es : list entry) (p : bytes) : Prop := exists lo hi, In (lo, hi, p) es.
Definition listed (es : list entry) (p : bytes) (cp : N) : Prop := exists lo hi, In (lo, hi, p) es /\ lo <= cp <= hi.
