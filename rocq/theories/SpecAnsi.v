(** Specification: control sequences (ECMA-48), as documented in /repo/graphemes/ansi.go:3-10 and ansi8.go:3-10.
    [ansi7 e v]: the bytes [e] are a 7-bit sequence when [v] follows (what follows matters only to a cancelled string). *)
From Verif Require Import Base.
Local Open Scope N_scope.

Definition ESC : N := 0x1B.
Definition BEL : N := 0x07.
Definition CAN : N := 0x18.
Definition SUB : N := 0x1A.
Definition BACKSLASH : N := 0x5C.
Definition C1_ST : N := 0x9C.

Definition parameter (b : N) : Prop := 0x30 <= b <= 0x3F.
Definition intermediate (b : N) : Prop := 0x20 <= b <= 0x2F.
Definition final (b : N) : Prop := 0x40 <= b <= 0x7E.

(** What comes after a control sequence introducer. *)
Definition csi_body (body : bytes) : Prop :=
  exists ps is f, body = ps ++ is ++ [f] /\ Forall parameter ps /\ Forall intermediate is /\ final f.

(** Control strings end with one of the terminators; or CAN or SUB, which are not part of them, cut them short.
    Nothing of this sort is in the payload. *)
Definition contains (t p : bytes) : Prop := exists p1 p2, p = p1 ++ t ++ p2.
Definition payload (terms : list bytes) (p : bytes) : Prop := ~ In CAN p /\ ~ In SUB p /\ forall t, In t terms -> ~ contains t p.
Definition string_body (terms : list bytes) (body v : bytes) : Prop :=
  (exists p t, body = p ++ t /\ payload terms p /\ In t terms)
  \/ (payload terms body /\ exists c v', v = c :: v' /\ (c = CAN \/ c = SUB)).

Definition osc7 : list bytes := [[BEL]; [ESC; BACKSLASH]].
Definition st7 : list bytes := [[ESC; BACKSLASH]].
Definition osc8 : list bytes := [[BEL]; [C1_ST]].
Definition st8 : list bytes := [[C1_ST]].

Definition CSI7 : N := 0x5B.                             (* [ *)
Definition OSC7 : N := 0x5D.                             (* ] *)
Definition STR7 : list N := [0x50; 0x58; 0x5E; 0x5F].    (* P X ^ _: DCS, SOS, PM, APC *)

Inductive ansi7 : bytes -> bytes -> Prop :=
| a7_csi : forall body v, csi_body body -> ansi7 (ESC :: CSI7 :: body) v
| a7_osc : forall body v, string_body osc7 body v -> ansi7 (ESC :: OSC7 :: body) v
| a7_str : forall k body v, In k STR7 -> string_body st7 body v -> ansi7 (ESC :: k :: body) v
| a7_two : forall b v, 0x30 <= b <= 0x7E -> ~ In b (CSI7 :: OSC7 :: STR7) -> ansi7 [ESC; b] v
| a7_nF : forall i is f v, intermediate i -> Forall intermediate is -> 0x30 <= f <= 0x7E -> ansi7 (ESC :: i :: is ++ [f]) v.

Definition CSI8 : N := 0x9B.
Definition OSC8 : N := 0x9D.
Definition STR8 : list N := [0x90; 0x98; 0x9E; 0x9F].
Inductive ansi8 : bytes -> bytes -> Prop :=
| a8_csi : forall body v, csi_body body -> ansi8 (CSI8 :: body) v
| a8_osc : forall body v, string_body osc8 body v -> ansi8 (OSC8 :: body) v
| a8_str : forall k body v, In k STR8 -> string_body st8 body v -> ansi8 (k :: body) v
| a8_one : forall b v, 0x80 <= b <= 0x9F -> ~ In b (CSI8 :: OSC8 :: STR8) -> ansi8 [b] v.
