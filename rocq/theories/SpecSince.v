(** Specification: what has become of the break properties of the characters of Unicode 15 by Unicode 17.
    The properties of Unicode 15 are in SpecUcd15.v, those the program should use in SpecUcd.v. *)
From Verif Require Import Base SpecUcd SpecUcd15.
Local Open Scope N_scope.

(** The characters whose property has changed, with the new value. *)
Definition gcb_changes : list (N * gcb) := [
(0xCC0, GCB_Extend); (0xCC7, GCB_Extend); (0xCC8, GCB_Extend); (0xCCA, GCB_Extend); (0xCCB, GCB_Extend); (0x1715, GCB_Extend); (0x1734, GCB_Extend); (0x1B3B, GCB_Extend); (0x1B3D,
GCB_Extend); (0x1B43, GCB_Extend); (0x1B44, GCB_Extend); (0x1BAA, GCB_Extend); (0x1BF2, GCB_Extend); (0x1BF3, GCB_Extend); (0xA953, GCB_Extend); (0xA9C0, GCB_Extend); (0x111C0,
GCB_Extend); (0x11235, GCB_Extend); (0x1134D, GCB_Extend); (0x116B6, GCB_Extend); (0x1171E, GCB_SpacingMark); (0x1193D, GCB_Extend); (0x11A3A, GCB_Other); (0x11F41, GCB_Extend);
(0x16FF0, GCB_Extend); (0x16FF1, GCB_Extend); (0x1D166, GCB_Extend); (0x1D16D, GCB_Extend)].
Definition wb_changes : list (N * wb) := [
(0xB8, WB_ALetter); (0x600, WB_Numeric); (0x601, WB_Numeric); (0x602, WB_Numeric); (0x603, WB_Numeric); (0x604, WB_Numeric); (0x605, WB_Numeric); (0x6DD, WB_Numeric); (0x70F,
WB_ALetter); (0x890, WB_Numeric); (0x891, WB_Numeric); (0x8E2, WB_Numeric); (0x19DA, WB_Numeric); (0xFE10, WB_Other); (0xFE14, WB_Other); (0x110BD, WB_Numeric); (0x110CD,
WB_Numeric)].
Definition sb_changes : list (N * sb) := [
(0x3B, SB_SContinue); (0x295, SB_OLetter); (0x37E, SB_SContinue); (0x600, SB_Numeric); (0x601, SB_Numeric); (0x602, SB_Numeric); (0x603, SB_Numeric); (0x604, SB_Numeric); (0x605,
SB_Numeric); (0x6DD, SB_Numeric); (0x890, SB_Numeric); (0x891, SB_Numeric); (0x8E2, SB_Numeric); (0x17D4, SB_STerm); (0x17D5, SB_STerm); (0x19DA, SB_Numeric); (0x2CF9, SB_STerm);
(0x2CFA, SB_STerm); (0x2CFB, SB_STerm); (0xFE12, SB_STerm); (0xFE14, SB_SContinue); (0xFE15, SB_STerm); (0xFE16, SB_STerm); (0xFE54, SB_SContinue); (0xFF1B, SB_SContinue);
(0x110BD, SB_Numeric); (0x110CD, SB_Numeric)].
Definition or_changed {A : Type} (old : N -> A) (changes : list (N * A)) (c : N) : A := match find (fun e : N * A => fst e =? c) changes with Some (_, v) => v | None => old c end.
