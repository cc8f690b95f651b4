(** Specification: extended grapheme clusters, UAX #29 section 3.1.1 (Unicode 17). *)
From Verif Require Import Base SpecUcd SpecRules.
Local Open Scope rule_scope.

Definition gc (k : gcb) (c : N) : bool := gcb_beq (GCB c) k.
Definition ic (k : incb) (c : N) : bool := incb_beq (InCB c) k.

Definition CR := Cls (gc GCB_CR).
Definition LF := Cls (gc GCB_LF).
Definition Control := Cls (gc GCB_Control).
Definition Extend := Cls (gc GCB_Extend).
Definition ZWJ := Cls (gc GCB_ZWJ).
Definition RI := Cls (gc GCB_Regional_Indicator).
Definition NotRI := Cls (fun c => negb (gc GCB_Regional_Indicator c)).
Definition Prepend := Cls (gc GCB_Prepend).
Definition SpacingMark := Cls (gc GCB_SpacingMark).
Definition L := Cls (gc GCB_L).
Definition V := Cls (gc GCB_V).
Definition T := Cls (gc GCB_T).
Definition LV := Cls (gc GCB_LV).
Definition LVT := Cls (gc GCB_LVT).
Definition ExtPict_ := Cls ExtPict.
Definition Consonant := Cls (ic InCB_Consonant).
Definition Linker := Cls (ic InCB_Linker).
Definition InCBExtend := Cls (ic InCB_Extend).
Definition ExtOrLinker := Star (Alt InCBExtend Linker).

Definition grapheme_rules : list rule := [
  (* GB3 *)    Suffix CR × LF;
  (* GB4 *)    Suffix (Alt Control (Alt CR LF)) ÷ Any;
  (* GB5 *)    Suffix Any ÷ Alt Control (Alt CR LF);
  (* GB6 *)    Suffix L × Alt L (Alt V (Alt LV LVT));
  (* GB7 *)    Suffix (Alt LV V) × Alt V T;
  (* GB8 *)    Suffix (Alt LVT T) × T;
  (* GB9 *)    Suffix Any × Alt Extend ZWJ;
  (* GB9a *)   Suffix Any × SpacingMark;
  (* GB9b *)   Suffix Prepend × Any;
  (* GB9c *)   Suffix (Cat (Cat (Cat Consonant ExtOrLinker) Linker) ExtOrLinker) × Consonant;
  (* GB11 *)   Suffix (Cat (Cat ExtPict_ (Star Extend)) ZWJ) × ExtPict_;
  (* GB12 *)   Sot (Cat (Star (Cat RI RI)) RI) × RI;
  (* GB13 *)   Suffix (Cat NotRI (Cat (Star (Cat RI RI)) RI)) × RI;
  (* GB999 *)  Suffix Any ÷ Any
].

Definition grapheme_decides (b a : text) (o : op) : Prop := says b a grapheme_rules (Some o).
