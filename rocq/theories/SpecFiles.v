(** Specification: what the Unicode data files say, in terms of the properties of SpecUcd. *)
From Verif Require Import Base SpecUtf8 SpecUcd SpecData SpecDataFile.
From Coq Require Import String.
Local Open Scope N_scope.
Local Open Scope string_scope.

(** The names that do not come from the file of break properties. *)
Definition elsewhere : list bytes := [str "Extended_Pictographic"; str "InCB_Consonant"; str "InCB_Linker"; str "InCB_Extend"; str "BleveIdeographic"].

(** emoji-data.txt: among others, Extended_Pictographic. *)
Definition emoji_file (es : list entry) : Prop := forall cp, listed es (str "Extended_Pictographic") cp <-> scalar cp /\ ExtPict cp = true.
(** DerivedCoreProperties.txt: among others, Indic_Conjunct_Break. *)
Definition incb_file (es : list entry) : Prop :=
  (forall cp, listed es (str "InCB_Consonant") cp <-> scalar cp /\ InCB cp = InCB_Consonant) /\
  (forall cp, listed es (str "InCB_Linker") cp <-> scalar cp /\ InCB cp = InCB_Linker) /\
  (forall cp, listed es (str "InCB_Extend") cp <-> scalar cp /\ InCB cp = InCB_Extend).
(** GraphemeBreakProperty.txt and the like: the properties of the family that do not come from elsewhere, and no others. *)
Definition break_file (d : data) (es : list entry) : Prop :=
  (forall p, named es p <-> In p (map fst d) /\ ~ In p elsewhere) /\
  (forall p f, In (p, f) d -> ~ In p elsewhere -> forall cp, listed es p cp <-> scalar cp /\ f cp = true).
(** With the Katakana of WordBreakProperty.txt, the runes of unicode.Han and unicode.Hiragana are the ideographs. *)
Definition ideographs (ideo : list N) : Prop := forall cp, In cp ideo \/ (scalar cp /\ WB cp = WB_Katakana) <-> scalar cp /\ BleveIdeographic cp = true.
