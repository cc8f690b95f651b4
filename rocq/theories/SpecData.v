(** Specification: the families of properties of the four packages, by the names used in the Unicode data files
    (GraphemeBreakProperty.txt, WordBreakProperty.txt, SentenceBreakProperty.txt, emoji-data.txt, and the InCB lines of
    DerivedCoreProperties.txt), and what it means that lists of code points hold them. *)
From Verif Require Import Base SpecUtf8 SpecUcd.
From Coq Require Import Permutation String Ascii.
Local Open Scope N_scope.
Local Open Scope string_scope.

Definition str (s : string) : bytes := map N_of_ascii (list_ascii_of_string s).

Definition data : Type := list (bytes * (N -> bool)).

Definition graphemes_data : data := [
  (str "CR", fun cp => gcb_beq (GCB cp) GCB_CR); (str "Control", fun cp => gcb_beq (GCB cp) GCB_Control); (str "Extend", fun cp => gcb_beq (GCB cp) GCB_Extend);
  (str "Extended_Pictographic", ExtPict); (str "InCB_Consonant", fun cp => incb_beq (InCB cp) InCB_Consonant); (str "InCB_Extend", fun cp => incb_beq (InCB cp) InCB_Extend);
  (str "InCB_Linker", fun cp => incb_beq (InCB cp) InCB_Linker); (str "L", fun cp => gcb_beq (GCB cp) GCB_L); (str "LF", fun cp => gcb_beq (GCB cp) GCB_LF);
  (str "LV", fun cp => gcb_beq (GCB cp) GCB_LV); (str "LVT", fun cp => gcb_beq (GCB cp) GCB_LVT); (str "Prepend", fun cp => gcb_beq (GCB cp) GCB_Prepend);
  (str "Regional_Indicator", fun cp => gcb_beq (GCB cp) GCB_Regional_Indicator); (str "SpacingMark", fun cp => gcb_beq (GCB cp) GCB_SpacingMark);
  (str "T", fun cp => gcb_beq (GCB cp) GCB_T); (str "V", fun cp => gcb_beq (GCB cp) GCB_V); (str "ZWJ", fun cp => gcb_beq (GCB cp) GCB_ZWJ)].

Definition words_data : data := [
  (str "ALetter", fun cp => wb_beq (WB cp) WB_ALetter); (str "BleveIdeographic", BleveIdeographic); (str "CR", fun cp => wb_beq (WB cp) WB_CR);
  (str "Double_Quote", fun cp => wb_beq (WB cp) WB_Double_Quote); (str "Extend", fun cp => wb_beq (WB cp) WB_Extend); (str "ExtendNumLet", fun cp => wb_beq (WB cp) WB_ExtendNumLet);
  (str "Extended_Pictographic", ExtPict); (str "Format", fun cp => wb_beq (WB cp) WB_Format); (str "Hebrew_Letter", fun cp => wb_beq (WB cp) WB_Hebrew_Letter);
  (str "Katakana", fun cp => wb_beq (WB cp) WB_Katakana); (str "LF", fun cp => wb_beq (WB cp) WB_LF); (str "MidLetter", fun cp => wb_beq (WB cp) WB_MidLetter);
  (str "MidNum", fun cp => wb_beq (WB cp) WB_MidNum); (str "MidNumLet", fun cp => wb_beq (WB cp) WB_MidNumLet); (str "Newline", fun cp => wb_beq (WB cp) WB_Newline);
  (str "Numeric", fun cp => wb_beq (WB cp) WB_Numeric); (str "Regional_Indicator", fun cp => wb_beq (WB cp) WB_Regional_Indicator);
  (str "Single_Quote", fun cp => wb_beq (WB cp) WB_Single_Quote); (str "WSegSpace", fun cp => wb_beq (WB cp) WB_WSegSpace); (str "ZWJ", fun cp => wb_beq (WB cp) WB_ZWJ)].

Definition phrases_data : data := [
  (str "ALetter", fun cp => wb_beq (WB cp) WB_ALetter); (str "CR", fun cp => wb_beq (WB cp) WB_CR);
  (str "Double_Quote", fun cp => wb_beq (WB cp) WB_Double_Quote); (str "Extend", fun cp => wb_beq (WB cp) WB_Extend); (str "ExtendNumLet", fun cp => wb_beq (WB cp) WB_ExtendNumLet);
  (str "Extended_Pictographic", ExtPict); (str "Format", fun cp => wb_beq (WB cp) WB_Format); (str "Hebrew_Letter", fun cp => wb_beq (WB cp) WB_Hebrew_Letter);
  (str "Katakana", fun cp => wb_beq (WB cp) WB_Katakana); (str "LF", fun cp => wb_beq (WB cp) WB_LF); (str "MidLetter", fun cp => wb_beq (WB cp) WB_MidLetter);
  (str "MidNum", fun cp => wb_beq (WB cp) WB_MidNum); (str "MidNumLet", fun cp => wb_beq (WB cp) WB_MidNumLet); (str "Newline", fun cp => wb_beq (WB cp) WB_Newline);
  (str "Numeric", fun cp => wb_beq (WB cp) WB_Numeric); (str "Regional_Indicator", fun cp => wb_beq (WB cp) WB_Regional_Indicator);
  (str "Single_Quote", fun cp => wb_beq (WB cp) WB_Single_Quote); (str "WSegSpace", fun cp => wb_beq (WB cp) WB_WSegSpace); (str "ZWJ", fun cp => wb_beq (WB cp) WB_ZWJ)].

Definition sentences_data : data := [
  (str "ATerm", fun cp => sb_beq (SB cp) SB_ATerm); (str "CR", fun cp => sb_beq (SB cp) SB_CR); (str "Close", fun cp => sb_beq (SB cp) SB_Close); (str "Extend", fun cp => sb_beq (SB cp) SB_Extend);
  (str "Format", fun cp => sb_beq (SB cp) SB_Format); (str "LF", fun cp => sb_beq (SB cp) SB_LF); (str "Lower", fun cp => sb_beq (SB cp) SB_Lower); (str "Numeric", fun cp => sb_beq (SB cp) SB_Numeric);
  (str "OLetter", fun cp => sb_beq (SB cp) SB_OLetter); (str "SContinue", fun cp => sb_beq (SB cp) SB_SContinue); (str "STerm", fun cp => sb_beq (SB cp) SB_STerm); (str "Sep", fun cp => sb_beq (SB cp) SB_Sep);
  (str "Sp", fun cp => sb_beq (SB cp) SB_Sp); (str "Upper", fun cp => sb_beq (SB cp) SB_Upper)].

(** Lists of code points (in any order, with repetitions) hold a family: under each name the scalar values that have the property. *)
Definition holds (d : data) (props : list (bytes * list N)) : Prop :=
  Permutation (map fst d) (map fst props) /\
  forall p rs f, In (p, rs) props -> In (p, f) d -> forall cp, In cp rs <-> scalar cp /\ f cp = true.
