(** Specification: Unicode character properties as flat range tables (inclusive ranges, ascending).
    Generated by tools/gen_ucd.py by inverting the tries of /repo (the Unicode data files are not available offline).
    UAX #29 property names are used; "Other" is the default value of each property. *)
From Verif Require Import Base.
Local Open Scope N_scope.

Inductive gcb :=
  | GCB_CR | GCB_LF | GCB_Control | GCB_Extend | GCB_ZWJ | GCB_Regional_Indicator | GCB_Prepend | GCB_SpacingMark | GCB_L | GCB_V | GCB_T | GCB_LV | GCB_LVT | GCB_Other.
Scheme Equality for gcb.

Inductive incb :=
  | InCB_Consonant | InCB_Linker | InCB_Extend | InCB_Other.
Scheme Equality for incb.

Inductive wb :=
  | WB_CR | WB_LF | WB_Newline | WB_Extend | WB_ZWJ | WB_Format | WB_Regional_Indicator | WB_Katakana | WB_Hebrew_Letter | WB_ALetter | WB_Single_Quote | WB_Double_Quote | WB_MidNumLet | WB_MidLetter | WB_MidNum | WB_Numeric | WB_ExtendNumLet | WB_WSegSpace | WB_Other.
Scheme Equality for wb.

Inductive sb :=
  | SB_CR | SB_LF | SB_Extend | SB_Sep | SB_Format | SB_Sp | SB_Lower | SB_Upper | SB_OLetter | SB_Numeric | SB_ATerm | SB_SContinue | SB_STerm | SB_Close | SB_Other.
Scheme Equality for sb.

(** The value of the first range that contains the code point, or the default. *)
Fixpoint range_value {A : Type} (default : A) (table : list (N * N * A)) (cp : N) : A :=
  match table with
  | [] => default
  | (lo, hi, v) :: rest => if (lo <=? cp) && (cp <=? hi) then v else range_value default rest cp
  end.

Definition gcb_table : list (N * N * gcb) := [
  (0x0, 0x9, GCB_Control); (0xA, 0xA, GCB_LF); (0xB, 0xC, GCB_Control); (0xD, 0xD, GCB_CR);
  (0xE, 0x1F, GCB_Control); (0x7F, 0x9F, GCB_Control); (0xAD, 0xAD, GCB_Control); (0x300, 0x36F, GCB_Extend);
  (0x483, 0x489, GCB_Extend); (0x591, 0x5BD, GCB_Extend); (0x5BF, 0x5BF, GCB_Extend); (0x5C1, 0x5C2, GCB_Extend);
  (0x5C4, 0x5C5, GCB_Extend); (0x5C7, 0x5C7, GCB_Extend); (0x600, 0x605, GCB_Prepend); (0x610, 0x61A, GCB_Extend);
  (0x61C, 0x61C, GCB_Control); (0x64B, 0x65F, GCB_Extend); (0x670, 0x670, GCB_Extend); (0x6D6, 0x6DC, GCB_Extend);
  (0x6DD, 0x6DD, GCB_Prepend); (0x6DF, 0x6E4, GCB_Extend); (0x6E7, 0x6E8, GCB_Extend); (0x6EA, 0x6ED, GCB_Extend);
  (0x70F, 0x70F, GCB_Prepend); (0x711, 0x711, GCB_Extend); (0x730, 0x74A, GCB_Extend); (0x7A6, 0x7B0, GCB_Extend);
  (0x7EB, 0x7F3, GCB_Extend); (0x7FD, 0x7FD, GCB_Extend); (0x816, 0x819, GCB_Extend); (0x81B, 0x823, GCB_Extend);
  (0x825, 0x827, GCB_Extend); (0x829, 0x82D, GCB_Extend); (0x859, 0x85B, GCB_Extend); (0x890, 0x891, GCB_Prepend);
  (0x897, 0x89F, GCB_Extend); (0x8CA, 0x8E1, GCB_Extend); (0x8E2, 0x8E2, GCB_Prepend); (0x8E3, 0x902, GCB_Extend);
  (0x903, 0x903, GCB_SpacingMark); (0x93A, 0x93A, GCB_Extend); (0x93B, 0x93B, GCB_SpacingMark); (0x93C, 0x93C, GCB_Extend);
  (0x93E, 0x940, GCB_SpacingMark); (0x941, 0x948, GCB_Extend); (0x949, 0x94C, GCB_SpacingMark); (0x94D, 0x94D, GCB_Extend);
  (0x94E, 0x94F, GCB_SpacingMark); (0x951, 0x957, GCB_Extend); (0x962, 0x963, GCB_Extend); (0x981, 0x981, GCB_Extend);
  (0x982, 0x983, GCB_SpacingMark); (0x9BC, 0x9BC, GCB_Extend); (0x9BE, 0x9BE, GCB_Extend); (0x9BF, 0x9C0, GCB_SpacingMark);
  (0x9C1, 0x9C4, GCB_Extend); (0x9C7, 0x9C8, GCB_SpacingMark); (0x9CB, 0x9CC, GCB_SpacingMark); (0x9CD, 0x9CD, GCB_Extend);
  (0x9D7, 0x9D7, GCB_Extend); (0x9E2, 0x9E3, GCB_Extend); (0x9FE, 0x9FE, GCB_Extend); (0xA01, 0xA02, GCB_Extend);
  (0xA03, 0xA03, GCB_SpacingMark); (0xA3C, 0xA3C, GCB_Extend); (0xA3E, 0xA40, GCB_SpacingMark); (0xA41, 0xA42, GCB_Extend);
  (0xA47, 0xA48, GCB_Extend); (0xA4B, 0xA4D, GCB_Extend); (0xA51, 0xA51, GCB_Extend); (0xA70, 0xA71, GCB_Extend);
  (0xA75, 0xA75, GCB_Extend); (0xA81, 0xA82, GCB_Extend); (0xA83, 0xA83, GCB_SpacingMark); (0xABC, 0xABC, GCB_Extend);
  (0xABE, 0xAC0, GCB_SpacingMark); (0xAC1, 0xAC5, GCB_Extend); (0xAC7, 0xAC8, GCB_Extend); (0xAC9, 0xAC9, GCB_SpacingMark);
  (0xACB, 0xACC, GCB_SpacingMark); (0xACD, 0xACD, GCB_Extend); (0xAE2, 0xAE3, GCB_Extend); (0xAFA, 0xAFF, GCB_Extend);
  (0xB01, 0xB01, GCB_Extend); (0xB02, 0xB03, GCB_SpacingMark); (0xB3C, 0xB3C, GCB_Extend); (0xB3E, 0xB3F, GCB_Extend);
  (0xB40, 0xB40, GCB_SpacingMark); (0xB41, 0xB44, GCB_Extend); (0xB47, 0xB48, GCB_SpacingMark); (0xB4B, 0xB4C, GCB_SpacingMark);
  (0xB4D, 0xB4D, GCB_Extend); (0xB55, 0xB57, GCB_Extend); (0xB62, 0xB63, GCB_Extend); (0xB82, 0xB82, GCB_Extend);
  (0xBBE, 0xBBE, GCB_Extend); (0xBBF, 0xBBF, GCB_SpacingMark); (0xBC0, 0xBC0, GCB_Extend); (0xBC1, 0xBC2, GCB_SpacingMark);
  (0xBC6, 0xBC8, GCB_SpacingMark); (0xBCA, 0xBCC, GCB_SpacingMark); (0xBCD, 0xBCD, GCB_Extend); (0xBD7, 0xBD7, GCB_Extend);
  (0xC00, 0xC00, GCB_Extend); (0xC01, 0xC03, GCB_SpacingMark); (0xC04, 0xC04, GCB_Extend); (0xC3C, 0xC3C, GCB_Extend);
  (0xC3E, 0xC40, GCB_Extend); (0xC41, 0xC44, GCB_SpacingMark); (0xC46, 0xC48, GCB_Extend); (0xC4A, 0xC4D, GCB_Extend);
  (0xC55, 0xC56, GCB_Extend); (0xC62, 0xC63, GCB_Extend); (0xC81, 0xC81, GCB_Extend); (0xC82, 0xC83, GCB_SpacingMark);
  (0xCBC, 0xCBC, GCB_Extend); (0xCBE, 0xCBE, GCB_SpacingMark); (0xCBF, 0xCC0, GCB_Extend); (0xCC1, 0xCC1, GCB_SpacingMark);
  (0xCC2, 0xCC2, GCB_Extend); (0xCC3, 0xCC4, GCB_SpacingMark); (0xCC6, 0xCC8, GCB_Extend); (0xCCA, 0xCCD, GCB_Extend);
  (0xCD5, 0xCD6, GCB_Extend); (0xCE2, 0xCE3, GCB_Extend); (0xCF3, 0xCF3, GCB_SpacingMark); (0xD00, 0xD01, GCB_Extend);
  (0xD02, 0xD03, GCB_SpacingMark); (0xD3B, 0xD3C, GCB_Extend); (0xD3E, 0xD3E, GCB_Extend); (0xD3F, 0xD40, GCB_SpacingMark);
  (0xD41, 0xD44, GCB_Extend); (0xD46, 0xD48, GCB_SpacingMark); (0xD4A, 0xD4C, GCB_SpacingMark); (0xD4D, 0xD4D, GCB_Extend);
  (0xD4E, 0xD4E, GCB_Prepend); (0xD57, 0xD57, GCB_Extend); (0xD62, 0xD63, GCB_Extend); (0xD81, 0xD81, GCB_Extend);
  (0xD82, 0xD83, GCB_SpacingMark); (0xDCA, 0xDCA, GCB_Extend); (0xDCF, 0xDCF, GCB_Extend); (0xDD0, 0xDD1, GCB_SpacingMark);
  (0xDD2, 0xDD4, GCB_Extend); (0xDD6, 0xDD6, GCB_Extend); (0xDD8, 0xDDE, GCB_SpacingMark); (0xDDF, 0xDDF, GCB_Extend);
  (0xDF2, 0xDF3, GCB_SpacingMark); (0xE31, 0xE31, GCB_Extend); (0xE33, 0xE33, GCB_SpacingMark); (0xE34, 0xE3A, GCB_Extend);
  (0xE47, 0xE4E, GCB_Extend); (0xEB1, 0xEB1, GCB_Extend); (0xEB3, 0xEB3, GCB_SpacingMark); (0xEB4, 0xEBC, GCB_Extend);
  (0xEC8, 0xECE, GCB_Extend); (0xF18, 0xF19, GCB_Extend); (0xF35, 0xF35, GCB_Extend); (0xF37, 0xF37, GCB_Extend);
  (0xF39, 0xF39, GCB_Extend); (0xF3E, 0xF3F, GCB_SpacingMark); (0xF71, 0xF7E, GCB_Extend); (0xF7F, 0xF7F, GCB_SpacingMark);
  (0xF80, 0xF84, GCB_Extend); (0xF86, 0xF87, GCB_Extend); (0xF8D, 0xF97, GCB_Extend); (0xF99, 0xFBC, GCB_Extend);
  (0xFC6, 0xFC6, GCB_Extend); (0x102D, 0x1030, GCB_Extend); (0x1031, 0x1031, GCB_SpacingMark); (0x1032, 0x1037, GCB_Extend);
  (0x1039, 0x103A, GCB_Extend); (0x103B, 0x103C, GCB_SpacingMark); (0x103D, 0x103E, GCB_Extend); (0x1056, 0x1057, GCB_SpacingMark);
  (0x1058, 0x1059, GCB_Extend); (0x105E, 0x1060, GCB_Extend); (0x1071, 0x1074, GCB_Extend); (0x1082, 0x1082, GCB_Extend);
  (0x1084, 0x1084, GCB_SpacingMark); (0x1085, 0x1086, GCB_Extend); (0x108D, 0x108D, GCB_Extend); (0x109D, 0x109D, GCB_Extend);
  (0x1100, 0x115F, GCB_L); (0x1160, 0x11A7, GCB_V); (0x11A8, 0x11FF, GCB_T); (0x135D, 0x135F, GCB_Extend);
  (0x1712, 0x1715, GCB_Extend); (0x1732, 0x1734, GCB_Extend); (0x1752, 0x1753, GCB_Extend); (0x1772, 0x1773, GCB_Extend);
  (0x17B4, 0x17B5, GCB_Extend); (0x17B6, 0x17B6, GCB_SpacingMark); (0x17B7, 0x17BD, GCB_Extend); (0x17BE, 0x17C5, GCB_SpacingMark);
  (0x17C6, 0x17C6, GCB_Extend); (0x17C7, 0x17C8, GCB_SpacingMark); (0x17C9, 0x17D3, GCB_Extend); (0x17DD, 0x17DD, GCB_Extend);
  (0x180B, 0x180D, GCB_Extend); (0x180E, 0x180E, GCB_Control); (0x180F, 0x180F, GCB_Extend); (0x1885, 0x1886, GCB_Extend);
  (0x18A9, 0x18A9, GCB_Extend); (0x1920, 0x1922, GCB_Extend); (0x1923, 0x1926, GCB_SpacingMark); (0x1927, 0x1928, GCB_Extend);
  (0x1929, 0x192B, GCB_SpacingMark); (0x1930, 0x1931, GCB_SpacingMark); (0x1932, 0x1932, GCB_Extend); (0x1933, 0x1938, GCB_SpacingMark);
  (0x1939, 0x193B, GCB_Extend); (0x1A17, 0x1A18, GCB_Extend); (0x1A19, 0x1A1A, GCB_SpacingMark); (0x1A1B, 0x1A1B, GCB_Extend);
  (0x1A55, 0x1A55, GCB_SpacingMark); (0x1A56, 0x1A56, GCB_Extend); (0x1A57, 0x1A57, GCB_SpacingMark); (0x1A58, 0x1A5E, GCB_Extend);
  (0x1A60, 0x1A60, GCB_Extend); (0x1A62, 0x1A62, GCB_Extend); (0x1A65, 0x1A6C, GCB_Extend); (0x1A6D, 0x1A72, GCB_SpacingMark);
  (0x1A73, 0x1A7C, GCB_Extend); (0x1A7F, 0x1A7F, GCB_Extend); (0x1AB0, 0x1ADD, GCB_Extend); (0x1AE0, 0x1AEB, GCB_Extend);
  (0x1B00, 0x1B03, GCB_Extend); (0x1B04, 0x1B04, GCB_SpacingMark); (0x1B34, 0x1B3D, GCB_Extend); (0x1B3E, 0x1B41, GCB_SpacingMark);
  (0x1B42, 0x1B44, GCB_Extend); (0x1B6B, 0x1B73, GCB_Extend); (0x1B80, 0x1B81, GCB_Extend); (0x1B82, 0x1B82, GCB_SpacingMark);
  (0x1BA1, 0x1BA1, GCB_SpacingMark); (0x1BA2, 0x1BA5, GCB_Extend); (0x1BA6, 0x1BA7, GCB_SpacingMark); (0x1BA8, 0x1BAD, GCB_Extend);
  (0x1BE6, 0x1BE6, GCB_Extend); (0x1BE7, 0x1BE7, GCB_SpacingMark); (0x1BE8, 0x1BE9, GCB_Extend); (0x1BEA, 0x1BEC, GCB_SpacingMark);
  (0x1BED, 0x1BED, GCB_Extend); (0x1BEE, 0x1BEE, GCB_SpacingMark); (0x1BEF, 0x1BF3, GCB_Extend); (0x1C24, 0x1C2B, GCB_SpacingMark);
  (0x1C2C, 0x1C33, GCB_Extend); (0x1C34, 0x1C35, GCB_SpacingMark); (0x1C36, 0x1C37, GCB_Extend); (0x1CD0, 0x1CD2, GCB_Extend);
  (0x1CD4, 0x1CE0, GCB_Extend); (0x1CE1, 0x1CE1, GCB_SpacingMark); (0x1CE2, 0x1CE8, GCB_Extend); (0x1CED, 0x1CED, GCB_Extend);
  (0x1CF4, 0x1CF4, GCB_Extend); (0x1CF7, 0x1CF7, GCB_SpacingMark); (0x1CF8, 0x1CF9, GCB_Extend); (0x1DC0, 0x1DFF, GCB_Extend);
  (0x200B, 0x200B, GCB_Control); (0x200C, 0x200C, GCB_Extend); (0x200D, 0x200D, GCB_ZWJ); (0x200E, 0x200F, GCB_Control);
  (0x2028, 0x202E, GCB_Control); (0x2060, 0x206F, GCB_Control); (0x20D0, 0x20F0, GCB_Extend); (0x2CEF, 0x2CF1, GCB_Extend);
  (0x2D7F, 0x2D7F, GCB_Extend); (0x2DE0, 0x2DFF, GCB_Extend); (0x302A, 0x302F, GCB_Extend); (0x3099, 0x309A, GCB_Extend);
  (0xA66F, 0xA672, GCB_Extend); (0xA674, 0xA67D, GCB_Extend); (0xA69E, 0xA69F, GCB_Extend); (0xA6F0, 0xA6F1, GCB_Extend);
  (0xA802, 0xA802, GCB_Extend); (0xA806, 0xA806, GCB_Extend); (0xA80B, 0xA80B, GCB_Extend); (0xA823, 0xA824, GCB_SpacingMark);
  (0xA825, 0xA826, GCB_Extend); (0xA827, 0xA827, GCB_SpacingMark); (0xA82C, 0xA82C, GCB_Extend); (0xA880, 0xA881, GCB_SpacingMark);
  (0xA8B4, 0xA8C3, GCB_SpacingMark); (0xA8C4, 0xA8C5, GCB_Extend); (0xA8E0, 0xA8F1, GCB_Extend); (0xA8FF, 0xA8FF, GCB_Extend);
  (0xA926, 0xA92D, GCB_Extend); (0xA947, 0xA951, GCB_Extend); (0xA952, 0xA952, GCB_SpacingMark); (0xA953, 0xA953, GCB_Extend);
  (0xA960, 0xA97C, GCB_L); (0xA980, 0xA982, GCB_Extend); (0xA983, 0xA983, GCB_SpacingMark); (0xA9B3, 0xA9B3, GCB_Extend);
  (0xA9B4, 0xA9B5, GCB_SpacingMark); (0xA9B6, 0xA9B9, GCB_Extend); (0xA9BA, 0xA9BB, GCB_SpacingMark); (0xA9BC, 0xA9BD, GCB_Extend);
  (0xA9BE, 0xA9BF, GCB_SpacingMark); (0xA9C0, 0xA9C0, GCB_Extend); (0xA9E5, 0xA9E5, GCB_Extend); (0xAA29, 0xAA2E, GCB_Extend);
  (0xAA2F, 0xAA30, GCB_SpacingMark); (0xAA31, 0xAA32, GCB_Extend); (0xAA33, 0xAA34, GCB_SpacingMark); (0xAA35, 0xAA36, GCB_Extend);
  (0xAA43, 0xAA43, GCB_Extend); (0xAA4C, 0xAA4C, GCB_Extend); (0xAA4D, 0xAA4D, GCB_SpacingMark); (0xAA7C, 0xAA7C, GCB_Extend);
  (0xAAB0, 0xAAB0, GCB_Extend); (0xAAB2, 0xAAB4, GCB_Extend); (0xAAB7, 0xAAB8, GCB_Extend); (0xAABE, 0xAABF, GCB_Extend);
  (0xAAC1, 0xAAC1, GCB_Extend); (0xAAEB, 0xAAEB, GCB_SpacingMark); (0xAAEC, 0xAAED, GCB_Extend); (0xAAEE, 0xAAEF, GCB_SpacingMark);
  (0xAAF5, 0xAAF5, GCB_SpacingMark); (0xAAF6, 0xAAF6, GCB_Extend); (0xABE3, 0xABE4, GCB_SpacingMark); (0xABE5, 0xABE5, GCB_Extend);
  (0xABE6, 0xABE7, GCB_SpacingMark); (0xABE8, 0xABE8, GCB_Extend); (0xABE9, 0xABEA, GCB_SpacingMark); (0xABEC, 0xABEC, GCB_SpacingMark);
  (0xABED, 0xABED, GCB_Extend); (0xAC00, 0xAC00, GCB_LV); (0xAC01, 0xAC1B, GCB_LVT); (0xAC1C, 0xAC1C, GCB_LV);
  (0xAC1D, 0xAC37, GCB_LVT); (0xAC38, 0xAC38, GCB_LV); (0xAC39, 0xAC53, GCB_LVT); (0xAC54, 0xAC54, GCB_LV);
  (0xAC55, 0xAC6F, GCB_LVT); (0xAC70, 0xAC70, GCB_LV); (0xAC71, 0xAC8B, GCB_LVT); (0xAC8C, 0xAC8C, GCB_LV);
  (0xAC8D, 0xACA7, GCB_LVT); (0xACA8, 0xACA8, GCB_LV); (0xACA9, 0xACC3, GCB_LVT); (0xACC4, 0xACC4, GCB_LV);
  (0xACC5, 0xACDF, GCB_LVT); (0xACE0, 0xACE0, GCB_LV); (0xACE1, 0xACFB, GCB_LVT); (0xACFC, 0xACFC, GCB_LV);
  (0xACFD, 0xAD17, GCB_LVT); (0xAD18, 0xAD18, GCB_LV); (0xAD19, 0xAD33, GCB_LVT); (0xAD34, 0xAD34, GCB_LV);
  (0xAD35, 0xAD4F, GCB_LVT); (0xAD50, 0xAD50, GCB_LV); (0xAD51, 0xAD6B, GCB_LVT); (0xAD6C, 0xAD6C, GCB_LV);
  (0xAD6D, 0xAD87, GCB_LVT); (0xAD88, 0xAD88, GCB_LV); (0xAD89, 0xADA3, GCB_LVT); (0xADA4, 0xADA4, GCB_LV);
  (0xADA5, 0xADBF, GCB_LVT); (0xADC0, 0xADC0, GCB_LV); (0xADC1, 0xADDB, GCB_LVT); (0xADDC, 0xADDC, GCB_LV);
  (0xADDD, 0xADF7, GCB_LVT); (0xADF8, 0xADF8, GCB_LV); (0xADF9, 0xAE13, GCB_LVT); (0xAE14, 0xAE14, GCB_LV);
  (0xAE15, 0xAE2F, GCB_LVT); (0xAE30, 0xAE30, GCB_LV); (0xAE31, 0xAE4B, GCB_LVT); (0xAE4C, 0xAE4C, GCB_LV);
  (0xAE4D, 0xAE67, GCB_LVT); (0xAE68, 0xAE68, GCB_LV); (0xAE69, 0xAE83, GCB_LVT); (0xAE84, 0xAE84, GCB_LV);
  (0xAE85, 0xAE9F, GCB_LVT); (0xAEA0, 0xAEA0, GCB_LV); (0xAEA1, 0xAEBB, GCB_LVT); (0xAEBC, 0xAEBC, GCB_LV);
  (0xAEBD, 0xAED7, GCB_LVT); (0xAED8, 0xAED8, GCB_LV); (0xAED9, 0xAEF3, GCB_LVT); (0xAEF4, 0xAEF4, GCB_LV);
  (0xAEF5, 0xAF0F, GCB_LVT); (0xAF10, 0xAF10, GCB_LV); (0xAF11, 0xAF2B, GCB_LVT); (0xAF2C, 0xAF2C, GCB_LV);
  (0xAF2D, 0xAF47, GCB_LVT); (0xAF48, 0xAF48, GCB_LV); (0xAF49, 0xAF63, GCB_LVT); (0xAF64, 0xAF64, GCB_LV);
  (0xAF65, 0xAF7F, GCB_LVT); (0xAF80, 0xAF80, GCB_LV); (0xAF81, 0xAF9B, GCB_LVT); (0xAF9C, 0xAF9C, GCB_LV);
  (0xAF9D, 0xAFB7, GCB_LVT); (0xAFB8, 0xAFB8, GCB_LV); (0xAFB9, 0xAFD3, GCB_LVT); (0xAFD4, 0xAFD4, GCB_LV);
  (0xAFD5, 0xAFEF, GCB_LVT); (0xAFF0, 0xAFF0, GCB_LV); (0xAFF1, 0xB00B, GCB_LVT); (0xB00C, 0xB00C, GCB_LV);
  (0xB00D, 0xB027, GCB_LVT); (0xB028, 0xB028, GCB_LV); (0xB029, 0xB043, GCB_LVT); (0xB044, 0xB044, GCB_LV);
  (0xB045, 0xB05F, GCB_LVT); (0xB060, 0xB060, GCB_LV); (0xB061, 0xB07B, GCB_LVT); (0xB07C, 0xB07C, GCB_LV);
  (0xB07D, 0xB097, GCB_LVT); (0xB098, 0xB098, GCB_LV); (0xB099, 0xB0B3, GCB_LVT); (0xB0B4, 0xB0B4, GCB_LV);
  (0xB0B5, 0xB0CF, GCB_LVT); (0xB0D0, 0xB0D0, GCB_LV); (0xB0D1, 0xB0EB, GCB_LVT); (0xB0EC, 0xB0EC, GCB_LV);
  (0xB0ED, 0xB107, GCB_LVT); (0xB108, 0xB108, GCB_LV); (0xB109, 0xB123, GCB_LVT); (0xB124, 0xB124, GCB_LV);
  (0xB125, 0xB13F, GCB_LVT); (0xB140, 0xB140, GCB_LV); (0xB141, 0xB15B, GCB_LVT); (0xB15C, 0xB15C, GCB_LV);
  (0xB15D, 0xB177, GCB_LVT); (0xB178, 0xB178, GCB_LV); (0xB179, 0xB193, GCB_LVT); (0xB194, 0xB194, GCB_LV);
  (0xB195, 0xB1AF, GCB_LVT); (0xB1B0, 0xB1B0, GCB_LV); (0xB1B1, 0xB1CB, GCB_LVT); (0xB1CC, 0xB1CC, GCB_LV);
  (0xB1CD, 0xB1E7, GCB_LVT); (0xB1E8, 0xB1E8, GCB_LV); (0xB1E9, 0xB203, GCB_LVT); (0xB204, 0xB204, GCB_LV);
  (0xB205, 0xB21F, GCB_LVT); (0xB220, 0xB220, GCB_LV); (0xB221, 0xB23B, GCB_LVT); (0xB23C, 0xB23C, GCB_LV);
  (0xB23D, 0xB257, GCB_LVT); (0xB258, 0xB258, GCB_LV); (0xB259, 0xB273, GCB_LVT); (0xB274, 0xB274, GCB_LV);
  (0xB275, 0xB28F, GCB_LVT); (0xB290, 0xB290, GCB_LV); (0xB291, 0xB2AB, GCB_LVT); (0xB2AC, 0xB2AC, GCB_LV);
  (0xB2AD, 0xB2C7, GCB_LVT); (0xB2C8, 0xB2C8, GCB_LV); (0xB2C9, 0xB2E3, GCB_LVT); (0xB2E4, 0xB2E4, GCB_LV);
  (0xB2E5, 0xB2FF, GCB_LVT); (0xB300, 0xB300, GCB_LV); (0xB301, 0xB31B, GCB_LVT); (0xB31C, 0xB31C, GCB_LV);
  (0xB31D, 0xB337, GCB_LVT); (0xB338, 0xB338, GCB_LV); (0xB339, 0xB353, GCB_LVT); (0xB354, 0xB354, GCB_LV);
  (0xB355, 0xB36F, GCB_LVT); (0xB370, 0xB370, GCB_LV); (0xB371, 0xB38B, GCB_LVT); (0xB38C, 0xB38C, GCB_LV);
  (0xB38D, 0xB3A7, GCB_LVT); (0xB3A8, 0xB3A8, GCB_LV); (0xB3A9, 0xB3C3, GCB_LVT); (0xB3C4, 0xB3C4, GCB_LV);
  (0xB3C5, 0xB3DF, GCB_LVT); (0xB3E0, 0xB3E0, GCB_LV); (0xB3E1, 0xB3FB, GCB_LVT); (0xB3FC, 0xB3FC, GCB_LV);
  (0xB3FD, 0xB417, GCB_LVT); (0xB418, 0xB418, GCB_LV); (0xB419, 0xB433, GCB_LVT); (0xB434, 0xB434, GCB_LV);
  (0xB435, 0xB44F, GCB_LVT); (0xB450, 0xB450, GCB_LV); (0xB451, 0xB46B, GCB_LVT); (0xB46C, 0xB46C, GCB_LV);
  (0xB46D, 0xB487, GCB_LVT); (0xB488, 0xB488, GCB_LV); (0xB489, 0xB4A3, GCB_LVT); (0xB4A4, 0xB4A4, GCB_LV);
  (0xB4A5, 0xB4BF, GCB_LVT); (0xB4C0, 0xB4C0, GCB_LV); (0xB4C1, 0xB4DB, GCB_LVT); (0xB4DC, 0xB4DC, GCB_LV);
  (0xB4DD, 0xB4F7, GCB_LVT); (0xB4F8, 0xB4F8, GCB_LV); (0xB4F9, 0xB513, GCB_LVT); (0xB514, 0xB514, GCB_LV);
  (0xB515, 0xB52F, GCB_LVT); (0xB530, 0xB530, GCB_LV); (0xB531, 0xB54B, GCB_LVT); (0xB54C, 0xB54C, GCB_LV);
  (0xB54D, 0xB567, GCB_LVT); (0xB568, 0xB568, GCB_LV); (0xB569, 0xB583, GCB_LVT); (0xB584, 0xB584, GCB_LV);
  (0xB585, 0xB59F, GCB_LVT); (0xB5A0, 0xB5A0, GCB_LV); (0xB5A1, 0xB5BB, GCB_LVT); (0xB5BC, 0xB5BC, GCB_LV);
  (0xB5BD, 0xB5D7, GCB_LVT); (0xB5D8, 0xB5D8, GCB_LV); (0xB5D9, 0xB5F3, GCB_LVT); (0xB5F4, 0xB5F4, GCB_LV);
  (0xB5F5, 0xB60F, GCB_LVT); (0xB610, 0xB610, GCB_LV); (0xB611, 0xB62B, GCB_LVT); (0xB62C, 0xB62C, GCB_LV);
  (0xB62D, 0xB647, GCB_LVT); (0xB648, 0xB648, GCB_LV); (0xB649, 0xB663, GCB_LVT); (0xB664, 0xB664, GCB_LV);
  (0xB665, 0xB67F, GCB_LVT); (0xB680, 0xB680, GCB_LV); (0xB681, 0xB69B, GCB_LVT); (0xB69C, 0xB69C, GCB_LV);
  (0xB69D, 0xB6B7, GCB_LVT); (0xB6B8, 0xB6B8, GCB_LV); (0xB6B9, 0xB6D3, GCB_LVT); (0xB6D4, 0xB6D4, GCB_LV);
  (0xB6D5, 0xB6EF, GCB_LVT); (0xB6F0, 0xB6F0, GCB_LV); (0xB6F1, 0xB70B, GCB_LVT); (0xB70C, 0xB70C, GCB_LV);
  (0xB70D, 0xB727, GCB_LVT); (0xB728, 0xB728, GCB_LV); (0xB729, 0xB743, GCB_LVT); (0xB744, 0xB744, GCB_LV);
  (0xB745, 0xB75F, GCB_LVT); (0xB760, 0xB760, GCB_LV); (0xB761, 0xB77B, GCB_LVT); (0xB77C, 0xB77C, GCB_LV);
  (0xB77D, 0xB797, GCB_LVT); (0xB798, 0xB798, GCB_LV); (0xB799, 0xB7B3, GCB_LVT); (0xB7B4, 0xB7B4, GCB_LV);
  (0xB7B5, 0xB7CF, GCB_LVT); (0xB7D0, 0xB7D0, GCB_LV); (0xB7D1, 0xB7EB, GCB_LVT); (0xB7EC, 0xB7EC, GCB_LV);
  (0xB7ED, 0xB807, GCB_LVT); (0xB808, 0xB808, GCB_LV); (0xB809, 0xB823, GCB_LVT); (0xB824, 0xB824, GCB_LV);
  (0xB825, 0xB83F, GCB_LVT); (0xB840, 0xB840, GCB_LV); (0xB841, 0xB85B, GCB_LVT); (0xB85C, 0xB85C, GCB_LV);
  (0xB85D, 0xB877, GCB_LVT); (0xB878, 0xB878, GCB_LV); (0xB879, 0xB893, GCB_LVT); (0xB894, 0xB894, GCB_LV);
  (0xB895, 0xB8AF, GCB_LVT); (0xB8B0, 0xB8B0, GCB_LV); (0xB8B1, 0xB8CB, GCB_LVT); (0xB8CC, 0xB8CC, GCB_LV);
  (0xB8CD, 0xB8E7, GCB_LVT); (0xB8E8, 0xB8E8, GCB_LV); (0xB8E9, 0xB903, GCB_LVT); (0xB904, 0xB904, GCB_LV);
  (0xB905, 0xB91F, GCB_LVT); (0xB920, 0xB920, GCB_LV); (0xB921, 0xB93B, GCB_LVT); (0xB93C, 0xB93C, GCB_LV);
  (0xB93D, 0xB957, GCB_LVT); (0xB958, 0xB958, GCB_LV); (0xB959, 0xB973, GCB_LVT); (0xB974, 0xB974, GCB_LV);
  (0xB975, 0xB98F, GCB_LVT); (0xB990, 0xB990, GCB_LV); (0xB991, 0xB9AB, GCB_LVT); (0xB9AC, 0xB9AC, GCB_LV);
  (0xB9AD, 0xB9C7, GCB_LVT); (0xB9C8, 0xB9C8, GCB_LV); (0xB9C9, 0xB9E3, GCB_LVT); (0xB9E4, 0xB9E4, GCB_LV);
  (0xB9E5, 0xB9FF, GCB_LVT); (0xBA00, 0xBA00, GCB_LV); (0xBA01, 0xBA1B, GCB_LVT); (0xBA1C, 0xBA1C, GCB_LV);
  (0xBA1D, 0xBA37, GCB_LVT); (0xBA38, 0xBA38, GCB_LV); (0xBA39, 0xBA53, GCB_LVT); (0xBA54, 0xBA54, GCB_LV);
  (0xBA55, 0xBA6F, GCB_LVT); (0xBA70, 0xBA70, GCB_LV); (0xBA71, 0xBA8B, GCB_LVT); (0xBA8C, 0xBA8C, GCB_LV);
  (0xBA8D, 0xBAA7, GCB_LVT); (0xBAA8, 0xBAA8, GCB_LV); (0xBAA9, 0xBAC3, GCB_LVT); (0xBAC4, 0xBAC4, GCB_LV);
  (0xBAC5, 0xBADF, GCB_LVT); (0xBAE0, 0xBAE0, GCB_LV); (0xBAE1, 0xBAFB, GCB_LVT); (0xBAFC, 0xBAFC, GCB_LV);
  (0xBAFD, 0xBB17, GCB_LVT); (0xBB18, 0xBB18, GCB_LV); (0xBB19, 0xBB33, GCB_LVT); (0xBB34, 0xBB34, GCB_LV);
  (0xBB35, 0xBB4F, GCB_LVT); (0xBB50, 0xBB50, GCB_LV); (0xBB51, 0xBB6B, GCB_LVT); (0xBB6C, 0xBB6C, GCB_LV);
  (0xBB6D, 0xBB87, GCB_LVT); (0xBB88, 0xBB88, GCB_LV); (0xBB89, 0xBBA3, GCB_LVT); (0xBBA4, 0xBBA4, GCB_LV);
  (0xBBA5, 0xBBBF, GCB_LVT); (0xBBC0, 0xBBC0, GCB_LV); (0xBBC1, 0xBBDB, GCB_LVT); (0xBBDC, 0xBBDC, GCB_LV);
  (0xBBDD, 0xBBF7, GCB_LVT); (0xBBF8, 0xBBF8, GCB_LV); (0xBBF9, 0xBC13, GCB_LVT); (0xBC14, 0xBC14, GCB_LV);
  (0xBC15, 0xBC2F, GCB_LVT); (0xBC30, 0xBC30, GCB_LV); (0xBC31, 0xBC4B, GCB_LVT); (0xBC4C, 0xBC4C, GCB_LV);
  (0xBC4D, 0xBC67, GCB_LVT); (0xBC68, 0xBC68, GCB_LV); (0xBC69, 0xBC83, GCB_LVT); (0xBC84, 0xBC84, GCB_LV);
  (0xBC85, 0xBC9F, GCB_LVT); (0xBCA0, 0xBCA0, GCB_LV); (0xBCA1, 0xBCBB, GCB_LVT); (0xBCBC, 0xBCBC, GCB_LV);
  (0xBCBD, 0xBCD7, GCB_LVT); (0xBCD8, 0xBCD8, GCB_LV); (0xBCD9, 0xBCF3, GCB_LVT); (0xBCF4, 0xBCF4, GCB_LV);
  (0xBCF5, 0xBD0F, GCB_LVT); (0xBD10, 0xBD10, GCB_LV); (0xBD11, 0xBD2B, GCB_LVT); (0xBD2C, 0xBD2C, GCB_LV);
  (0xBD2D, 0xBD47, GCB_LVT); (0xBD48, 0xBD48, GCB_LV); (0xBD49, 0xBD63, GCB_LVT); (0xBD64, 0xBD64, GCB_LV);
  (0xBD65, 0xBD7F, GCB_LVT); (0xBD80, 0xBD80, GCB_LV); (0xBD81, 0xBD9B, GCB_LVT); (0xBD9C, 0xBD9C, GCB_LV);
  (0xBD9D, 0xBDB7, GCB_LVT); (0xBDB8, 0xBDB8, GCB_LV); (0xBDB9, 0xBDD3, GCB_LVT); (0xBDD4, 0xBDD4, GCB_LV);
  (0xBDD5, 0xBDEF, GCB_LVT); (0xBDF0, 0xBDF0, GCB_LV); (0xBDF1, 0xBE0B, GCB_LVT); (0xBE0C, 0xBE0C, GCB_LV);
  (0xBE0D, 0xBE27, GCB_LVT); (0xBE28, 0xBE28, GCB_LV); (0xBE29, 0xBE43, GCB_LVT); (0xBE44, 0xBE44, GCB_LV);
  (0xBE45, 0xBE5F, GCB_LVT); (0xBE60, 0xBE60, GCB_LV); (0xBE61, 0xBE7B, GCB_LVT); (0xBE7C, 0xBE7C, GCB_LV);
  (0xBE7D, 0xBE97, GCB_LVT); (0xBE98, 0xBE98, GCB_LV); (0xBE99, 0xBEB3, GCB_LVT); (0xBEB4, 0xBEB4, GCB_LV);
  (0xBEB5, 0xBECF, GCB_LVT); (0xBED0, 0xBED0, GCB_LV); (0xBED1, 0xBEEB, GCB_LVT); (0xBEEC, 0xBEEC, GCB_LV);
  (0xBEED, 0xBF07, GCB_LVT); (0xBF08, 0xBF08, GCB_LV); (0xBF09, 0xBF23, GCB_LVT); (0xBF24, 0xBF24, GCB_LV);
  (0xBF25, 0xBF3F, GCB_LVT); (0xBF40, 0xBF40, GCB_LV); (0xBF41, 0xBF5B, GCB_LVT); (0xBF5C, 0xBF5C, GCB_LV);
  (0xBF5D, 0xBF77, GCB_LVT); (0xBF78, 0xBF78, GCB_LV); (0xBF79, 0xBF93, GCB_LVT); (0xBF94, 0xBF94, GCB_LV);
  (0xBF95, 0xBFAF, GCB_LVT); (0xBFB0, 0xBFB0, GCB_LV); (0xBFB1, 0xBFCB, GCB_LVT); (0xBFCC, 0xBFCC, GCB_LV);
  (0xBFCD, 0xBFE7, GCB_LVT); (0xBFE8, 0xBFE8, GCB_LV); (0xBFE9, 0xC003, GCB_LVT); (0xC004, 0xC004, GCB_LV);
  (0xC005, 0xC01F, GCB_LVT); (0xC020, 0xC020, GCB_LV); (0xC021, 0xC03B, GCB_LVT); (0xC03C, 0xC03C, GCB_LV);
  (0xC03D, 0xC057, GCB_LVT); (0xC058, 0xC058, GCB_LV); (0xC059, 0xC073, GCB_LVT); (0xC074, 0xC074, GCB_LV);
  (0xC075, 0xC08F, GCB_LVT); (0xC090, 0xC090, GCB_LV); (0xC091, 0xC0AB, GCB_LVT); (0xC0AC, 0xC0AC, GCB_LV);
  (0xC0AD, 0xC0C7, GCB_LVT); (0xC0C8, 0xC0C8, GCB_LV); (0xC0C9, 0xC0E3, GCB_LVT); (0xC0E4, 0xC0E4, GCB_LV);
  (0xC0E5, 0xC0FF, GCB_LVT); (0xC100, 0xC100, GCB_LV); (0xC101, 0xC11B, GCB_LVT); (0xC11C, 0xC11C, GCB_LV);
  (0xC11D, 0xC137, GCB_LVT); (0xC138, 0xC138, GCB_LV); (0xC139, 0xC153, GCB_LVT); (0xC154, 0xC154, GCB_LV);
  (0xC155, 0xC16F, GCB_LVT); (0xC170, 0xC170, GCB_LV); (0xC171, 0xC18B, GCB_LVT); (0xC18C, 0xC18C, GCB_LV);
  (0xC18D, 0xC1A7, GCB_LVT); (0xC1A8, 0xC1A8, GCB_LV); (0xC1A9, 0xC1C3, GCB_LVT); (0xC1C4, 0xC1C4, GCB_LV);
  (0xC1C5, 0xC1DF, GCB_LVT); (0xC1E0, 0xC1E0, GCB_LV); (0xC1E1, 0xC1FB, GCB_LVT); (0xC1FC, 0xC1FC, GCB_LV);
  (0xC1FD, 0xC217, GCB_LVT); (0xC218, 0xC218, GCB_LV); (0xC219, 0xC233, GCB_LVT); (0xC234, 0xC234, GCB_LV);
  (0xC235, 0xC24F, GCB_LVT); (0xC250, 0xC250, GCB_LV); (0xC251, 0xC26B, GCB_LVT); (0xC26C, 0xC26C, GCB_LV);
  (0xC26D, 0xC287, GCB_LVT); (0xC288, 0xC288, GCB_LV); (0xC289, 0xC2A3, GCB_LVT); (0xC2A4, 0xC2A4, GCB_LV);
  (0xC2A5, 0xC2BF, GCB_LVT); (0xC2C0, 0xC2C0, GCB_LV); (0xC2C1, 0xC2DB, GCB_LVT); (0xC2DC, 0xC2DC, GCB_LV);
  (0xC2DD, 0xC2F7, GCB_LVT); (0xC2F8, 0xC2F8, GCB_LV); (0xC2F9, 0xC313, GCB_LVT); (0xC314, 0xC314, GCB_LV);
  (0xC315, 0xC32F, GCB_LVT); (0xC330, 0xC330, GCB_LV); (0xC331, 0xC34B, GCB_LVT); (0xC34C, 0xC34C, GCB_LV);
  (0xC34D, 0xC367, GCB_LVT); (0xC368, 0xC368, GCB_LV); (0xC369, 0xC383, GCB_LVT); (0xC384, 0xC384, GCB_LV);
  (0xC385, 0xC39F, GCB_LVT); (0xC3A0, 0xC3A0, GCB_LV); (0xC3A1, 0xC3BB, GCB_LVT); (0xC3BC, 0xC3BC, GCB_LV);
  (0xC3BD, 0xC3D7, GCB_LVT); (0xC3D8, 0xC3D8, GCB_LV); (0xC3D9, 0xC3F3, GCB_LVT); (0xC3F4, 0xC3F4, GCB_LV);
  (0xC3F5, 0xC40F, GCB_LVT); (0xC410, 0xC410, GCB_LV); (0xC411, 0xC42B, GCB_LVT); (0xC42C, 0xC42C, GCB_LV);
  (0xC42D, 0xC447, GCB_LVT); (0xC448, 0xC448, GCB_LV); (0xC449, 0xC463, GCB_LVT); (0xC464, 0xC464, GCB_LV);
  (0xC465, 0xC47F, GCB_LVT); (0xC480, 0xC480, GCB_LV); (0xC481, 0xC49B, GCB_LVT); (0xC49C, 0xC49C, GCB_LV);
  (0xC49D, 0xC4B7, GCB_LVT); (0xC4B8, 0xC4B8, GCB_LV); (0xC4B9, 0xC4D3, GCB_LVT); (0xC4D4, 0xC4D4, GCB_LV);
  (0xC4D5, 0xC4EF, GCB_LVT); (0xC4F0, 0xC4F0, GCB_LV); (0xC4F1, 0xC50B, GCB_LVT); (0xC50C, 0xC50C, GCB_LV);
  (0xC50D, 0xC527, GCB_LVT); (0xC528, 0xC528, GCB_LV); (0xC529, 0xC543, GCB_LVT); (0xC544, 0xC544, GCB_LV);
  (0xC545, 0xC55F, GCB_LVT); (0xC560, 0xC560, GCB_LV); (0xC561, 0xC57B, GCB_LVT); (0xC57C, 0xC57C, GCB_LV);
  (0xC57D, 0xC597, GCB_LVT); (0xC598, 0xC598, GCB_LV); (0xC599, 0xC5B3, GCB_LVT); (0xC5B4, 0xC5B4, GCB_LV);
  (0xC5B5, 0xC5CF, GCB_LVT); (0xC5D0, 0xC5D0, GCB_LV); (0xC5D1, 0xC5EB, GCB_LVT); (0xC5EC, 0xC5EC, GCB_LV);
  (0xC5ED, 0xC607, GCB_LVT); (0xC608, 0xC608, GCB_LV); (0xC609, 0xC623, GCB_LVT); (0xC624, 0xC624, GCB_LV);
  (0xC625, 0xC63F, GCB_LVT); (0xC640, 0xC640, GCB_LV); (0xC641, 0xC65B, GCB_LVT); (0xC65C, 0xC65C, GCB_LV);
  (0xC65D, 0xC677, GCB_LVT); (0xC678, 0xC678, GCB_LV); (0xC679, 0xC693, GCB_LVT); (0xC694, 0xC694, GCB_LV);
  (0xC695, 0xC6AF, GCB_LVT); (0xC6B0, 0xC6B0, GCB_LV); (0xC6B1, 0xC6CB, GCB_LVT); (0xC6CC, 0xC6CC, GCB_LV);
  (0xC6CD, 0xC6E7, GCB_LVT); (0xC6E8, 0xC6E8, GCB_LV); (0xC6E9, 0xC703, GCB_LVT); (0xC704, 0xC704, GCB_LV);
  (0xC705, 0xC71F, GCB_LVT); (0xC720, 0xC720, GCB_LV); (0xC721, 0xC73B, GCB_LVT); (0xC73C, 0xC73C, GCB_LV);
  (0xC73D, 0xC757, GCB_LVT); (0xC758, 0xC758, GCB_LV); (0xC759, 0xC773, GCB_LVT); (0xC774, 0xC774, GCB_LV);
  (0xC775, 0xC78F, GCB_LVT); (0xC790, 0xC790, GCB_LV); (0xC791, 0xC7AB, GCB_LVT); (0xC7AC, 0xC7AC, GCB_LV);
  (0xC7AD, 0xC7C7, GCB_LVT); (0xC7C8, 0xC7C8, GCB_LV); (0xC7C9, 0xC7E3, GCB_LVT); (0xC7E4, 0xC7E4, GCB_LV);
  (0xC7E5, 0xC7FF, GCB_LVT); (0xC800, 0xC800, GCB_LV); (0xC801, 0xC81B, GCB_LVT); (0xC81C, 0xC81C, GCB_LV);
  (0xC81D, 0xC837, GCB_LVT); (0xC838, 0xC838, GCB_LV); (0xC839, 0xC853, GCB_LVT); (0xC854, 0xC854, GCB_LV);
  (0xC855, 0xC86F, GCB_LVT); (0xC870, 0xC870, GCB_LV); (0xC871, 0xC88B, GCB_LVT); (0xC88C, 0xC88C, GCB_LV);
  (0xC88D, 0xC8A7, GCB_LVT); (0xC8A8, 0xC8A8, GCB_LV); (0xC8A9, 0xC8C3, GCB_LVT); (0xC8C4, 0xC8C4, GCB_LV);
  (0xC8C5, 0xC8DF, GCB_LVT); (0xC8E0, 0xC8E0, GCB_LV); (0xC8E1, 0xC8FB, GCB_LVT); (0xC8FC, 0xC8FC, GCB_LV);
  (0xC8FD, 0xC917, GCB_LVT); (0xC918, 0xC918, GCB_LV); (0xC919, 0xC933, GCB_LVT); (0xC934, 0xC934, GCB_LV);
  (0xC935, 0xC94F, GCB_LVT); (0xC950, 0xC950, GCB_LV); (0xC951, 0xC96B, GCB_LVT); (0xC96C, 0xC96C, GCB_LV);
  (0xC96D, 0xC987, GCB_LVT); (0xC988, 0xC988, GCB_LV); (0xC989, 0xC9A3, GCB_LVT); (0xC9A4, 0xC9A4, GCB_LV);
  (0xC9A5, 0xC9BF, GCB_LVT); (0xC9C0, 0xC9C0, GCB_LV); (0xC9C1, 0xC9DB, GCB_LVT); (0xC9DC, 0xC9DC, GCB_LV);
  (0xC9DD, 0xC9F7, GCB_LVT); (0xC9F8, 0xC9F8, GCB_LV); (0xC9F9, 0xCA13, GCB_LVT); (0xCA14, 0xCA14, GCB_LV);
  (0xCA15, 0xCA2F, GCB_LVT); (0xCA30, 0xCA30, GCB_LV); (0xCA31, 0xCA4B, GCB_LVT); (0xCA4C, 0xCA4C, GCB_LV);
  (0xCA4D, 0xCA67, GCB_LVT); (0xCA68, 0xCA68, GCB_LV); (0xCA69, 0xCA83, GCB_LVT); (0xCA84, 0xCA84, GCB_LV);
  (0xCA85, 0xCA9F, GCB_LVT); (0xCAA0, 0xCAA0, GCB_LV); (0xCAA1, 0xCABB, GCB_LVT); (0xCABC, 0xCABC, GCB_LV);
  (0xCABD, 0xCAD7, GCB_LVT); (0xCAD8, 0xCAD8, GCB_LV); (0xCAD9, 0xCAF3, GCB_LVT); (0xCAF4, 0xCAF4, GCB_LV);
  (0xCAF5, 0xCB0F, GCB_LVT); (0xCB10, 0xCB10, GCB_LV); (0xCB11, 0xCB2B, GCB_LVT); (0xCB2C, 0xCB2C, GCB_LV);
  (0xCB2D, 0xCB47, GCB_LVT); (0xCB48, 0xCB48, GCB_LV); (0xCB49, 0xCB63, GCB_LVT); (0xCB64, 0xCB64, GCB_LV);
  (0xCB65, 0xCB7F, GCB_LVT); (0xCB80, 0xCB80, GCB_LV); (0xCB81, 0xCB9B, GCB_LVT); (0xCB9C, 0xCB9C, GCB_LV);
  (0xCB9D, 0xCBB7, GCB_LVT); (0xCBB8, 0xCBB8, GCB_LV); (0xCBB9, 0xCBD3, GCB_LVT); (0xCBD4, 0xCBD4, GCB_LV);
  (0xCBD5, 0xCBEF, GCB_LVT); (0xCBF0, 0xCBF0, GCB_LV); (0xCBF1, 0xCC0B, GCB_LVT); (0xCC0C, 0xCC0C, GCB_LV);
  (0xCC0D, 0xCC27, GCB_LVT); (0xCC28, 0xCC28, GCB_LV); (0xCC29, 0xCC43, GCB_LVT); (0xCC44, 0xCC44, GCB_LV);
  (0xCC45, 0xCC5F, GCB_LVT); (0xCC60, 0xCC60, GCB_LV); (0xCC61, 0xCC7B, GCB_LVT); (0xCC7C, 0xCC7C, GCB_LV);
  (0xCC7D, 0xCC97, GCB_LVT); (0xCC98, 0xCC98, GCB_LV); (0xCC99, 0xCCB3, GCB_LVT); (0xCCB4, 0xCCB4, GCB_LV);
  (0xCCB5, 0xCCCF, GCB_LVT); (0xCCD0, 0xCCD0, GCB_LV); (0xCCD1, 0xCCEB, GCB_LVT); (0xCCEC, 0xCCEC, GCB_LV);
  (0xCCED, 0xCD07, GCB_LVT); (0xCD08, 0xCD08, GCB_LV); (0xCD09, 0xCD23, GCB_LVT); (0xCD24, 0xCD24, GCB_LV);
  (0xCD25, 0xCD3F, GCB_LVT); (0xCD40, 0xCD40, GCB_LV); (0xCD41, 0xCD5B, GCB_LVT); (0xCD5C, 0xCD5C, GCB_LV);
  (0xCD5D, 0xCD77, GCB_LVT); (0xCD78, 0xCD78, GCB_LV); (0xCD79, 0xCD93, GCB_LVT); (0xCD94, 0xCD94, GCB_LV);
  (0xCD95, 0xCDAF, GCB_LVT); (0xCDB0, 0xCDB0, GCB_LV); (0xCDB1, 0xCDCB, GCB_LVT); (0xCDCC, 0xCDCC, GCB_LV);
  (0xCDCD, 0xCDE7, GCB_LVT); (0xCDE8, 0xCDE8, GCB_LV); (0xCDE9, 0xCE03, GCB_LVT); (0xCE04, 0xCE04, GCB_LV);
  (0xCE05, 0xCE1F, GCB_LVT); (0xCE20, 0xCE20, GCB_LV); (0xCE21, 0xCE3B, GCB_LVT); (0xCE3C, 0xCE3C, GCB_LV);
  (0xCE3D, 0xCE57, GCB_LVT); (0xCE58, 0xCE58, GCB_LV); (0xCE59, 0xCE73, GCB_LVT); (0xCE74, 0xCE74, GCB_LV);
  (0xCE75, 0xCE8F, GCB_LVT); (0xCE90, 0xCE90, GCB_LV); (0xCE91, 0xCEAB, GCB_LVT); (0xCEAC, 0xCEAC, GCB_LV);
  (0xCEAD, 0xCEC7, GCB_LVT); (0xCEC8, 0xCEC8, GCB_LV); (0xCEC9, 0xCEE3, GCB_LVT); (0xCEE4, 0xCEE4, GCB_LV);
  (0xCEE5, 0xCEFF, GCB_LVT); (0xCF00, 0xCF00, GCB_LV); (0xCF01, 0xCF1B, GCB_LVT); (0xCF1C, 0xCF1C, GCB_LV);
  (0xCF1D, 0xCF37, GCB_LVT); (0xCF38, 0xCF38, GCB_LV); (0xCF39, 0xCF53, GCB_LVT); (0xCF54, 0xCF54, GCB_LV);
  (0xCF55, 0xCF6F, GCB_LVT); (0xCF70, 0xCF70, GCB_LV); (0xCF71, 0xCF8B, GCB_LVT); (0xCF8C, 0xCF8C, GCB_LV);
  (0xCF8D, 0xCFA7, GCB_LVT); (0xCFA8, 0xCFA8, GCB_LV); (0xCFA9, 0xCFC3, GCB_LVT); (0xCFC4, 0xCFC4, GCB_LV);
  (0xCFC5, 0xCFDF, GCB_LVT); (0xCFE0, 0xCFE0, GCB_LV); (0xCFE1, 0xCFFB, GCB_LVT); (0xCFFC, 0xCFFC, GCB_LV);
  (0xCFFD, 0xD017, GCB_LVT); (0xD018, 0xD018, GCB_LV); (0xD019, 0xD033, GCB_LVT); (0xD034, 0xD034, GCB_LV);
  (0xD035, 0xD04F, GCB_LVT); (0xD050, 0xD050, GCB_LV); (0xD051, 0xD06B, GCB_LVT); (0xD06C, 0xD06C, GCB_LV);
  (0xD06D, 0xD087, GCB_LVT); (0xD088, 0xD088, GCB_LV); (0xD089, 0xD0A3, GCB_LVT); (0xD0A4, 0xD0A4, GCB_LV);
  (0xD0A5, 0xD0BF, GCB_LVT); (0xD0C0, 0xD0C0, GCB_LV); (0xD0C1, 0xD0DB, GCB_LVT); (0xD0DC, 0xD0DC, GCB_LV);
  (0xD0DD, 0xD0F7, GCB_LVT); (0xD0F8, 0xD0F8, GCB_LV); (0xD0F9, 0xD113, GCB_LVT); (0xD114, 0xD114, GCB_LV);
  (0xD115, 0xD12F, GCB_LVT); (0xD130, 0xD130, GCB_LV); (0xD131, 0xD14B, GCB_LVT); (0xD14C, 0xD14C, GCB_LV);
  (0xD14D, 0xD167, GCB_LVT); (0xD168, 0xD168, GCB_LV); (0xD169, 0xD183, GCB_LVT); (0xD184, 0xD184, GCB_LV);
  (0xD185, 0xD19F, GCB_LVT); (0xD1A0, 0xD1A0, GCB_LV); (0xD1A1, 0xD1BB, GCB_LVT); (0xD1BC, 0xD1BC, GCB_LV);
  (0xD1BD, 0xD1D7, GCB_LVT); (0xD1D8, 0xD1D8, GCB_LV); (0xD1D9, 0xD1F3, GCB_LVT); (0xD1F4, 0xD1F4, GCB_LV);
  (0xD1F5, 0xD20F, GCB_LVT); (0xD210, 0xD210, GCB_LV); (0xD211, 0xD22B, GCB_LVT); (0xD22C, 0xD22C, GCB_LV);
  (0xD22D, 0xD247, GCB_LVT); (0xD248, 0xD248, GCB_LV); (0xD249, 0xD263, GCB_LVT); (0xD264, 0xD264, GCB_LV);
  (0xD265, 0xD27F, GCB_LVT); (0xD280, 0xD280, GCB_LV); (0xD281, 0xD29B, GCB_LVT); (0xD29C, 0xD29C, GCB_LV);
  (0xD29D, 0xD2B7, GCB_LVT); (0xD2B8, 0xD2B8, GCB_LV); (0xD2B9, 0xD2D3, GCB_LVT); (0xD2D4, 0xD2D4, GCB_LV);
  (0xD2D5, 0xD2EF, GCB_LVT); (0xD2F0, 0xD2F0, GCB_LV); (0xD2F1, 0xD30B, GCB_LVT); (0xD30C, 0xD30C, GCB_LV);
  (0xD30D, 0xD327, GCB_LVT); (0xD328, 0xD328, GCB_LV); (0xD329, 0xD343, GCB_LVT); (0xD344, 0xD344, GCB_LV);
  (0xD345, 0xD35F, GCB_LVT); (0xD360, 0xD360, GCB_LV); (0xD361, 0xD37B, GCB_LVT); (0xD37C, 0xD37C, GCB_LV);
  (0xD37D, 0xD397, GCB_LVT); (0xD398, 0xD398, GCB_LV); (0xD399, 0xD3B3, GCB_LVT); (0xD3B4, 0xD3B4, GCB_LV);
  (0xD3B5, 0xD3CF, GCB_LVT); (0xD3D0, 0xD3D0, GCB_LV); (0xD3D1, 0xD3EB, GCB_LVT); (0xD3EC, 0xD3EC, GCB_LV);
  (0xD3ED, 0xD407, GCB_LVT); (0xD408, 0xD408, GCB_LV); (0xD409, 0xD423, GCB_LVT); (0xD424, 0xD424, GCB_LV);
  (0xD425, 0xD43F, GCB_LVT); (0xD440, 0xD440, GCB_LV); (0xD441, 0xD45B, GCB_LVT); (0xD45C, 0xD45C, GCB_LV);
  (0xD45D, 0xD477, GCB_LVT); (0xD478, 0xD478, GCB_LV); (0xD479, 0xD493, GCB_LVT); (0xD494, 0xD494, GCB_LV);
  (0xD495, 0xD4AF, GCB_LVT); (0xD4B0, 0xD4B0, GCB_LV); (0xD4B1, 0xD4CB, GCB_LVT); (0xD4CC, 0xD4CC, GCB_LV);
  (0xD4CD, 0xD4E7, GCB_LVT); (0xD4E8, 0xD4E8, GCB_LV); (0xD4E9, 0xD503, GCB_LVT); (0xD504, 0xD504, GCB_LV);
  (0xD505, 0xD51F, GCB_LVT); (0xD520, 0xD520, GCB_LV); (0xD521, 0xD53B, GCB_LVT); (0xD53C, 0xD53C, GCB_LV);
  (0xD53D, 0xD557, GCB_LVT); (0xD558, 0xD558, GCB_LV); (0xD559, 0xD573, GCB_LVT); (0xD574, 0xD574, GCB_LV);
  (0xD575, 0xD58F, GCB_LVT); (0xD590, 0xD590, GCB_LV); (0xD591, 0xD5AB, GCB_LVT); (0xD5AC, 0xD5AC, GCB_LV);
  (0xD5AD, 0xD5C7, GCB_LVT); (0xD5C8, 0xD5C8, GCB_LV); (0xD5C9, 0xD5E3, GCB_LVT); (0xD5E4, 0xD5E4, GCB_LV);
  (0xD5E5, 0xD5FF, GCB_LVT); (0xD600, 0xD600, GCB_LV); (0xD601, 0xD61B, GCB_LVT); (0xD61C, 0xD61C, GCB_LV);
  (0xD61D, 0xD637, GCB_LVT); (0xD638, 0xD638, GCB_LV); (0xD639, 0xD653, GCB_LVT); (0xD654, 0xD654, GCB_LV);
  (0xD655, 0xD66F, GCB_LVT); (0xD670, 0xD670, GCB_LV); (0xD671, 0xD68B, GCB_LVT); (0xD68C, 0xD68C, GCB_LV);
  (0xD68D, 0xD6A7, GCB_LVT); (0xD6A8, 0xD6A8, GCB_LV); (0xD6A9, 0xD6C3, GCB_LVT); (0xD6C4, 0xD6C4, GCB_LV);
  (0xD6C5, 0xD6DF, GCB_LVT); (0xD6E0, 0xD6E0, GCB_LV); (0xD6E1, 0xD6FB, GCB_LVT); (0xD6FC, 0xD6FC, GCB_LV);
  (0xD6FD, 0xD717, GCB_LVT); (0xD718, 0xD718, GCB_LV); (0xD719, 0xD733, GCB_LVT); (0xD734, 0xD734, GCB_LV);
  (0xD735, 0xD74F, GCB_LVT); (0xD750, 0xD750, GCB_LV); (0xD751, 0xD76B, GCB_LVT); (0xD76C, 0xD76C, GCB_LV);
  (0xD76D, 0xD787, GCB_LVT); (0xD788, 0xD788, GCB_LV); (0xD789, 0xD7A3, GCB_LVT); (0xD7B0, 0xD7C6, GCB_V);
  (0xD7CB, 0xD7FB, GCB_T); (0xFB1E, 0xFB1E, GCB_Extend); (0xFE00, 0xFE0F, GCB_Extend); (0xFE20, 0xFE2F, GCB_Extend);
  (0xFEFF, 0xFEFF, GCB_Control); (0xFF9E, 0xFF9F, GCB_Extend); (0xFFF0, 0xFFFB, GCB_Control); (0x101FD, 0x101FD, GCB_Extend);
  (0x102E0, 0x102E0, GCB_Extend); (0x10376, 0x1037A, GCB_Extend); (0x10A01, 0x10A03, GCB_Extend); (0x10A05, 0x10A06, GCB_Extend);
  (0x10A0C, 0x10A0F, GCB_Extend); (0x10A38, 0x10A3A, GCB_Extend); (0x10A3F, 0x10A3F, GCB_Extend); (0x10AE5, 0x10AE6, GCB_Extend);
  (0x10D24, 0x10D27, GCB_Extend); (0x10D69, 0x10D6D, GCB_Extend); (0x10EAB, 0x10EAC, GCB_Extend); (0x10EFA, 0x10EFF, GCB_Extend);
  (0x10F46, 0x10F50, GCB_Extend); (0x10F82, 0x10F85, GCB_Extend); (0x11000, 0x11000, GCB_SpacingMark); (0x11001, 0x11001, GCB_Extend);
  (0x11002, 0x11002, GCB_SpacingMark); (0x11038, 0x11046, GCB_Extend); (0x11070, 0x11070, GCB_Extend); (0x11073, 0x11074, GCB_Extend);
  (0x1107F, 0x11081, GCB_Extend); (0x11082, 0x11082, GCB_SpacingMark); (0x110B0, 0x110B2, GCB_SpacingMark); (0x110B3, 0x110B6, GCB_Extend);
  (0x110B7, 0x110B8, GCB_SpacingMark); (0x110B9, 0x110BA, GCB_Extend); (0x110BD, 0x110BD, GCB_Prepend); (0x110C2, 0x110C2, GCB_Extend);
  (0x110CD, 0x110CD, GCB_Prepend); (0x11100, 0x11102, GCB_Extend); (0x11127, 0x1112B, GCB_Extend); (0x1112C, 0x1112C, GCB_SpacingMark);
  (0x1112D, 0x11134, GCB_Extend); (0x11145, 0x11146, GCB_SpacingMark); (0x11173, 0x11173, GCB_Extend); (0x11180, 0x11181, GCB_Extend);
  (0x11182, 0x11182, GCB_SpacingMark); (0x111B3, 0x111B5, GCB_SpacingMark); (0x111B6, 0x111BE, GCB_Extend); (0x111BF, 0x111BF, GCB_SpacingMark);
  (0x111C0, 0x111C0, GCB_Extend); (0x111C2, 0x111C3, GCB_Prepend); (0x111C9, 0x111CC, GCB_Extend); (0x111CE, 0x111CE, GCB_SpacingMark);
  (0x111CF, 0x111CF, GCB_Extend); (0x1122C, 0x1122E, GCB_SpacingMark); (0x1122F, 0x11231, GCB_Extend); (0x11232, 0x11233, GCB_SpacingMark);
  (0x11234, 0x11237, GCB_Extend); (0x1123E, 0x1123E, GCB_Extend); (0x11241, 0x11241, GCB_Extend); (0x112DF, 0x112DF, GCB_Extend);
  (0x112E0, 0x112E2, GCB_SpacingMark); (0x112E3, 0x112EA, GCB_Extend); (0x11300, 0x11301, GCB_Extend); (0x11302, 0x11303, GCB_SpacingMark);
  (0x1133B, 0x1133C, GCB_Extend); (0x1133E, 0x1133E, GCB_Extend); (0x1133F, 0x1133F, GCB_SpacingMark); (0x11340, 0x11340, GCB_Extend);
  (0x11341, 0x11344, GCB_SpacingMark); (0x11347, 0x11348, GCB_SpacingMark); (0x1134B, 0x1134C, GCB_SpacingMark); (0x1134D, 0x1134D, GCB_Extend);
  (0x11357, 0x11357, GCB_Extend); (0x11362, 0x11363, GCB_SpacingMark); (0x11366, 0x1136C, GCB_Extend); (0x11370, 0x11374, GCB_Extend);
  (0x113B8, 0x113B8, GCB_Extend); (0x113B9, 0x113BA, GCB_SpacingMark); (0x113BB, 0x113C0, GCB_Extend); (0x113C2, 0x113C2, GCB_Extend);
  (0x113C5, 0x113C5, GCB_Extend); (0x113C7, 0x113C9, GCB_Extend); (0x113CA, 0x113CA, GCB_SpacingMark); (0x113CC, 0x113CD, GCB_SpacingMark);
  (0x113CE, 0x113D0, GCB_Extend); (0x113D1, 0x113D1, GCB_Prepend); (0x113D2, 0x113D2, GCB_Extend); (0x113E1, 0x113E2, GCB_Extend);
  (0x11435, 0x11437, GCB_SpacingMark); (0x11438, 0x1143F, GCB_Extend); (0x11440, 0x11441, GCB_SpacingMark); (0x11442, 0x11444, GCB_Extend);
  (0x11445, 0x11445, GCB_SpacingMark); (0x11446, 0x11446, GCB_Extend); (0x1145E, 0x1145E, GCB_Extend); (0x114B0, 0x114B0, GCB_Extend);
  (0x114B1, 0x114B2, GCB_SpacingMark); (0x114B3, 0x114B8, GCB_Extend); (0x114B9, 0x114B9, GCB_SpacingMark); (0x114BA, 0x114BA, GCB_Extend);
  (0x114BB, 0x114BC, GCB_SpacingMark); (0x114BD, 0x114BD, GCB_Extend); (0x114BE, 0x114BE, GCB_SpacingMark); (0x114BF, 0x114C0, GCB_Extend);
  (0x114C1, 0x114C1, GCB_SpacingMark); (0x114C2, 0x114C3, GCB_Extend); (0x115AF, 0x115AF, GCB_Extend); (0x115B0, 0x115B1, GCB_SpacingMark);
  (0x115B2, 0x115B5, GCB_Extend); (0x115B8, 0x115BB, GCB_SpacingMark); (0x115BC, 0x115BD, GCB_Extend); (0x115BE, 0x115BE, GCB_SpacingMark);
  (0x115BF, 0x115C0, GCB_Extend); (0x115DC, 0x115DD, GCB_Extend); (0x11630, 0x11632, GCB_SpacingMark); (0x11633, 0x1163A, GCB_Extend);
  (0x1163B, 0x1163C, GCB_SpacingMark); (0x1163D, 0x1163D, GCB_Extend); (0x1163E, 0x1163E, GCB_SpacingMark); (0x1163F, 0x11640, GCB_Extend);
  (0x116AB, 0x116AB, GCB_Extend); (0x116AC, 0x116AC, GCB_SpacingMark); (0x116AD, 0x116AD, GCB_Extend); (0x116AE, 0x116AF, GCB_SpacingMark);
  (0x116B0, 0x116B7, GCB_Extend); (0x1171D, 0x1171D, GCB_Extend); (0x1171E, 0x1171E, GCB_SpacingMark); (0x1171F, 0x1171F, GCB_Extend);
  (0x11722, 0x11725, GCB_Extend); (0x11726, 0x11726, GCB_SpacingMark); (0x11727, 0x1172B, GCB_Extend); (0x1182C, 0x1182E, GCB_SpacingMark);
  (0x1182F, 0x11837, GCB_Extend); (0x11838, 0x11838, GCB_SpacingMark); (0x11839, 0x1183A, GCB_Extend); (0x11930, 0x11930, GCB_Extend);
  (0x11931, 0x11935, GCB_SpacingMark); (0x11937, 0x11938, GCB_SpacingMark); (0x1193B, 0x1193E, GCB_Extend); (0x1193F, 0x1193F, GCB_Prepend);
  (0x11940, 0x11940, GCB_SpacingMark); (0x11941, 0x11941, GCB_Prepend); (0x11942, 0x11942, GCB_SpacingMark); (0x11943, 0x11943, GCB_Extend);
  (0x119D1, 0x119D3, GCB_SpacingMark); (0x119D4, 0x119D7, GCB_Extend); (0x119DA, 0x119DB, GCB_Extend); (0x119DC, 0x119DF, GCB_SpacingMark);
  (0x119E0, 0x119E0, GCB_Extend); (0x119E4, 0x119E4, GCB_SpacingMark); (0x11A01, 0x11A0A, GCB_Extend); (0x11A33, 0x11A38, GCB_Extend);
  (0x11A39, 0x11A39, GCB_SpacingMark); (0x11A3B, 0x11A3E, GCB_Extend); (0x11A47, 0x11A47, GCB_Extend); (0x11A51, 0x11A56, GCB_Extend);
  (0x11A57, 0x11A58, GCB_SpacingMark); (0x11A59, 0x11A5B, GCB_Extend); (0x11A84, 0x11A89, GCB_Prepend); (0x11A8A, 0x11A96, GCB_Extend);
  (0x11A97, 0x11A97, GCB_SpacingMark); (0x11A98, 0x11A99, GCB_Extend); (0x11B60, 0x11B60, GCB_Extend); (0x11B61, 0x11B61, GCB_SpacingMark);
  (0x11B62, 0x11B64, GCB_Extend); (0x11B65, 0x11B65, GCB_SpacingMark); (0x11B66, 0x11B66, GCB_Extend); (0x11B67, 0x11B67, GCB_SpacingMark);
  (0x11C2F, 0x11C2F, GCB_SpacingMark); (0x11C30, 0x11C36, GCB_Extend); (0x11C38, 0x11C3D, GCB_Extend); (0x11C3E, 0x11C3E, GCB_SpacingMark);
  (0x11C3F, 0x11C3F, GCB_Extend); (0x11C92, 0x11CA7, GCB_Extend); (0x11CA9, 0x11CA9, GCB_SpacingMark); (0x11CAA, 0x11CB0, GCB_Extend);
  (0x11CB1, 0x11CB1, GCB_SpacingMark); (0x11CB2, 0x11CB3, GCB_Extend); (0x11CB4, 0x11CB4, GCB_SpacingMark); (0x11CB5, 0x11CB6, GCB_Extend);
  (0x11D31, 0x11D36, GCB_Extend); (0x11D3A, 0x11D3A, GCB_Extend); (0x11D3C, 0x11D3D, GCB_Extend); (0x11D3F, 0x11D45, GCB_Extend);
  (0x11D46, 0x11D46, GCB_Prepend); (0x11D47, 0x11D47, GCB_Extend); (0x11D8A, 0x11D8E, GCB_SpacingMark); (0x11D90, 0x11D91, GCB_Extend);
  (0x11D93, 0x11D94, GCB_SpacingMark); (0x11D95, 0x11D95, GCB_Extend); (0x11D96, 0x11D96, GCB_SpacingMark); (0x11D97, 0x11D97, GCB_Extend);
  (0x11EF3, 0x11EF4, GCB_Extend); (0x11EF5, 0x11EF6, GCB_SpacingMark); (0x11F00, 0x11F01, GCB_Extend); (0x11F02, 0x11F02, GCB_Prepend);
  (0x11F03, 0x11F03, GCB_SpacingMark); (0x11F34, 0x11F35, GCB_SpacingMark); (0x11F36, 0x11F3A, GCB_Extend); (0x11F3E, 0x11F3F, GCB_SpacingMark);
  (0x11F40, 0x11F42, GCB_Extend); (0x11F5A, 0x11F5A, GCB_Extend); (0x13430, 0x1343F, GCB_Control); (0x13440, 0x13440, GCB_Extend);
  (0x13447, 0x13455, GCB_Extend); (0x1611E, 0x16129, GCB_Extend); (0x1612A, 0x1612C, GCB_SpacingMark); (0x1612D, 0x1612F, GCB_Extend);
  (0x16AF0, 0x16AF4, GCB_Extend); (0x16B30, 0x16B36, GCB_Extend); (0x16D63, 0x16D63, GCB_V); (0x16D67, 0x16D6A, GCB_V);
  (0x16F4F, 0x16F4F, GCB_Extend); (0x16F51, 0x16F87, GCB_SpacingMark); (0x16F8F, 0x16F92, GCB_Extend); (0x16FE4, 0x16FE4, GCB_Extend);
  (0x16FF0, 0x16FF1, GCB_Extend); (0x1BC9D, 0x1BC9E, GCB_Extend); (0x1BCA0, 0x1BCA3, GCB_Control); (0x1CF00, 0x1CF2D, GCB_Extend);
  (0x1CF30, 0x1CF46, GCB_Extend); (0x1D165, 0x1D169, GCB_Extend); (0x1D16D, 0x1D172, GCB_Extend); (0x1D173, 0x1D17A, GCB_Control);
  (0x1D17B, 0x1D182, GCB_Extend); (0x1D185, 0x1D18B, GCB_Extend); (0x1D1AA, 0x1D1AD, GCB_Extend); (0x1D242, 0x1D244, GCB_Extend);
  (0x1DA00, 0x1DA36, GCB_Extend); (0x1DA3B, 0x1DA6C, GCB_Extend); (0x1DA75, 0x1DA75, GCB_Extend); (0x1DA84, 0x1DA84, GCB_Extend);
  (0x1DA9B, 0x1DA9F, GCB_Extend); (0x1DAA1, 0x1DAAF, GCB_Extend); (0x1E000, 0x1E006, GCB_Extend); (0x1E008, 0x1E018, GCB_Extend);
  (0x1E01B, 0x1E021, GCB_Extend); (0x1E023, 0x1E024, GCB_Extend); (0x1E026, 0x1E02A, GCB_Extend); (0x1E08F, 0x1E08F, GCB_Extend);
  (0x1E130, 0x1E136, GCB_Extend); (0x1E2AE, 0x1E2AE, GCB_Extend); (0x1E2EC, 0x1E2EF, GCB_Extend); (0x1E4EC, 0x1E4EF, GCB_Extend);
  (0x1E5EE, 0x1E5EF, GCB_Extend); (0x1E6E3, 0x1E6E3, GCB_Extend); (0x1E6E6, 0x1E6E6, GCB_Extend); (0x1E6EE, 0x1E6EF, GCB_Extend);
  (0x1E6F5, 0x1E6F5, GCB_Extend); (0x1E8D0, 0x1E8D6, GCB_Extend); (0x1E944, 0x1E94A, GCB_Extend); (0x1F1E6, 0x1F1FF, GCB_Regional_Indicator);
  (0x1F3FB, 0x1F3FF, GCB_Extend); (0xE0000, 0xE001F, GCB_Control); (0xE0020, 0xE007F, GCB_Extend); (0xE0080, 0xE00FF, GCB_Control);
  (0xE0100, 0xE01EF, GCB_Extend); (0xE01F0, 0xE0FFF, GCB_Control)
].

Definition incb_table : list (N * N * incb) := [
  (0x300, 0x36F, InCB_Extend); (0x483, 0x489, InCB_Extend); (0x591, 0x5BD, InCB_Extend); (0x5BF, 0x5BF, InCB_Extend);
  (0x5C1, 0x5C2, InCB_Extend); (0x5C4, 0x5C5, InCB_Extend); (0x5C7, 0x5C7, InCB_Extend); (0x610, 0x61A, InCB_Extend);
  (0x64B, 0x65F, InCB_Extend); (0x670, 0x670, InCB_Extend); (0x6D6, 0x6DC, InCB_Extend); (0x6DF, 0x6E4, InCB_Extend);
  (0x6E7, 0x6E8, InCB_Extend); (0x6EA, 0x6ED, InCB_Extend); (0x711, 0x711, InCB_Extend); (0x730, 0x74A, InCB_Extend);
  (0x7A6, 0x7B0, InCB_Extend); (0x7EB, 0x7F3, InCB_Extend); (0x7FD, 0x7FD, InCB_Extend); (0x816, 0x819, InCB_Extend);
  (0x81B, 0x823, InCB_Extend); (0x825, 0x827, InCB_Extend); (0x829, 0x82D, InCB_Extend); (0x859, 0x85B, InCB_Extend);
  (0x897, 0x89F, InCB_Extend); (0x8CA, 0x8E1, InCB_Extend); (0x8E3, 0x902, InCB_Extend); (0x915, 0x939, InCB_Consonant);
  (0x93A, 0x93A, InCB_Extend); (0x93C, 0x93C, InCB_Extend); (0x941, 0x948, InCB_Extend); (0x94D, 0x94D, InCB_Linker);
  (0x951, 0x957, InCB_Extend); (0x958, 0x95F, InCB_Consonant); (0x962, 0x963, InCB_Extend); (0x978, 0x97F, InCB_Consonant);
  (0x981, 0x981, InCB_Extend); (0x995, 0x9A8, InCB_Consonant); (0x9AA, 0x9B0, InCB_Consonant); (0x9B2, 0x9B2, InCB_Consonant);
  (0x9B6, 0x9B9, InCB_Consonant); (0x9BC, 0x9BC, InCB_Extend); (0x9BE, 0x9BE, InCB_Extend); (0x9C1, 0x9C4, InCB_Extend);
  (0x9CD, 0x9CD, InCB_Linker); (0x9D7, 0x9D7, InCB_Extend); (0x9DC, 0x9DD, InCB_Consonant); (0x9DF, 0x9DF, InCB_Consonant);
  (0x9E2, 0x9E3, InCB_Extend); (0x9F0, 0x9F1, InCB_Consonant); (0x9FE, 0x9FE, InCB_Extend); (0xA01, 0xA02, InCB_Extend);
  (0xA3C, 0xA3C, InCB_Extend); (0xA41, 0xA42, InCB_Extend); (0xA47, 0xA48, InCB_Extend); (0xA4B, 0xA4D, InCB_Extend);
  (0xA51, 0xA51, InCB_Extend); (0xA70, 0xA71, InCB_Extend); (0xA75, 0xA75, InCB_Extend); (0xA81, 0xA82, InCB_Extend);
  (0xA95, 0xAA8, InCB_Consonant); (0xAAA, 0xAB0, InCB_Consonant); (0xAB2, 0xAB3, InCB_Consonant); (0xAB5, 0xAB9, InCB_Consonant);
  (0xABC, 0xABC, InCB_Extend); (0xAC1, 0xAC5, InCB_Extend); (0xAC7, 0xAC8, InCB_Extend); (0xACD, 0xACD, InCB_Linker);
  (0xAE2, 0xAE3, InCB_Extend); (0xAF9, 0xAF9, InCB_Consonant); (0xAFA, 0xAFF, InCB_Extend); (0xB01, 0xB01, InCB_Extend);
  (0xB15, 0xB28, InCB_Consonant); (0xB2A, 0xB30, InCB_Consonant); (0xB32, 0xB33, InCB_Consonant); (0xB35, 0xB39, InCB_Consonant);
  (0xB3C, 0xB3C, InCB_Extend); (0xB3E, 0xB3F, InCB_Extend); (0xB41, 0xB44, InCB_Extend); (0xB4D, 0xB4D, InCB_Linker);
  (0xB55, 0xB57, InCB_Extend); (0xB5C, 0xB5D, InCB_Consonant); (0xB5F, 0xB5F, InCB_Consonant); (0xB62, 0xB63, InCB_Extend);
  (0xB71, 0xB71, InCB_Consonant); (0xB82, 0xB82, InCB_Extend); (0xBBE, 0xBBE, InCB_Extend); (0xBC0, 0xBC0, InCB_Extend);
  (0xBCD, 0xBCD, InCB_Extend); (0xBD7, 0xBD7, InCB_Extend); (0xC00, 0xC00, InCB_Extend); (0xC04, 0xC04, InCB_Extend);
  (0xC15, 0xC28, InCB_Consonant); (0xC2A, 0xC39, InCB_Consonant); (0xC3C, 0xC3C, InCB_Extend); (0xC3E, 0xC40, InCB_Extend);
  (0xC46, 0xC48, InCB_Extend); (0xC4A, 0xC4C, InCB_Extend); (0xC4D, 0xC4D, InCB_Linker); (0xC55, 0xC56, InCB_Extend);
  (0xC58, 0xC5A, InCB_Consonant); (0xC62, 0xC63, InCB_Extend); (0xC81, 0xC81, InCB_Extend); (0xCBC, 0xCBC, InCB_Extend);
  (0xCBF, 0xCC0, InCB_Extend); (0xCC2, 0xCC2, InCB_Extend); (0xCC6, 0xCC8, InCB_Extend); (0xCCA, 0xCCD, InCB_Extend);
  (0xCD5, 0xCD6, InCB_Extend); (0xCE2, 0xCE3, InCB_Extend); (0xD00, 0xD01, InCB_Extend); (0xD15, 0xD3A, InCB_Consonant);
  (0xD3B, 0xD3C, InCB_Extend); (0xD3E, 0xD3E, InCB_Extend); (0xD41, 0xD44, InCB_Extend); (0xD4D, 0xD4D, InCB_Linker);
  (0xD57, 0xD57, InCB_Extend); (0xD62, 0xD63, InCB_Extend); (0xD81, 0xD81, InCB_Extend); (0xDCA, 0xDCA, InCB_Extend);
  (0xDCF, 0xDCF, InCB_Extend); (0xDD2, 0xDD4, InCB_Extend); (0xDD6, 0xDD6, InCB_Extend); (0xDDF, 0xDDF, InCB_Extend);
  (0xE31, 0xE31, InCB_Extend); (0xE34, 0xE3A, InCB_Extend); (0xE47, 0xE4E, InCB_Extend); (0xEB1, 0xEB1, InCB_Extend);
  (0xEB4, 0xEBC, InCB_Extend); (0xEC8, 0xECE, InCB_Extend); (0xF18, 0xF19, InCB_Extend); (0xF35, 0xF35, InCB_Extend);
  (0xF37, 0xF37, InCB_Extend); (0xF39, 0xF39, InCB_Extend); (0xF71, 0xF7E, InCB_Extend); (0xF80, 0xF84, InCB_Extend);
  (0xF86, 0xF87, InCB_Extend); (0xF8D, 0xF97, InCB_Extend); (0xF99, 0xFBC, InCB_Extend); (0xFC6, 0xFC6, InCB_Extend);
  (0x1000, 0x102A, InCB_Consonant); (0x102D, 0x1030, InCB_Extend); (0x1032, 0x1037, InCB_Extend); (0x1039, 0x1039, InCB_Linker);
  (0x103A, 0x103A, InCB_Extend); (0x103D, 0x103E, InCB_Extend); (0x103F, 0x103F, InCB_Consonant); (0x1050, 0x1055, InCB_Consonant);
  (0x1058, 0x1059, InCB_Extend); (0x105A, 0x105D, InCB_Consonant); (0x105E, 0x1060, InCB_Extend); (0x1061, 0x1061, InCB_Consonant);
  (0x1065, 0x1066, InCB_Consonant); (0x106E, 0x1070, InCB_Consonant); (0x1071, 0x1074, InCB_Extend); (0x1075, 0x1081, InCB_Consonant);
  (0x1082, 0x1082, InCB_Extend); (0x1085, 0x1086, InCB_Extend); (0x108D, 0x108D, InCB_Extend); (0x108E, 0x108E, InCB_Consonant);
  (0x109D, 0x109D, InCB_Extend); (0x135D, 0x135F, InCB_Extend); (0x1712, 0x1715, InCB_Extend); (0x1732, 0x1734, InCB_Extend);
  (0x1752, 0x1753, InCB_Extend); (0x1772, 0x1773, InCB_Extend); (0x1780, 0x17B3, InCB_Consonant); (0x17B4, 0x17B5, InCB_Extend);
  (0x17B7, 0x17BD, InCB_Extend); (0x17C6, 0x17C6, InCB_Extend); (0x17C9, 0x17D1, InCB_Extend); (0x17D2, 0x17D2, InCB_Linker);
  (0x17D3, 0x17D3, InCB_Extend); (0x17DD, 0x17DD, InCB_Extend); (0x180B, 0x180D, InCB_Extend); (0x180F, 0x180F, InCB_Extend);
  (0x1885, 0x1886, InCB_Extend); (0x18A9, 0x18A9, InCB_Extend); (0x1920, 0x1922, InCB_Extend); (0x1927, 0x1928, InCB_Extend);
  (0x1932, 0x1932, InCB_Extend); (0x1939, 0x193B, InCB_Extend); (0x1A17, 0x1A18, InCB_Extend); (0x1A1B, 0x1A1B, InCB_Extend);
  (0x1A20, 0x1A54, InCB_Consonant); (0x1A56, 0x1A56, InCB_Extend); (0x1A58, 0x1A5E, InCB_Extend); (0x1A60, 0x1A60, InCB_Linker);
  (0x1A62, 0x1A62, InCB_Extend); (0x1A65, 0x1A6C, InCB_Extend); (0x1A73, 0x1A7C, InCB_Extend); (0x1A7F, 0x1A7F, InCB_Extend);
  (0x1AB0, 0x1ADD, InCB_Extend); (0x1AE0, 0x1AEB, InCB_Extend); (0x1B00, 0x1B03, InCB_Extend); (0x1B0B, 0x1B0C, InCB_Consonant);
  (0x1B13, 0x1B33, InCB_Consonant); (0x1B34, 0x1B3D, InCB_Extend); (0x1B42, 0x1B43, InCB_Extend); (0x1B44, 0x1B44, InCB_Linker);
  (0x1B45, 0x1B4C, InCB_Consonant); (0x1B6B, 0x1B73, InCB_Extend); (0x1B80, 0x1B81, InCB_Extend); (0x1B83, 0x1BA0, InCB_Consonant);
  (0x1BA2, 0x1BA5, InCB_Extend); (0x1BA8, 0x1BAA, InCB_Extend); (0x1BAB, 0x1BAB, InCB_Linker); (0x1BAC, 0x1BAD, InCB_Extend);
  (0x1BAE, 0x1BAF, InCB_Consonant); (0x1BBB, 0x1BBD, InCB_Consonant); (0x1BE6, 0x1BE6, InCB_Extend); (0x1BE8, 0x1BE9, InCB_Extend);
  (0x1BED, 0x1BED, InCB_Extend); (0x1BEF, 0x1BF3, InCB_Extend); (0x1C2C, 0x1C33, InCB_Extend); (0x1C36, 0x1C37, InCB_Extend);
  (0x1CD0, 0x1CD2, InCB_Extend); (0x1CD4, 0x1CE0, InCB_Extend); (0x1CE2, 0x1CE8, InCB_Extend); (0x1CED, 0x1CED, InCB_Extend);
  (0x1CF4, 0x1CF4, InCB_Extend); (0x1CF8, 0x1CF9, InCB_Extend); (0x1DC0, 0x1DFF, InCB_Extend); (0x200D, 0x200D, InCB_Extend);
  (0x20D0, 0x20F0, InCB_Extend); (0x2CEF, 0x2CF1, InCB_Extend); (0x2D7F, 0x2D7F, InCB_Extend); (0x2DE0, 0x2DFF, InCB_Extend);
  (0x302A, 0x302F, InCB_Extend); (0x3099, 0x309A, InCB_Extend); (0xA66F, 0xA672, InCB_Extend); (0xA674, 0xA67D, InCB_Extend);
  (0xA69E, 0xA69F, InCB_Extend); (0xA6F0, 0xA6F1, InCB_Extend); (0xA802, 0xA802, InCB_Extend); (0xA806, 0xA806, InCB_Extend);
  (0xA80B, 0xA80B, InCB_Extend); (0xA825, 0xA826, InCB_Extend); (0xA82C, 0xA82C, InCB_Extend); (0xA8C4, 0xA8C5, InCB_Extend);
  (0xA8E0, 0xA8F1, InCB_Extend); (0xA8FF, 0xA8FF, InCB_Extend); (0xA926, 0xA92D, InCB_Extend); (0xA947, 0xA951, InCB_Extend);
  (0xA953, 0xA953, InCB_Extend); (0xA980, 0xA982, InCB_Extend); (0xA989, 0xA98B, InCB_Consonant); (0xA98F, 0xA9B2, InCB_Consonant);
  (0xA9B3, 0xA9B3, InCB_Extend); (0xA9B6, 0xA9B9, InCB_Extend); (0xA9BC, 0xA9BD, InCB_Extend); (0xA9C0, 0xA9C0, InCB_Linker);
  (0xA9E0, 0xA9E4, InCB_Consonant); (0xA9E5, 0xA9E5, InCB_Extend); (0xA9E7, 0xA9EF, InCB_Consonant); (0xA9FA, 0xA9FE, InCB_Consonant);
  (0xAA29, 0xAA2E, InCB_Extend); (0xAA31, 0xAA32, InCB_Extend); (0xAA35, 0xAA36, InCB_Extend); (0xAA43, 0xAA43, InCB_Extend);
  (0xAA4C, 0xAA4C, InCB_Extend); (0xAA60, 0xAA6F, InCB_Consonant); (0xAA71, 0xAA73, InCB_Consonant); (0xAA7A, 0xAA7A, InCB_Consonant);
  (0xAA7C, 0xAA7C, InCB_Extend); (0xAA7E, 0xAA7F, InCB_Consonant); (0xAAB0, 0xAAB0, InCB_Extend); (0xAAB2, 0xAAB4, InCB_Extend);
  (0xAAB7, 0xAAB8, InCB_Extend); (0xAABE, 0xAABF, InCB_Extend); (0xAAC1, 0xAAC1, InCB_Extend); (0xAAE0, 0xAAEA, InCB_Consonant);
  (0xAAEC, 0xAAED, InCB_Extend); (0xAAF6, 0xAAF6, InCB_Linker); (0xABC0, 0xABDA, InCB_Consonant); (0xABE5, 0xABE5, InCB_Extend);
  (0xABE8, 0xABE8, InCB_Extend); (0xABED, 0xABED, InCB_Extend); (0xFB1E, 0xFB1E, InCB_Extend); (0xFE00, 0xFE0F, InCB_Extend);
  (0xFE20, 0xFE2F, InCB_Extend); (0xFF9E, 0xFF9F, InCB_Extend); (0x101FD, 0x101FD, InCB_Extend); (0x102E0, 0x102E0, InCB_Extend);
  (0x10376, 0x1037A, InCB_Extend); (0x10A00, 0x10A00, InCB_Consonant); (0x10A01, 0x10A03, InCB_Extend); (0x10A05, 0x10A06, InCB_Extend);
  (0x10A0C, 0x10A0F, InCB_Extend); (0x10A10, 0x10A13, InCB_Consonant); (0x10A15, 0x10A17, InCB_Consonant); (0x10A19, 0x10A35, InCB_Consonant);
  (0x10A38, 0x10A3A, InCB_Extend); (0x10A3F, 0x10A3F, InCB_Linker); (0x10AE5, 0x10AE6, InCB_Extend); (0x10D24, 0x10D27, InCB_Extend);
  (0x10D69, 0x10D6D, InCB_Extend); (0x10EAB, 0x10EAC, InCB_Extend); (0x10EFA, 0x10EFF, InCB_Extend); (0x10F46, 0x10F50, InCB_Extend);
  (0x10F82, 0x10F85, InCB_Extend); (0x11001, 0x11001, InCB_Extend); (0x11038, 0x11046, InCB_Extend); (0x11070, 0x11070, InCB_Extend);
  (0x11073, 0x11074, InCB_Extend); (0x1107F, 0x11081, InCB_Extend); (0x110B3, 0x110B6, InCB_Extend); (0x110B9, 0x110BA, InCB_Extend);
  (0x110C2, 0x110C2, InCB_Extend); (0x11100, 0x11102, InCB_Extend); (0x11103, 0x11126, InCB_Consonant); (0x11127, 0x1112B, InCB_Extend);
  (0x1112D, 0x11132, InCB_Extend); (0x11133, 0x11133, InCB_Linker); (0x11134, 0x11134, InCB_Extend); (0x11144, 0x11144, InCB_Consonant);
  (0x11147, 0x11147, InCB_Consonant); (0x11173, 0x11173, InCB_Extend); (0x11180, 0x11181, InCB_Extend); (0x111B6, 0x111BE, InCB_Extend);
  (0x111C0, 0x111C0, InCB_Extend); (0x111C9, 0x111CC, InCB_Extend); (0x111CF, 0x111CF, InCB_Extend); (0x1122F, 0x11231, InCB_Extend);
  (0x11234, 0x11237, InCB_Extend); (0x1123E, 0x1123E, InCB_Extend); (0x11241, 0x11241, InCB_Extend); (0x112DF, 0x112DF, InCB_Extend);
  (0x112E3, 0x112EA, InCB_Extend); (0x11300, 0x11301, InCB_Extend); (0x1133B, 0x1133C, InCB_Extend); (0x1133E, 0x1133E, InCB_Extend);
  (0x11340, 0x11340, InCB_Extend); (0x1134D, 0x1134D, InCB_Extend); (0x11357, 0x11357, InCB_Extend); (0x11366, 0x1136C, InCB_Extend);
  (0x11370, 0x11374, InCB_Extend); (0x11380, 0x11389, InCB_Consonant); (0x1138B, 0x1138B, InCB_Consonant); (0x1138E, 0x1138E, InCB_Consonant);
  (0x11390, 0x113B5, InCB_Consonant); (0x113B8, 0x113B8, InCB_Extend); (0x113BB, 0x113C0, InCB_Extend); (0x113C2, 0x113C2, InCB_Extend);
  (0x113C5, 0x113C5, InCB_Extend); (0x113C7, 0x113C9, InCB_Extend); (0x113CE, 0x113CF, InCB_Extend); (0x113D0, 0x113D0, InCB_Linker);
  (0x113D2, 0x113D2, InCB_Extend); (0x113E1, 0x113E2, InCB_Extend); (0x11438, 0x1143F, InCB_Extend); (0x11442, 0x11444, InCB_Extend);
  (0x11446, 0x11446, InCB_Extend); (0x1145E, 0x1145E, InCB_Extend); (0x114B0, 0x114B0, InCB_Extend); (0x114B3, 0x114B8, InCB_Extend);
  (0x114BA, 0x114BA, InCB_Extend); (0x114BD, 0x114BD, InCB_Extend); (0x114BF, 0x114C0, InCB_Extend); (0x114C2, 0x114C3, InCB_Extend);
  (0x115AF, 0x115AF, InCB_Extend); (0x115B2, 0x115B5, InCB_Extend); (0x115BC, 0x115BD, InCB_Extend); (0x115BF, 0x115C0, InCB_Extend);
  (0x115DC, 0x115DD, InCB_Extend); (0x11633, 0x1163A, InCB_Extend); (0x1163D, 0x1163D, InCB_Extend); (0x1163F, 0x11640, InCB_Extend);
  (0x116AB, 0x116AB, InCB_Extend); (0x116AD, 0x116AD, InCB_Extend); (0x116B0, 0x116B7, InCB_Extend); (0x1171D, 0x1171D, InCB_Extend);
  (0x1171F, 0x1171F, InCB_Extend); (0x11722, 0x11725, InCB_Extend); (0x11727, 0x1172B, InCB_Extend); (0x1182F, 0x11837, InCB_Extend);
  (0x11839, 0x1183A, InCB_Extend); (0x11900, 0x11906, InCB_Consonant); (0x11909, 0x11909, InCB_Consonant); (0x1190C, 0x11913, InCB_Consonant);
  (0x11915, 0x11916, InCB_Consonant); (0x11918, 0x1192F, InCB_Consonant); (0x11930, 0x11930, InCB_Extend); (0x1193B, 0x1193D, InCB_Extend);
  (0x1193E, 0x1193E, InCB_Linker); (0x11943, 0x11943, InCB_Extend); (0x119D4, 0x119D7, InCB_Extend); (0x119DA, 0x119DB, InCB_Extend);
  (0x119E0, 0x119E0, InCB_Extend); (0x11A00, 0x11A00, InCB_Consonant); (0x11A01, 0x11A0A, InCB_Extend); (0x11A0B, 0x11A32, InCB_Consonant);
  (0x11A33, 0x11A38, InCB_Extend); (0x11A3B, 0x11A3E, InCB_Extend); (0x11A47, 0x11A47, InCB_Linker); (0x11A50, 0x11A50, InCB_Consonant);
  (0x11A51, 0x11A56, InCB_Extend); (0x11A59, 0x11A5B, InCB_Extend); (0x11A5C, 0x11A83, InCB_Consonant); (0x11A8A, 0x11A96, InCB_Extend);
  (0x11A98, 0x11A98, InCB_Extend); (0x11A99, 0x11A99, InCB_Linker); (0x11B60, 0x11B60, InCB_Extend); (0x11B62, 0x11B64, InCB_Extend);
  (0x11B66, 0x11B66, InCB_Extend); (0x11C30, 0x11C36, InCB_Extend); (0x11C38, 0x11C3D, InCB_Extend); (0x11C3F, 0x11C3F, InCB_Extend);
  (0x11C92, 0x11CA7, InCB_Extend); (0x11CAA, 0x11CB0, InCB_Extend); (0x11CB2, 0x11CB3, InCB_Extend); (0x11CB5, 0x11CB6, InCB_Extend);
  (0x11D31, 0x11D36, InCB_Extend); (0x11D3A, 0x11D3A, InCB_Extend); (0x11D3C, 0x11D3D, InCB_Extend); (0x11D3F, 0x11D45, InCB_Extend);
  (0x11D47, 0x11D47, InCB_Extend); (0x11D90, 0x11D91, InCB_Extend); (0x11D95, 0x11D95, InCB_Extend); (0x11D97, 0x11D97, InCB_Extend);
  (0x11EF3, 0x11EF4, InCB_Extend); (0x11F00, 0x11F01, InCB_Extend); (0x11F04, 0x11F10, InCB_Consonant); (0x11F12, 0x11F33, InCB_Consonant);
  (0x11F36, 0x11F3A, InCB_Extend); (0x11F40, 0x11F41, InCB_Extend); (0x11F42, 0x11F42, InCB_Linker); (0x11F5A, 0x11F5A, InCB_Extend);
  (0x13440, 0x13440, InCB_Extend); (0x13447, 0x13455, InCB_Extend); (0x1611E, 0x16129, InCB_Extend); (0x1612D, 0x1612F, InCB_Extend);
  (0x16AF0, 0x16AF4, InCB_Extend); (0x16B30, 0x16B36, InCB_Extend); (0x16F4F, 0x16F4F, InCB_Extend); (0x16F8F, 0x16F92, InCB_Extend);
  (0x16FE4, 0x16FE4, InCB_Extend); (0x16FF0, 0x16FF1, InCB_Extend); (0x1BC9D, 0x1BC9E, InCB_Extend); (0x1CF00, 0x1CF2D, InCB_Extend);
  (0x1CF30, 0x1CF46, InCB_Extend); (0x1D165, 0x1D169, InCB_Extend); (0x1D16D, 0x1D172, InCB_Extend); (0x1D17B, 0x1D182, InCB_Extend);
  (0x1D185, 0x1D18B, InCB_Extend); (0x1D1AA, 0x1D1AD, InCB_Extend); (0x1D242, 0x1D244, InCB_Extend); (0x1DA00, 0x1DA36, InCB_Extend);
  (0x1DA3B, 0x1DA6C, InCB_Extend); (0x1DA75, 0x1DA75, InCB_Extend); (0x1DA84, 0x1DA84, InCB_Extend); (0x1DA9B, 0x1DA9F, InCB_Extend);
  (0x1DAA1, 0x1DAAF, InCB_Extend); (0x1E000, 0x1E006, InCB_Extend); (0x1E008, 0x1E018, InCB_Extend); (0x1E01B, 0x1E021, InCB_Extend);
  (0x1E023, 0x1E024, InCB_Extend); (0x1E026, 0x1E02A, InCB_Extend); (0x1E08F, 0x1E08F, InCB_Extend); (0x1E130, 0x1E136, InCB_Extend);
  (0x1E2AE, 0x1E2AE, InCB_Extend); (0x1E2EC, 0x1E2EF, InCB_Extend); (0x1E4EC, 0x1E4EF, InCB_Extend); (0x1E5EE, 0x1E5EF, InCB_Extend);
  (0x1E6E3, 0x1E6E3, InCB_Extend); (0x1E6E6, 0x1E6E6, InCB_Extend); (0x1E6EE, 0x1E6EF, InCB_Extend); (0x1E6F5, 0x1E6F5, InCB_Extend);
  (0x1E8D0, 0x1E8D6, InCB_Extend); (0x1E944, 0x1E94A, InCB_Extend); (0x1F3FB, 0x1F3FF, InCB_Extend); (0xE0020, 0xE007F, InCB_Extend);
  (0xE0100, 0xE01EF, InCB_Extend)
].

Definition wb_table : list (N * N * wb) := [
  (0xA, 0xA, WB_LF); (0xB, 0xC, WB_Newline); (0xD, 0xD, WB_CR); (0x20, 0x20, WB_WSegSpace);
  (0x22, 0x22, WB_Double_Quote); (0x27, 0x27, WB_Single_Quote); (0x2C, 0x2C, WB_MidNum); (0x2E, 0x2E, WB_MidNumLet);
  (0x30, 0x39, WB_Numeric); (0x3A, 0x3A, WB_MidLetter); (0x3B, 0x3B, WB_MidNum); (0x41, 0x5A, WB_ALetter);
  (0x5F, 0x5F, WB_ExtendNumLet); (0x61, 0x7A, WB_ALetter); (0x85, 0x85, WB_Newline); (0xAA, 0xAA, WB_ALetter);
  (0xAD, 0xAD, WB_Format); (0xB5, 0xB5, WB_ALetter); (0xB7, 0xB7, WB_MidLetter); (0xB8, 0xB8, WB_ALetter);
  (0xBA, 0xBA, WB_ALetter); (0xC0, 0xD6, WB_ALetter); (0xD8, 0xF6, WB_ALetter); (0xF8, 0x2D7, WB_ALetter);
  (0x2DE, 0x2FF, WB_ALetter); (0x300, 0x36F, WB_Extend); (0x370, 0x374, WB_ALetter); (0x376, 0x377, WB_ALetter);
  (0x37A, 0x37D, WB_ALetter); (0x37E, 0x37E, WB_MidNum); (0x37F, 0x37F, WB_ALetter); (0x386, 0x386, WB_ALetter);
  (0x387, 0x387, WB_MidLetter); (0x388, 0x38A, WB_ALetter); (0x38C, 0x38C, WB_ALetter); (0x38E, 0x3A1, WB_ALetter);
  (0x3A3, 0x3F5, WB_ALetter); (0x3F7, 0x481, WB_ALetter); (0x483, 0x489, WB_Extend); (0x48A, 0x52F, WB_ALetter);
  (0x531, 0x556, WB_ALetter); (0x559, 0x55C, WB_ALetter); (0x55E, 0x55E, WB_ALetter); (0x55F, 0x55F, WB_MidLetter);
  (0x560, 0x588, WB_ALetter); (0x589, 0x589, WB_MidNum); (0x58A, 0x58A, WB_ALetter); (0x591, 0x5BD, WB_Extend);
  (0x5BF, 0x5BF, WB_Extend); (0x5C1, 0x5C2, WB_Extend); (0x5C4, 0x5C5, WB_Extend); (0x5C7, 0x5C7, WB_Extend);
  (0x5D0, 0x5EA, WB_Hebrew_Letter); (0x5EF, 0x5F2, WB_Hebrew_Letter); (0x5F3, 0x5F3, WB_ALetter); (0x5F4, 0x5F4, WB_MidLetter);
  (0x600, 0x605, WB_Numeric); (0x60C, 0x60D, WB_MidNum); (0x610, 0x61A, WB_Extend); (0x61C, 0x61C, WB_Format);
  (0x620, 0x64A, WB_ALetter); (0x64B, 0x65F, WB_Extend); (0x660, 0x669, WB_Numeric); (0x66B, 0x66B, WB_Numeric);
  (0x66C, 0x66C, WB_MidNum); (0x66E, 0x66F, WB_ALetter); (0x670, 0x670, WB_Extend); (0x671, 0x6D3, WB_ALetter);
  (0x6D5, 0x6D5, WB_ALetter); (0x6D6, 0x6DC, WB_Extend); (0x6DD, 0x6DD, WB_Numeric); (0x6DF, 0x6E4, WB_Extend);
  (0x6E5, 0x6E6, WB_ALetter); (0x6E7, 0x6E8, WB_Extend); (0x6EA, 0x6ED, WB_Extend); (0x6EE, 0x6EF, WB_ALetter);
  (0x6F0, 0x6F9, WB_Numeric); (0x6FA, 0x6FC, WB_ALetter); (0x6FF, 0x6FF, WB_ALetter); (0x70F, 0x710, WB_ALetter);
  (0x711, 0x711, WB_Extend); (0x712, 0x72F, WB_ALetter); (0x730, 0x74A, WB_Extend); (0x74D, 0x7A5, WB_ALetter);
  (0x7A6, 0x7B0, WB_Extend); (0x7B1, 0x7B1, WB_ALetter); (0x7C0, 0x7C9, WB_Numeric); (0x7CA, 0x7EA, WB_ALetter);
  (0x7EB, 0x7F3, WB_Extend); (0x7F4, 0x7F5, WB_ALetter); (0x7F8, 0x7F8, WB_MidNum); (0x7FA, 0x7FA, WB_ALetter);
  (0x7FD, 0x7FD, WB_Extend); (0x800, 0x815, WB_ALetter); (0x816, 0x819, WB_Extend); (0x81A, 0x81A, WB_ALetter);
  (0x81B, 0x823, WB_Extend); (0x824, 0x824, WB_ALetter); (0x825, 0x827, WB_Extend); (0x828, 0x828, WB_ALetter);
  (0x829, 0x82D, WB_Extend); (0x840, 0x858, WB_ALetter); (0x859, 0x85B, WB_Extend); (0x860, 0x86A, WB_ALetter);
  (0x870, 0x887, WB_ALetter); (0x889, 0x88F, WB_ALetter); (0x890, 0x891, WB_Numeric); (0x897, 0x89F, WB_Extend);
  (0x8A0, 0x8C9, WB_ALetter); (0x8CA, 0x8E1, WB_Extend); (0x8E2, 0x8E2, WB_Numeric); (0x8E3, 0x903, WB_Extend);
  (0x904, 0x939, WB_ALetter); (0x93A, 0x93C, WB_Extend); (0x93D, 0x93D, WB_ALetter); (0x93E, 0x94F, WB_Extend);
  (0x950, 0x950, WB_ALetter); (0x951, 0x957, WB_Extend); (0x958, 0x961, WB_ALetter); (0x962, 0x963, WB_Extend);
  (0x966, 0x96F, WB_Numeric); (0x971, 0x980, WB_ALetter); (0x981, 0x983, WB_Extend); (0x985, 0x98C, WB_ALetter);
  (0x98F, 0x990, WB_ALetter); (0x993, 0x9A8, WB_ALetter); (0x9AA, 0x9B0, WB_ALetter); (0x9B2, 0x9B2, WB_ALetter);
  (0x9B6, 0x9B9, WB_ALetter); (0x9BC, 0x9BC, WB_Extend); (0x9BD, 0x9BD, WB_ALetter); (0x9BE, 0x9C4, WB_Extend);
  (0x9C7, 0x9C8, WB_Extend); (0x9CB, 0x9CD, WB_Extend); (0x9CE, 0x9CE, WB_ALetter); (0x9D7, 0x9D7, WB_Extend);
  (0x9DC, 0x9DD, WB_ALetter); (0x9DF, 0x9E1, WB_ALetter); (0x9E2, 0x9E3, WB_Extend); (0x9E6, 0x9EF, WB_Numeric);
  (0x9F0, 0x9F1, WB_ALetter); (0x9FC, 0x9FC, WB_ALetter); (0x9FE, 0x9FE, WB_Extend); (0xA01, 0xA03, WB_Extend);
  (0xA05, 0xA0A, WB_ALetter); (0xA0F, 0xA10, WB_ALetter); (0xA13, 0xA28, WB_ALetter); (0xA2A, 0xA30, WB_ALetter);
  (0xA32, 0xA33, WB_ALetter); (0xA35, 0xA36, WB_ALetter); (0xA38, 0xA39, WB_ALetter); (0xA3C, 0xA3C, WB_Extend);
  (0xA3E, 0xA42, WB_Extend); (0xA47, 0xA48, WB_Extend); (0xA4B, 0xA4D, WB_Extend); (0xA51, 0xA51, WB_Extend);
  (0xA59, 0xA5C, WB_ALetter); (0xA5E, 0xA5E, WB_ALetter); (0xA66, 0xA6F, WB_Numeric); (0xA70, 0xA71, WB_Extend);
  (0xA72, 0xA74, WB_ALetter); (0xA75, 0xA75, WB_Extend); (0xA81, 0xA83, WB_Extend); (0xA85, 0xA8D, WB_ALetter);
  (0xA8F, 0xA91, WB_ALetter); (0xA93, 0xAA8, WB_ALetter); (0xAAA, 0xAB0, WB_ALetter); (0xAB2, 0xAB3, WB_ALetter);
  (0xAB5, 0xAB9, WB_ALetter); (0xABC, 0xABC, WB_Extend); (0xABD, 0xABD, WB_ALetter); (0xABE, 0xAC5, WB_Extend);
  (0xAC7, 0xAC9, WB_Extend); (0xACB, 0xACD, WB_Extend); (0xAD0, 0xAD0, WB_ALetter); (0xAE0, 0xAE1, WB_ALetter);
  (0xAE2, 0xAE3, WB_Extend); (0xAE6, 0xAEF, WB_Numeric); (0xAF9, 0xAF9, WB_ALetter); (0xAFA, 0xAFF, WB_Extend);
  (0xB01, 0xB03, WB_Extend); (0xB05, 0xB0C, WB_ALetter); (0xB0F, 0xB10, WB_ALetter); (0xB13, 0xB28, WB_ALetter);
  (0xB2A, 0xB30, WB_ALetter); (0xB32, 0xB33, WB_ALetter); (0xB35, 0xB39, WB_ALetter); (0xB3C, 0xB3C, WB_Extend);
  (0xB3D, 0xB3D, WB_ALetter); (0xB3E, 0xB44, WB_Extend); (0xB47, 0xB48, WB_Extend); (0xB4B, 0xB4D, WB_Extend);
  (0xB55, 0xB57, WB_Extend); (0xB5C, 0xB5D, WB_ALetter); (0xB5F, 0xB61, WB_ALetter); (0xB62, 0xB63, WB_Extend);
  (0xB66, 0xB6F, WB_Numeric); (0xB71, 0xB71, WB_ALetter); (0xB82, 0xB82, WB_Extend); (0xB83, 0xB83, WB_ALetter);
  (0xB85, 0xB8A, WB_ALetter); (0xB8E, 0xB90, WB_ALetter); (0xB92, 0xB95, WB_ALetter); (0xB99, 0xB9A, WB_ALetter);
  (0xB9C, 0xB9C, WB_ALetter); (0xB9E, 0xB9F, WB_ALetter); (0xBA3, 0xBA4, WB_ALetter); (0xBA8, 0xBAA, WB_ALetter);
  (0xBAE, 0xBB9, WB_ALetter); (0xBBE, 0xBC2, WB_Extend); (0xBC6, 0xBC8, WB_Extend); (0xBCA, 0xBCD, WB_Extend);
  (0xBD0, 0xBD0, WB_ALetter); (0xBD7, 0xBD7, WB_Extend); (0xBE6, 0xBEF, WB_Numeric); (0xC00, 0xC04, WB_Extend);
  (0xC05, 0xC0C, WB_ALetter); (0xC0E, 0xC10, WB_ALetter); (0xC12, 0xC28, WB_ALetter); (0xC2A, 0xC39, WB_ALetter);
  (0xC3C, 0xC3C, WB_Extend); (0xC3D, 0xC3D, WB_ALetter); (0xC3E, 0xC44, WB_Extend); (0xC46, 0xC48, WB_Extend);
  (0xC4A, 0xC4D, WB_Extend); (0xC55, 0xC56, WB_Extend); (0xC58, 0xC5A, WB_ALetter); (0xC5C, 0xC5D, WB_ALetter);
  (0xC60, 0xC61, WB_ALetter); (0xC62, 0xC63, WB_Extend); (0xC66, 0xC6F, WB_Numeric); (0xC80, 0xC80, WB_ALetter);
  (0xC81, 0xC83, WB_Extend); (0xC85, 0xC8C, WB_ALetter); (0xC8E, 0xC90, WB_ALetter); (0xC92, 0xCA8, WB_ALetter);
  (0xCAA, 0xCB3, WB_ALetter); (0xCB5, 0xCB9, WB_ALetter); (0xCBC, 0xCBC, WB_Extend); (0xCBD, 0xCBD, WB_ALetter);
  (0xCBE, 0xCC4, WB_Extend); (0xCC6, 0xCC8, WB_Extend); (0xCCA, 0xCCD, WB_Extend); (0xCD5, 0xCD6, WB_Extend);
  (0xCDC, 0xCDE, WB_ALetter); (0xCE0, 0xCE1, WB_ALetter); (0xCE2, 0xCE3, WB_Extend); (0xCE6, 0xCEF, WB_Numeric);
  (0xCF1, 0xCF2, WB_ALetter); (0xCF3, 0xCF3, WB_Extend); (0xD00, 0xD03, WB_Extend); (0xD04, 0xD0C, WB_ALetter);
  (0xD0E, 0xD10, WB_ALetter); (0xD12, 0xD3A, WB_ALetter); (0xD3B, 0xD3C, WB_Extend); (0xD3D, 0xD3D, WB_ALetter);
  (0xD3E, 0xD44, WB_Extend); (0xD46, 0xD48, WB_Extend); (0xD4A, 0xD4D, WB_Extend); (0xD4E, 0xD4E, WB_ALetter);
  (0xD54, 0xD56, WB_ALetter); (0xD57, 0xD57, WB_Extend); (0xD5F, 0xD61, WB_ALetter); (0xD62, 0xD63, WB_Extend);
  (0xD66, 0xD6F, WB_Numeric); (0xD7A, 0xD7F, WB_ALetter); (0xD81, 0xD83, WB_Extend); (0xD85, 0xD96, WB_ALetter);
  (0xD9A, 0xDB1, WB_ALetter); (0xDB3, 0xDBB, WB_ALetter); (0xDBD, 0xDBD, WB_ALetter); (0xDC0, 0xDC6, WB_ALetter);
  (0xDCA, 0xDCA, WB_Extend); (0xDCF, 0xDD4, WB_Extend); (0xDD6, 0xDD6, WB_Extend); (0xDD8, 0xDDF, WB_Extend);
  (0xDE6, 0xDEF, WB_Numeric); (0xDF2, 0xDF3, WB_Extend); (0xE31, 0xE31, WB_Extend); (0xE34, 0xE3A, WB_Extend);
  (0xE47, 0xE4E, WB_Extend); (0xE50, 0xE59, WB_Numeric); (0xEB1, 0xEB1, WB_Extend); (0xEB4, 0xEBC, WB_Extend);
  (0xEC8, 0xECE, WB_Extend); (0xED0, 0xED9, WB_Numeric); (0xF00, 0xF00, WB_ALetter); (0xF18, 0xF19, WB_Extend);
  (0xF20, 0xF29, WB_Numeric); (0xF35, 0xF35, WB_Extend); (0xF37, 0xF37, WB_Extend); (0xF39, 0xF39, WB_Extend);
  (0xF3E, 0xF3F, WB_Extend); (0xF40, 0xF47, WB_ALetter); (0xF49, 0xF6C, WB_ALetter); (0xF71, 0xF84, WB_Extend);
  (0xF86, 0xF87, WB_Extend); (0xF88, 0xF8C, WB_ALetter); (0xF8D, 0xF97, WB_Extend); (0xF99, 0xFBC, WB_Extend);
  (0xFC6, 0xFC6, WB_Extend); (0x102B, 0x103E, WB_Extend); (0x1040, 0x1049, WB_Numeric); (0x1056, 0x1059, WB_Extend);
  (0x105E, 0x1060, WB_Extend); (0x1062, 0x1064, WB_Extend); (0x1067, 0x106D, WB_Extend); (0x1071, 0x1074, WB_Extend);
  (0x1082, 0x108D, WB_Extend); (0x108F, 0x108F, WB_Extend); (0x1090, 0x1099, WB_Numeric); (0x109A, 0x109D, WB_Extend);
  (0x10A0, 0x10C5, WB_ALetter); (0x10C7, 0x10C7, WB_ALetter); (0x10CD, 0x10CD, WB_ALetter); (0x10D0, 0x10FA, WB_ALetter);
  (0x10FC, 0x1248, WB_ALetter); (0x124A, 0x124D, WB_ALetter); (0x1250, 0x1256, WB_ALetter); (0x1258, 0x1258, WB_ALetter);
  (0x125A, 0x125D, WB_ALetter); (0x1260, 0x1288, WB_ALetter); (0x128A, 0x128D, WB_ALetter); (0x1290, 0x12B0, WB_ALetter);
  (0x12B2, 0x12B5, WB_ALetter); (0x12B8, 0x12BE, WB_ALetter); (0x12C0, 0x12C0, WB_ALetter); (0x12C2, 0x12C5, WB_ALetter);
  (0x12C8, 0x12D6, WB_ALetter); (0x12D8, 0x1310, WB_ALetter); (0x1312, 0x1315, WB_ALetter); (0x1318, 0x135A, WB_ALetter);
  (0x135D, 0x135F, WB_Extend); (0x1380, 0x138F, WB_ALetter); (0x13A0, 0x13F5, WB_ALetter); (0x13F8, 0x13FD, WB_ALetter);
  (0x1401, 0x166C, WB_ALetter); (0x166F, 0x167F, WB_ALetter); (0x1680, 0x1680, WB_WSegSpace); (0x1681, 0x169A, WB_ALetter);
  (0x16A0, 0x16EA, WB_ALetter); (0x16EE, 0x16F8, WB_ALetter); (0x1700, 0x1711, WB_ALetter); (0x1712, 0x1715, WB_Extend);
  (0x171F, 0x1731, WB_ALetter); (0x1732, 0x1734, WB_Extend); (0x1740, 0x1751, WB_ALetter); (0x1752, 0x1753, WB_Extend);
  (0x1760, 0x176C, WB_ALetter); (0x176E, 0x1770, WB_ALetter); (0x1772, 0x1773, WB_Extend); (0x17B4, 0x17D3, WB_Extend);
  (0x17DD, 0x17DD, WB_Extend); (0x17E0, 0x17E9, WB_Numeric); (0x180B, 0x180D, WB_Extend); (0x180E, 0x180E, WB_Format);
  (0x180F, 0x180F, WB_Extend); (0x1810, 0x1819, WB_Numeric); (0x1820, 0x1878, WB_ALetter); (0x1880, 0x1884, WB_ALetter);
  (0x1885, 0x1886, WB_Extend); (0x1887, 0x18A8, WB_ALetter); (0x18A9, 0x18A9, WB_Extend); (0x18AA, 0x18AA, WB_ALetter);
  (0x18B0, 0x18F5, WB_ALetter); (0x1900, 0x191E, WB_ALetter); (0x1920, 0x192B, WB_Extend); (0x1930, 0x193B, WB_Extend);
  (0x1946, 0x194F, WB_Numeric); (0x19D0, 0x19DA, WB_Numeric); (0x1A00, 0x1A16, WB_ALetter); (0x1A17, 0x1A1B, WB_Extend);
  (0x1A55, 0x1A5E, WB_Extend); (0x1A60, 0x1A7C, WB_Extend); (0x1A7F, 0x1A7F, WB_Extend); (0x1A80, 0x1A89, WB_Numeric);
  (0x1A90, 0x1A99, WB_Numeric); (0x1AB0, 0x1ADD, WB_Extend); (0x1AE0, 0x1AEB, WB_Extend); (0x1B00, 0x1B04, WB_Extend);
  (0x1B05, 0x1B33, WB_ALetter); (0x1B34, 0x1B44, WB_Extend); (0x1B45, 0x1B4C, WB_ALetter); (0x1B50, 0x1B59, WB_Numeric);
  (0x1B6B, 0x1B73, WB_Extend); (0x1B80, 0x1B82, WB_Extend); (0x1B83, 0x1BA0, WB_ALetter); (0x1BA1, 0x1BAD, WB_Extend);
  (0x1BAE, 0x1BAF, WB_ALetter); (0x1BB0, 0x1BB9, WB_Numeric); (0x1BBA, 0x1BE5, WB_ALetter); (0x1BE6, 0x1BF3, WB_Extend);
  (0x1C00, 0x1C23, WB_ALetter); (0x1C24, 0x1C37, WB_Extend); (0x1C40, 0x1C49, WB_Numeric); (0x1C4D, 0x1C4F, WB_ALetter);
  (0x1C50, 0x1C59, WB_Numeric); (0x1C5A, 0x1C7D, WB_ALetter); (0x1C80, 0x1C8A, WB_ALetter); (0x1C90, 0x1CBA, WB_ALetter);
  (0x1CBD, 0x1CBF, WB_ALetter); (0x1CD0, 0x1CD2, WB_Extend); (0x1CD4, 0x1CE8, WB_Extend); (0x1CE9, 0x1CEC, WB_ALetter);
  (0x1CED, 0x1CED, WB_Extend); (0x1CEE, 0x1CF3, WB_ALetter); (0x1CF4, 0x1CF4, WB_Extend); (0x1CF5, 0x1CF6, WB_ALetter);
  (0x1CF7, 0x1CF9, WB_Extend); (0x1CFA, 0x1CFA, WB_ALetter); (0x1D00, 0x1DBF, WB_ALetter); (0x1DC0, 0x1DFF, WB_Extend);
  (0x1E00, 0x1F15, WB_ALetter); (0x1F18, 0x1F1D, WB_ALetter); (0x1F20, 0x1F45, WB_ALetter); (0x1F48, 0x1F4D, WB_ALetter);
  (0x1F50, 0x1F57, WB_ALetter); (0x1F59, 0x1F59, WB_ALetter); (0x1F5B, 0x1F5B, WB_ALetter); (0x1F5D, 0x1F5D, WB_ALetter);
  (0x1F5F, 0x1F7D, WB_ALetter); (0x1F80, 0x1FB4, WB_ALetter); (0x1FB6, 0x1FBC, WB_ALetter); (0x1FBE, 0x1FBE, WB_ALetter);
  (0x1FC2, 0x1FC4, WB_ALetter); (0x1FC6, 0x1FCC, WB_ALetter); (0x1FD0, 0x1FD3, WB_ALetter); (0x1FD6, 0x1FDB, WB_ALetter);
  (0x1FE0, 0x1FEC, WB_ALetter); (0x1FF2, 0x1FF4, WB_ALetter); (0x1FF6, 0x1FFC, WB_ALetter); (0x2000, 0x2006, WB_WSegSpace);
  (0x2008, 0x200A, WB_WSegSpace); (0x200C, 0x200C, WB_Extend); (0x200D, 0x200D, WB_ZWJ); (0x200E, 0x200F, WB_Format);
  (0x2018, 0x2019, WB_MidNumLet); (0x2024, 0x2024, WB_MidNumLet); (0x2027, 0x2027, WB_MidLetter); (0x2028, 0x2029, WB_Newline);
  (0x202A, 0x202E, WB_Format); (0x202F, 0x202F, WB_ExtendNumLet); (0x203F, 0x2040, WB_ExtendNumLet); (0x2044, 0x2044, WB_MidNum);
  (0x2054, 0x2054, WB_ExtendNumLet); (0x205F, 0x205F, WB_WSegSpace); (0x2060, 0x2064, WB_Format); (0x2066, 0x206F, WB_Format);
  (0x2071, 0x2071, WB_ALetter); (0x207F, 0x207F, WB_ALetter); (0x2090, 0x209C, WB_ALetter); (0x20D0, 0x20F0, WB_Extend);
  (0x2102, 0x2102, WB_ALetter); (0x2107, 0x2107, WB_ALetter); (0x210A, 0x2113, WB_ALetter); (0x2115, 0x2115, WB_ALetter);
  (0x2119, 0x211D, WB_ALetter); (0x2124, 0x2124, WB_ALetter); (0x2126, 0x2126, WB_ALetter); (0x2128, 0x2128, WB_ALetter);
  (0x212A, 0x212D, WB_ALetter); (0x212F, 0x2139, WB_ALetter); (0x213C, 0x213F, WB_ALetter); (0x2145, 0x2149, WB_ALetter);
  (0x214E, 0x214E, WB_ALetter); (0x2160, 0x2188, WB_ALetter); (0x24B6, 0x24E9, WB_ALetter); (0x2C00, 0x2CE4, WB_ALetter);
  (0x2CEB, 0x2CEE, WB_ALetter); (0x2CEF, 0x2CF1, WB_Extend); (0x2CF2, 0x2CF3, WB_ALetter); (0x2D00, 0x2D25, WB_ALetter);
  (0x2D27, 0x2D27, WB_ALetter); (0x2D2D, 0x2D2D, WB_ALetter); (0x2D30, 0x2D67, WB_ALetter); (0x2D6F, 0x2D6F, WB_ALetter);
  (0x2D7F, 0x2D7F, WB_Extend); (0x2D80, 0x2D96, WB_ALetter); (0x2DA0, 0x2DA6, WB_ALetter); (0x2DA8, 0x2DAE, WB_ALetter);
  (0x2DB0, 0x2DB6, WB_ALetter); (0x2DB8, 0x2DBE, WB_ALetter); (0x2DC0, 0x2DC6, WB_ALetter); (0x2DC8, 0x2DCE, WB_ALetter);
  (0x2DD0, 0x2DD6, WB_ALetter); (0x2DD8, 0x2DDE, WB_ALetter); (0x2DE0, 0x2DFF, WB_Extend); (0x2E2F, 0x2E2F, WB_ALetter);
  (0x3000, 0x3000, WB_WSegSpace); (0x3005, 0x3005, WB_ALetter); (0x302A, 0x302F, WB_Extend); (0x3031, 0x3035, WB_Katakana);
  (0x303B, 0x303C, WB_ALetter); (0x3099, 0x309A, WB_Extend); (0x309B, 0x309C, WB_Katakana); (0x30A0, 0x30FA, WB_Katakana);
  (0x30FC, 0x30FF, WB_Katakana); (0x3105, 0x312F, WB_ALetter); (0x3131, 0x318E, WB_ALetter); (0x31A0, 0x31BF, WB_ALetter);
  (0x31F0, 0x31FF, WB_Katakana); (0x32D0, 0x32FE, WB_Katakana); (0x3300, 0x3357, WB_Katakana); (0xA000, 0xA48C, WB_ALetter);
  (0xA4D0, 0xA4FD, WB_ALetter); (0xA500, 0xA60C, WB_ALetter); (0xA610, 0xA61F, WB_ALetter); (0xA620, 0xA629, WB_Numeric);
  (0xA62A, 0xA62B, WB_ALetter); (0xA640, 0xA66E, WB_ALetter); (0xA66F, 0xA672, WB_Extend); (0xA674, 0xA67D, WB_Extend);
  (0xA67F, 0xA69D, WB_ALetter); (0xA69E, 0xA69F, WB_Extend); (0xA6A0, 0xA6EF, WB_ALetter); (0xA6F0, 0xA6F1, WB_Extend);
  (0xA708, 0xA7DC, WB_ALetter); (0xA7F1, 0xA801, WB_ALetter); (0xA802, 0xA802, WB_Extend); (0xA803, 0xA805, WB_ALetter);
  (0xA806, 0xA806, WB_Extend); (0xA807, 0xA80A, WB_ALetter); (0xA80B, 0xA80B, WB_Extend); (0xA80C, 0xA822, WB_ALetter);
  (0xA823, 0xA827, WB_Extend); (0xA82C, 0xA82C, WB_Extend); (0xA840, 0xA873, WB_ALetter); (0xA880, 0xA881, WB_Extend);
  (0xA882, 0xA8B3, WB_ALetter); (0xA8B4, 0xA8C5, WB_Extend); (0xA8D0, 0xA8D9, WB_Numeric); (0xA8E0, 0xA8F1, WB_Extend);
  (0xA8F2, 0xA8F7, WB_ALetter); (0xA8FB, 0xA8FB, WB_ALetter); (0xA8FD, 0xA8FE, WB_ALetter); (0xA8FF, 0xA8FF, WB_Extend);
  (0xA900, 0xA909, WB_Numeric); (0xA90A, 0xA925, WB_ALetter); (0xA926, 0xA92D, WB_Extend); (0xA930, 0xA946, WB_ALetter);
  (0xA947, 0xA953, WB_Extend); (0xA960, 0xA97C, WB_ALetter); (0xA980, 0xA983, WB_Extend); (0xA984, 0xA9B2, WB_ALetter);
  (0xA9B3, 0xA9C0, WB_Extend); (0xA9CF, 0xA9CF, WB_ALetter); (0xA9D0, 0xA9D9, WB_Numeric); (0xA9E5, 0xA9E5, WB_Extend);
  (0xA9F0, 0xA9F9, WB_Numeric); (0xAA00, 0xAA28, WB_ALetter); (0xAA29, 0xAA36, WB_Extend); (0xAA40, 0xAA42, WB_ALetter);
  (0xAA43, 0xAA43, WB_Extend); (0xAA44, 0xAA4B, WB_ALetter); (0xAA4C, 0xAA4D, WB_Extend); (0xAA50, 0xAA59, WB_Numeric);
  (0xAA7B, 0xAA7D, WB_Extend); (0xAAB0, 0xAAB0, WB_Extend); (0xAAB2, 0xAAB4, WB_Extend); (0xAAB7, 0xAAB8, WB_Extend);
  (0xAABE, 0xAABF, WB_Extend); (0xAAC1, 0xAAC1, WB_Extend); (0xAAE0, 0xAAEA, WB_ALetter); (0xAAEB, 0xAAEF, WB_Extend);
  (0xAAF2, 0xAAF4, WB_ALetter); (0xAAF5, 0xAAF6, WB_Extend); (0xAB01, 0xAB06, WB_ALetter); (0xAB09, 0xAB0E, WB_ALetter);
  (0xAB11, 0xAB16, WB_ALetter); (0xAB20, 0xAB26, WB_ALetter); (0xAB28, 0xAB2E, WB_ALetter); (0xAB30, 0xAB69, WB_ALetter);
  (0xAB70, 0xABE2, WB_ALetter); (0xABE3, 0xABEA, WB_Extend); (0xABEC, 0xABED, WB_Extend); (0xABF0, 0xABF9, WB_Numeric);
  (0xAC00, 0xD7A3, WB_ALetter); (0xD7B0, 0xD7C6, WB_ALetter); (0xD7CB, 0xD7FB, WB_ALetter); (0xFB00, 0xFB06, WB_ALetter);
  (0xFB13, 0xFB17, WB_ALetter); (0xFB1D, 0xFB1D, WB_Hebrew_Letter); (0xFB1E, 0xFB1E, WB_Extend); (0xFB1F, 0xFB28, WB_Hebrew_Letter);
  (0xFB2A, 0xFB36, WB_Hebrew_Letter); (0xFB38, 0xFB3C, WB_Hebrew_Letter); (0xFB3E, 0xFB3E, WB_Hebrew_Letter); (0xFB40, 0xFB41, WB_Hebrew_Letter);
  (0xFB43, 0xFB44, WB_Hebrew_Letter); (0xFB46, 0xFB4F, WB_Hebrew_Letter); (0xFB50, 0xFBB1, WB_ALetter); (0xFBD3, 0xFD3D, WB_ALetter);
  (0xFD50, 0xFD8F, WB_ALetter); (0xFD92, 0xFDC7, WB_ALetter); (0xFDF0, 0xFDFB, WB_ALetter); (0xFE00, 0xFE0F, WB_Extend);
  (0xFE13, 0xFE13, WB_MidLetter); (0xFE20, 0xFE2F, WB_Extend); (0xFE33, 0xFE34, WB_ExtendNumLet); (0xFE4D, 0xFE4F, WB_ExtendNumLet);
  (0xFE50, 0xFE50, WB_MidNum); (0xFE52, 0xFE52, WB_MidNumLet); (0xFE54, 0xFE54, WB_MidNum); (0xFE55, 0xFE55, WB_MidLetter);
  (0xFE70, 0xFE74, WB_ALetter); (0xFE76, 0xFEFC, WB_ALetter); (0xFEFF, 0xFEFF, WB_Format); (0xFF07, 0xFF07, WB_MidNumLet);
  (0xFF0C, 0xFF0C, WB_MidNum); (0xFF0E, 0xFF0E, WB_MidNumLet); (0xFF10, 0xFF19, WB_Numeric); (0xFF1A, 0xFF1A, WB_MidLetter);
  (0xFF1B, 0xFF1B, WB_MidNum); (0xFF21, 0xFF3A, WB_ALetter); (0xFF3F, 0xFF3F, WB_ExtendNumLet); (0xFF41, 0xFF5A, WB_ALetter);
  (0xFF66, 0xFF9D, WB_Katakana); (0xFF9E, 0xFF9F, WB_Extend); (0xFFA0, 0xFFBE, WB_ALetter); (0xFFC2, 0xFFC7, WB_ALetter);
  (0xFFCA, 0xFFCF, WB_ALetter); (0xFFD2, 0xFFD7, WB_ALetter); (0xFFDA, 0xFFDC, WB_ALetter); (0xFFF9, 0xFFFB, WB_Format);
  (0x10000, 0x1000B, WB_ALetter); (0x1000D, 0x10026, WB_ALetter); (0x10028, 0x1003A, WB_ALetter); (0x1003C, 0x1003D, WB_ALetter);
  (0x1003F, 0x1004D, WB_ALetter); (0x10050, 0x1005D, WB_ALetter); (0x10080, 0x100FA, WB_ALetter); (0x10140, 0x10174, WB_ALetter);
  (0x101FD, 0x101FD, WB_Extend); (0x10280, 0x1029C, WB_ALetter); (0x102A0, 0x102D0, WB_ALetter); (0x102E0, 0x102E0, WB_Extend);
  (0x10300, 0x1031F, WB_ALetter); (0x1032D, 0x1034A, WB_ALetter); (0x10350, 0x10375, WB_ALetter); (0x10376, 0x1037A, WB_Extend);
  (0x10380, 0x1039D, WB_ALetter); (0x103A0, 0x103C3, WB_ALetter); (0x103C8, 0x103CF, WB_ALetter); (0x103D1, 0x103D5, WB_ALetter);
  (0x10400, 0x1049D, WB_ALetter); (0x104A0, 0x104A9, WB_Numeric); (0x104B0, 0x104D3, WB_ALetter); (0x104D8, 0x104FB, WB_ALetter);
  (0x10500, 0x10527, WB_ALetter); (0x10530, 0x10563, WB_ALetter); (0x10570, 0x1057A, WB_ALetter); (0x1057C, 0x1058A, WB_ALetter);
  (0x1058C, 0x10592, WB_ALetter); (0x10594, 0x10595, WB_ALetter); (0x10597, 0x105A1, WB_ALetter); (0x105A3, 0x105B1, WB_ALetter);
  (0x105B3, 0x105B9, WB_ALetter); (0x105BB, 0x105BC, WB_ALetter); (0x105C0, 0x105F3, WB_ALetter); (0x10600, 0x10736, WB_ALetter);
  (0x10740, 0x10755, WB_ALetter); (0x10760, 0x10767, WB_ALetter); (0x10780, 0x10785, WB_ALetter); (0x10787, 0x107B0, WB_ALetter);
  (0x107B2, 0x107BA, WB_ALetter); (0x10800, 0x10805, WB_ALetter); (0x10808, 0x10808, WB_ALetter); (0x1080A, 0x10835, WB_ALetter);
  (0x10837, 0x10838, WB_ALetter); (0x1083C, 0x1083C, WB_ALetter); (0x1083F, 0x10855, WB_ALetter); (0x10860, 0x10876, WB_ALetter);
  (0x10880, 0x1089E, WB_ALetter); (0x108E0, 0x108F2, WB_ALetter); (0x108F4, 0x108F5, WB_ALetter); (0x10900, 0x10915, WB_ALetter);
  (0x10920, 0x10939, WB_ALetter); (0x10940, 0x10959, WB_ALetter); (0x10980, 0x109B7, WB_ALetter); (0x109BE, 0x109BF, WB_ALetter);
  (0x10A00, 0x10A00, WB_ALetter); (0x10A01, 0x10A03, WB_Extend); (0x10A05, 0x10A06, WB_Extend); (0x10A0C, 0x10A0F, WB_Extend);
  (0x10A10, 0x10A13, WB_ALetter); (0x10A15, 0x10A17, WB_ALetter); (0x10A19, 0x10A35, WB_ALetter); (0x10A38, 0x10A3A, WB_Extend);
  (0x10A3F, 0x10A3F, WB_Extend); (0x10A60, 0x10A7C, WB_ALetter); (0x10A80, 0x10A9C, WB_ALetter); (0x10AC0, 0x10AC7, WB_ALetter);
  (0x10AC9, 0x10AE4, WB_ALetter); (0x10AE5, 0x10AE6, WB_Extend); (0x10B00, 0x10B35, WB_ALetter); (0x10B40, 0x10B55, WB_ALetter);
  (0x10B60, 0x10B72, WB_ALetter); (0x10B80, 0x10B91, WB_ALetter); (0x10C00, 0x10C48, WB_ALetter); (0x10C80, 0x10CB2, WB_ALetter);
  (0x10CC0, 0x10CF2, WB_ALetter); (0x10D00, 0x10D23, WB_ALetter); (0x10D24, 0x10D27, WB_Extend); (0x10D30, 0x10D39, WB_Numeric);
  (0x10D40, 0x10D49, WB_Numeric); (0x10D4A, 0x10D65, WB_ALetter); (0x10D69, 0x10D6D, WB_Extend); (0x10D6F, 0x10D85, WB_ALetter);
  (0x10E80, 0x10EA9, WB_ALetter); (0x10EAB, 0x10EAC, WB_Extend); (0x10EB0, 0x10EB1, WB_ALetter); (0x10EC2, 0x10EC7, WB_ALetter);
  (0x10EFA, 0x10EFF, WB_Extend); (0x10F00, 0x10F1C, WB_ALetter); (0x10F27, 0x10F27, WB_ALetter); (0x10F30, 0x10F45, WB_ALetter);
  (0x10F46, 0x10F50, WB_Extend); (0x10F70, 0x10F81, WB_ALetter); (0x10F82, 0x10F85, WB_Extend); (0x10FB0, 0x10FC4, WB_ALetter);
  (0x10FE0, 0x10FF6, WB_ALetter); (0x11000, 0x11002, WB_Extend); (0x11003, 0x11037, WB_ALetter); (0x11038, 0x11046, WB_Extend);
  (0x11066, 0x1106F, WB_Numeric); (0x11070, 0x11070, WB_Extend); (0x11071, 0x11072, WB_ALetter); (0x11073, 0x11074, WB_Extend);
  (0x11075, 0x11075, WB_ALetter); (0x1107F, 0x11082, WB_Extend); (0x11083, 0x110AF, WB_ALetter); (0x110B0, 0x110BA, WB_Extend);
  (0x110BD, 0x110BD, WB_Numeric); (0x110C2, 0x110C2, WB_Extend); (0x110CD, 0x110CD, WB_Numeric); (0x110D0, 0x110E8, WB_ALetter);
  (0x110F0, 0x110F9, WB_Numeric); (0x11100, 0x11102, WB_Extend); (0x11103, 0x11126, WB_ALetter); (0x11127, 0x11134, WB_Extend);
  (0x11136, 0x1113F, WB_Numeric); (0x11144, 0x11144, WB_ALetter); (0x11145, 0x11146, WB_Extend); (0x11147, 0x11147, WB_ALetter);
  (0x11150, 0x11172, WB_ALetter); (0x11173, 0x11173, WB_Extend); (0x11176, 0x11176, WB_ALetter); (0x11180, 0x11182, WB_Extend);
  (0x11183, 0x111B2, WB_ALetter); (0x111B3, 0x111C0, WB_Extend); (0x111C1, 0x111C4, WB_ALetter); (0x111C9, 0x111CC, WB_Extend);
  (0x111CE, 0x111CF, WB_Extend); (0x111D0, 0x111D9, WB_Numeric); (0x111DA, 0x111DA, WB_ALetter); (0x111DC, 0x111DC, WB_ALetter);
  (0x11200, 0x11211, WB_ALetter); (0x11213, 0x1122B, WB_ALetter); (0x1122C, 0x11237, WB_Extend); (0x1123E, 0x1123E, WB_Extend);
  (0x1123F, 0x11240, WB_ALetter); (0x11241, 0x11241, WB_Extend); (0x11280, 0x11286, WB_ALetter); (0x11288, 0x11288, WB_ALetter);
  (0x1128A, 0x1128D, WB_ALetter); (0x1128F, 0x1129D, WB_ALetter); (0x1129F, 0x112A8, WB_ALetter); (0x112B0, 0x112DE, WB_ALetter);
  (0x112DF, 0x112EA, WB_Extend); (0x112F0, 0x112F9, WB_Numeric); (0x11300, 0x11303, WB_Extend); (0x11305, 0x1130C, WB_ALetter);
  (0x1130F, 0x11310, WB_ALetter); (0x11313, 0x11328, WB_ALetter); (0x1132A, 0x11330, WB_ALetter); (0x11332, 0x11333, WB_ALetter);
  (0x11335, 0x11339, WB_ALetter); (0x1133B, 0x1133C, WB_Extend); (0x1133D, 0x1133D, WB_ALetter); (0x1133E, 0x11344, WB_Extend);
  (0x11347, 0x11348, WB_Extend); (0x1134B, 0x1134D, WB_Extend); (0x11350, 0x11350, WB_ALetter); (0x11357, 0x11357, WB_Extend);
  (0x1135D, 0x11361, WB_ALetter); (0x11362, 0x11363, WB_Extend); (0x11366, 0x1136C, WB_Extend); (0x11370, 0x11374, WB_Extend);
  (0x11380, 0x11389, WB_ALetter); (0x1138B, 0x1138B, WB_ALetter); (0x1138E, 0x1138E, WB_ALetter); (0x11390, 0x113B5, WB_ALetter);
  (0x113B7, 0x113B7, WB_ALetter); (0x113B8, 0x113C0, WB_Extend); (0x113C2, 0x113C2, WB_Extend); (0x113C5, 0x113C5, WB_Extend);
  (0x113C7, 0x113CA, WB_Extend); (0x113CC, 0x113D0, WB_Extend); (0x113D1, 0x113D1, WB_ALetter); (0x113D2, 0x113D2, WB_Extend);
  (0x113D3, 0x113D3, WB_ALetter); (0x113E1, 0x113E2, WB_Extend); (0x11400, 0x11434, WB_ALetter); (0x11435, 0x11446, WB_Extend);
  (0x11447, 0x1144A, WB_ALetter); (0x11450, 0x11459, WB_Numeric); (0x1145E, 0x1145E, WB_Extend); (0x1145F, 0x11461, WB_ALetter);
  (0x11480, 0x114AF, WB_ALetter); (0x114B0, 0x114C3, WB_Extend); (0x114C4, 0x114C5, WB_ALetter); (0x114C7, 0x114C7, WB_ALetter);
  (0x114D0, 0x114D9, WB_Numeric); (0x11580, 0x115AE, WB_ALetter); (0x115AF, 0x115B5, WB_Extend); (0x115B8, 0x115C0, WB_Extend);
  (0x115D8, 0x115DB, WB_ALetter); (0x115DC, 0x115DD, WB_Extend); (0x11600, 0x1162F, WB_ALetter); (0x11630, 0x11640, WB_Extend);
  (0x11644, 0x11644, WB_ALetter); (0x11650, 0x11659, WB_Numeric); (0x11680, 0x116AA, WB_ALetter); (0x116AB, 0x116B7, WB_Extend);
  (0x116B8, 0x116B8, WB_ALetter); (0x116C0, 0x116C9, WB_Numeric); (0x116D0, 0x116E3, WB_Numeric); (0x1171D, 0x1172B, WB_Extend);
  (0x11730, 0x11739, WB_Numeric); (0x11800, 0x1182B, WB_ALetter); (0x1182C, 0x1183A, WB_Extend); (0x118A0, 0x118DF, WB_ALetter);
  (0x118E0, 0x118E9, WB_Numeric); (0x118FF, 0x11906, WB_ALetter); (0x11909, 0x11909, WB_ALetter); (0x1190C, 0x11913, WB_ALetter);
  (0x11915, 0x11916, WB_ALetter); (0x11918, 0x1192F, WB_ALetter); (0x11930, 0x11935, WB_Extend); (0x11937, 0x11938, WB_Extend);
  (0x1193B, 0x1193E, WB_Extend); (0x1193F, 0x1193F, WB_ALetter); (0x11940, 0x11940, WB_Extend); (0x11941, 0x11941, WB_ALetter);
  (0x11942, 0x11943, WB_Extend); (0x11950, 0x11959, WB_Numeric); (0x119A0, 0x119A7, WB_ALetter); (0x119AA, 0x119D0, WB_ALetter);
  (0x119D1, 0x119D7, WB_Extend); (0x119DA, 0x119E0, WB_Extend); (0x119E1, 0x119E1, WB_ALetter); (0x119E3, 0x119E3, WB_ALetter);
  (0x119E4, 0x119E4, WB_Extend); (0x11A00, 0x11A00, WB_ALetter); (0x11A01, 0x11A0A, WB_Extend); (0x11A0B, 0x11A32, WB_ALetter);
  (0x11A33, 0x11A39, WB_Extend); (0x11A3A, 0x11A3A, WB_ALetter); (0x11A3B, 0x11A3E, WB_Extend); (0x11A47, 0x11A47, WB_Extend);
  (0x11A50, 0x11A50, WB_ALetter); (0x11A51, 0x11A5B, WB_Extend); (0x11A5C, 0x11A89, WB_ALetter); (0x11A8A, 0x11A99, WB_Extend);
  (0x11A9D, 0x11A9D, WB_ALetter); (0x11AB0, 0x11AF8, WB_ALetter); (0x11B60, 0x11B67, WB_Extend); (0x11BC0, 0x11BE0, WB_ALetter);
  (0x11BF0, 0x11BF9, WB_Numeric); (0x11C00, 0x11C08, WB_ALetter); (0x11C0A, 0x11C2E, WB_ALetter); (0x11C2F, 0x11C36, WB_Extend);
  (0x11C38, 0x11C3F, WB_Extend); (0x11C40, 0x11C40, WB_ALetter); (0x11C50, 0x11C59, WB_Numeric); (0x11C72, 0x11C8F, WB_ALetter);
  (0x11C92, 0x11CA7, WB_Extend); (0x11CA9, 0x11CB6, WB_Extend); (0x11D00, 0x11D06, WB_ALetter); (0x11D08, 0x11D09, WB_ALetter);
  (0x11D0B, 0x11D30, WB_ALetter); (0x11D31, 0x11D36, WB_Extend); (0x11D3A, 0x11D3A, WB_Extend); (0x11D3C, 0x11D3D, WB_Extend);
  (0x11D3F, 0x11D45, WB_Extend); (0x11D46, 0x11D46, WB_ALetter); (0x11D47, 0x11D47, WB_Extend); (0x11D50, 0x11D59, WB_Numeric);
  (0x11D60, 0x11D65, WB_ALetter); (0x11D67, 0x11D68, WB_ALetter); (0x11D6A, 0x11D89, WB_ALetter); (0x11D8A, 0x11D8E, WB_Extend);
  (0x11D90, 0x11D91, WB_Extend); (0x11D93, 0x11D97, WB_Extend); (0x11D98, 0x11D98, WB_ALetter); (0x11DA0, 0x11DA9, WB_Numeric);
  (0x11DB0, 0x11DDB, WB_ALetter); (0x11DE0, 0x11DE9, WB_Numeric); (0x11EE0, 0x11EF2, WB_ALetter); (0x11EF3, 0x11EF6, WB_Extend);
  (0x11F00, 0x11F01, WB_Extend); (0x11F02, 0x11F02, WB_ALetter); (0x11F03, 0x11F03, WB_Extend); (0x11F04, 0x11F10, WB_ALetter);
  (0x11F12, 0x11F33, WB_ALetter); (0x11F34, 0x11F3A, WB_Extend); (0x11F3E, 0x11F42, WB_Extend); (0x11F50, 0x11F59, WB_Numeric);
  (0x11F5A, 0x11F5A, WB_Extend); (0x11FB0, 0x11FB0, WB_ALetter); (0x12000, 0x12399, WB_ALetter); (0x12400, 0x1246E, WB_ALetter);
  (0x12480, 0x12543, WB_ALetter); (0x12F90, 0x12FF0, WB_ALetter); (0x13000, 0x1342F, WB_ALetter); (0x13430, 0x1343F, WB_Format);
  (0x13440, 0x13440, WB_Extend); (0x13441, 0x13446, WB_ALetter); (0x13447, 0x13455, WB_Extend); (0x13460, 0x143FA, WB_ALetter);
  (0x14400, 0x14646, WB_ALetter); (0x16100, 0x1611D, WB_ALetter); (0x1611E, 0x1612F, WB_Extend); (0x16130, 0x16139, WB_Numeric);
  (0x16800, 0x16A38, WB_ALetter); (0x16A40, 0x16A5E, WB_ALetter); (0x16A60, 0x16A69, WB_Numeric); (0x16A70, 0x16ABE, WB_ALetter);
  (0x16AC0, 0x16AC9, WB_Numeric); (0x16AD0, 0x16AED, WB_ALetter); (0x16AF0, 0x16AF4, WB_Extend); (0x16B00, 0x16B2F, WB_ALetter);
  (0x16B30, 0x16B36, WB_Extend); (0x16B40, 0x16B43, WB_ALetter); (0x16B50, 0x16B59, WB_Numeric); (0x16B63, 0x16B77, WB_ALetter);
  (0x16B7D, 0x16B8F, WB_ALetter); (0x16D40, 0x16D6C, WB_ALetter); (0x16D70, 0x16D79, WB_Numeric); (0x16E40, 0x16E7F, WB_ALetter);
  (0x16EA0, 0x16EB8, WB_ALetter); (0x16EBB, 0x16ED3, WB_ALetter); (0x16F00, 0x16F4A, WB_ALetter); (0x16F4F, 0x16F4F, WB_Extend);
  (0x16F50, 0x16F50, WB_ALetter); (0x16F51, 0x16F87, WB_Extend); (0x16F8F, 0x16F92, WB_Extend); (0x16F93, 0x16F9F, WB_ALetter);
  (0x16FE0, 0x16FE1, WB_ALetter); (0x16FE3, 0x16FE3, WB_ALetter); (0x16FE4, 0x16FE4, WB_Extend); (0x16FF0, 0x16FF1, WB_Extend);
  (0x1AFF0, 0x1AFF3, WB_Katakana); (0x1AFF5, 0x1AFFB, WB_Katakana); (0x1AFFD, 0x1AFFE, WB_Katakana); (0x1B000, 0x1B000, WB_Katakana);
  (0x1B120, 0x1B122, WB_Katakana); (0x1B155, 0x1B155, WB_Katakana); (0x1B164, 0x1B167, WB_Katakana); (0x1BC00, 0x1BC6A, WB_ALetter);
  (0x1BC70, 0x1BC7C, WB_ALetter); (0x1BC80, 0x1BC88, WB_ALetter); (0x1BC90, 0x1BC99, WB_ALetter); (0x1BC9D, 0x1BC9E, WB_Extend);
  (0x1BCA0, 0x1BCA3, WB_Format); (0x1CCF0, 0x1CCF9, WB_Numeric); (0x1CF00, 0x1CF2D, WB_Extend); (0x1CF30, 0x1CF46, WB_Extend);
  (0x1D165, 0x1D169, WB_Extend); (0x1D16D, 0x1D172, WB_Extend); (0x1D173, 0x1D17A, WB_Format); (0x1D17B, 0x1D182, WB_Extend);
  (0x1D185, 0x1D18B, WB_Extend); (0x1D1AA, 0x1D1AD, WB_Extend); (0x1D242, 0x1D244, WB_Extend); (0x1D400, 0x1D454, WB_ALetter);
  (0x1D456, 0x1D49C, WB_ALetter); (0x1D49E, 0x1D49F, WB_ALetter); (0x1D4A2, 0x1D4A2, WB_ALetter); (0x1D4A5, 0x1D4A6, WB_ALetter);
  (0x1D4A9, 0x1D4AC, WB_ALetter); (0x1D4AE, 0x1D4B9, WB_ALetter); (0x1D4BB, 0x1D4BB, WB_ALetter); (0x1D4BD, 0x1D4C3, WB_ALetter);
  (0x1D4C5, 0x1D505, WB_ALetter); (0x1D507, 0x1D50A, WB_ALetter); (0x1D50D, 0x1D514, WB_ALetter); (0x1D516, 0x1D51C, WB_ALetter);
  (0x1D51E, 0x1D539, WB_ALetter); (0x1D53B, 0x1D53E, WB_ALetter); (0x1D540, 0x1D544, WB_ALetter); (0x1D546, 0x1D546, WB_ALetter);
  (0x1D54A, 0x1D550, WB_ALetter); (0x1D552, 0x1D6A5, WB_ALetter); (0x1D6A8, 0x1D6C0, WB_ALetter); (0x1D6C2, 0x1D6DA, WB_ALetter);
  (0x1D6DC, 0x1D6FA, WB_ALetter); (0x1D6FC, 0x1D714, WB_ALetter); (0x1D716, 0x1D734, WB_ALetter); (0x1D736, 0x1D74E, WB_ALetter);
  (0x1D750, 0x1D76E, WB_ALetter); (0x1D770, 0x1D788, WB_ALetter); (0x1D78A, 0x1D7A8, WB_ALetter); (0x1D7AA, 0x1D7C2, WB_ALetter);
  (0x1D7C4, 0x1D7CB, WB_ALetter); (0x1D7CE, 0x1D7FF, WB_Numeric); (0x1DA00, 0x1DA36, WB_Extend); (0x1DA3B, 0x1DA6C, WB_Extend);
  (0x1DA75, 0x1DA75, WB_Extend); (0x1DA84, 0x1DA84, WB_Extend); (0x1DA9B, 0x1DA9F, WB_Extend); (0x1DAA1, 0x1DAAF, WB_Extend);
  (0x1DF00, 0x1DF1E, WB_ALetter); (0x1DF25, 0x1DF2A, WB_ALetter); (0x1E000, 0x1E006, WB_Extend); (0x1E008, 0x1E018, WB_Extend);
  (0x1E01B, 0x1E021, WB_Extend); (0x1E023, 0x1E024, WB_Extend); (0x1E026, 0x1E02A, WB_Extend); (0x1E030, 0x1E06D, WB_ALetter);
  (0x1E08F, 0x1E08F, WB_Extend); (0x1E100, 0x1E12C, WB_ALetter); (0x1E130, 0x1E136, WB_Extend); (0x1E137, 0x1E13D, WB_ALetter);
  (0x1E140, 0x1E149, WB_Numeric); (0x1E14E, 0x1E14E, WB_ALetter); (0x1E290, 0x1E2AD, WB_ALetter); (0x1E2AE, 0x1E2AE, WB_Extend);
  (0x1E2C0, 0x1E2EB, WB_ALetter); (0x1E2EC, 0x1E2EF, WB_Extend); (0x1E2F0, 0x1E2F9, WB_Numeric); (0x1E4D0, 0x1E4EB, WB_ALetter);
  (0x1E4EC, 0x1E4EF, WB_Extend); (0x1E4F0, 0x1E4F9, WB_Numeric); (0x1E5D0, 0x1E5ED, WB_ALetter); (0x1E5EE, 0x1E5EF, WB_Extend);
  (0x1E5F0, 0x1E5F0, WB_ALetter); (0x1E5F1, 0x1E5FA, WB_Numeric); (0x1E6C0, 0x1E6DE, WB_ALetter); (0x1E6E0, 0x1E6E2, WB_ALetter);
  (0x1E6E3, 0x1E6E3, WB_Extend); (0x1E6E4, 0x1E6E5, WB_ALetter); (0x1E6E6, 0x1E6E6, WB_Extend); (0x1E6E7, 0x1E6ED, WB_ALetter);
  (0x1E6EE, 0x1E6EF, WB_Extend); (0x1E6F0, 0x1E6F4, WB_ALetter); (0x1E6F5, 0x1E6F5, WB_Extend); (0x1E6FE, 0x1E6FF, WB_ALetter);
  (0x1E7E0, 0x1E7E6, WB_ALetter); (0x1E7E8, 0x1E7EB, WB_ALetter); (0x1E7ED, 0x1E7EE, WB_ALetter); (0x1E7F0, 0x1E7FE, WB_ALetter);
  (0x1E800, 0x1E8C4, WB_ALetter); (0x1E8D0, 0x1E8D6, WB_Extend); (0x1E900, 0x1E943, WB_ALetter); (0x1E944, 0x1E94A, WB_Extend);
  (0x1E94B, 0x1E94B, WB_ALetter); (0x1E950, 0x1E959, WB_Numeric); (0x1EE00, 0x1EE03, WB_ALetter); (0x1EE05, 0x1EE1F, WB_ALetter);
  (0x1EE21, 0x1EE22, WB_ALetter); (0x1EE24, 0x1EE24, WB_ALetter); (0x1EE27, 0x1EE27, WB_ALetter); (0x1EE29, 0x1EE32, WB_ALetter);
  (0x1EE34, 0x1EE37, WB_ALetter); (0x1EE39, 0x1EE39, WB_ALetter); (0x1EE3B, 0x1EE3B, WB_ALetter); (0x1EE42, 0x1EE42, WB_ALetter);
  (0x1EE47, 0x1EE47, WB_ALetter); (0x1EE49, 0x1EE49, WB_ALetter); (0x1EE4B, 0x1EE4B, WB_ALetter); (0x1EE4D, 0x1EE4F, WB_ALetter);
  (0x1EE51, 0x1EE52, WB_ALetter); (0x1EE54, 0x1EE54, WB_ALetter); (0x1EE57, 0x1EE57, WB_ALetter); (0x1EE59, 0x1EE59, WB_ALetter);
  (0x1EE5B, 0x1EE5B, WB_ALetter); (0x1EE5D, 0x1EE5D, WB_ALetter); (0x1EE5F, 0x1EE5F, WB_ALetter); (0x1EE61, 0x1EE62, WB_ALetter);
  (0x1EE64, 0x1EE64, WB_ALetter); (0x1EE67, 0x1EE6A, WB_ALetter); (0x1EE6C, 0x1EE72, WB_ALetter); (0x1EE74, 0x1EE77, WB_ALetter);
  (0x1EE79, 0x1EE7C, WB_ALetter); (0x1EE7E, 0x1EE7E, WB_ALetter); (0x1EE80, 0x1EE89, WB_ALetter); (0x1EE8B, 0x1EE9B, WB_ALetter);
  (0x1EEA1, 0x1EEA3, WB_ALetter); (0x1EEA5, 0x1EEA9, WB_ALetter); (0x1EEAB, 0x1EEBB, WB_ALetter); (0x1F130, 0x1F149, WB_ALetter);
  (0x1F150, 0x1F169, WB_ALetter); (0x1F170, 0x1F189, WB_ALetter); (0x1F1E6, 0x1F1FF, WB_Regional_Indicator); (0x1F3FB, 0x1F3FF, WB_Extend);
  (0x1FBF0, 0x1FBF9, WB_Numeric); (0xE0001, 0xE0001, WB_Format); (0xE0020, 0xE007F, WB_Extend); (0xE0100, 0xE01EF, WB_Extend)
].

Definition sb_table : list (N * N * sb) := [
  (0x9, 0x9, SB_Sp); (0xA, 0xA, SB_LF); (0xB, 0xC, SB_Sp); (0xD, 0xD, SB_CR);
  (0x20, 0x20, SB_Sp); (0x21, 0x21, SB_STerm); (0x22, 0x22, SB_Close); (0x27, 0x29, SB_Close);
  (0x2C, 0x2D, SB_SContinue); (0x2E, 0x2E, SB_ATerm); (0x30, 0x39, SB_Numeric); (0x3A, 0x3B, SB_SContinue);
  (0x3F, 0x3F, SB_STerm); (0x41, 0x5A, SB_Upper); (0x5B, 0x5B, SB_Close); (0x5D, 0x5D, SB_Close);
  (0x61, 0x7A, SB_Lower); (0x7B, 0x7B, SB_Close); (0x7D, 0x7D, SB_Close); (0x85, 0x85, SB_Sep);
  (0xA0, 0xA0, SB_Sp); (0xAA, 0xAA, SB_Lower); (0xAB, 0xAB, SB_Close); (0xAD, 0xAD, SB_Format);
  (0xB5, 0xB5, SB_Lower); (0xBA, 0xBA, SB_Lower); (0xBB, 0xBB, SB_Close); (0xC0, 0xD6, SB_Upper);
  (0xD8, 0xDE, SB_Upper); (0xDF, 0xF6, SB_Lower); (0xF8, 0xFF, SB_Lower); (0x100, 0x100, SB_Upper);
  (0x101, 0x101, SB_Lower); (0x102, 0x102, SB_Upper); (0x103, 0x103, SB_Lower); (0x104, 0x104, SB_Upper);
  (0x105, 0x105, SB_Lower); (0x106, 0x106, SB_Upper); (0x107, 0x107, SB_Lower); (0x108, 0x108, SB_Upper);
  (0x109, 0x109, SB_Lower); (0x10A, 0x10A, SB_Upper); (0x10B, 0x10B, SB_Lower); (0x10C, 0x10C, SB_Upper);
  (0x10D, 0x10D, SB_Lower); (0x10E, 0x10E, SB_Upper); (0x10F, 0x10F, SB_Lower); (0x110, 0x110, SB_Upper);
  (0x111, 0x111, SB_Lower); (0x112, 0x112, SB_Upper); (0x113, 0x113, SB_Lower); (0x114, 0x114, SB_Upper);
  (0x115, 0x115, SB_Lower); (0x116, 0x116, SB_Upper); (0x117, 0x117, SB_Lower); (0x118, 0x118, SB_Upper);
  (0x119, 0x119, SB_Lower); (0x11A, 0x11A, SB_Upper); (0x11B, 0x11B, SB_Lower); (0x11C, 0x11C, SB_Upper);
  (0x11D, 0x11D, SB_Lower); (0x11E, 0x11E, SB_Upper); (0x11F, 0x11F, SB_Lower); (0x120, 0x120, SB_Upper);
  (0x121, 0x121, SB_Lower); (0x122, 0x122, SB_Upper); (0x123, 0x123, SB_Lower); (0x124, 0x124, SB_Upper);
  (0x125, 0x125, SB_Lower); (0x126, 0x126, SB_Upper); (0x127, 0x127, SB_Lower); (0x128, 0x128, SB_Upper);
  (0x129, 0x129, SB_Lower); (0x12A, 0x12A, SB_Upper); (0x12B, 0x12B, SB_Lower); (0x12C, 0x12C, SB_Upper);
  (0x12D, 0x12D, SB_Lower); (0x12E, 0x12E, SB_Upper); (0x12F, 0x12F, SB_Lower); (0x130, 0x130, SB_Upper);
  (0x131, 0x131, SB_Lower); (0x132, 0x132, SB_Upper); (0x133, 0x133, SB_Lower); (0x134, 0x134, SB_Upper);
  (0x135, 0x135, SB_Lower); (0x136, 0x136, SB_Upper); (0x137, 0x138, SB_Lower); (0x139, 0x139, SB_Upper);
  (0x13A, 0x13A, SB_Lower); (0x13B, 0x13B, SB_Upper); (0x13C, 0x13C, SB_Lower); (0x13D, 0x13D, SB_Upper);
  (0x13E, 0x13E, SB_Lower); (0x13F, 0x13F, SB_Upper); (0x140, 0x140, SB_Lower); (0x141, 0x141, SB_Upper);
  (0x142, 0x142, SB_Lower); (0x143, 0x143, SB_Upper); (0x144, 0x144, SB_Lower); (0x145, 0x145, SB_Upper);
  (0x146, 0x146, SB_Lower); (0x147, 0x147, SB_Upper); (0x148, 0x149, SB_Lower); (0x14A, 0x14A, SB_Upper);
  (0x14B, 0x14B, SB_Lower); (0x14C, 0x14C, SB_Upper); (0x14D, 0x14D, SB_Lower); (0x14E, 0x14E, SB_Upper);
  (0x14F, 0x14F, SB_Lower); (0x150, 0x150, SB_Upper); (0x151, 0x151, SB_Lower); (0x152, 0x152, SB_Upper);
  (0x153, 0x153, SB_Lower); (0x154, 0x154, SB_Upper); (0x155, 0x155, SB_Lower); (0x156, 0x156, SB_Upper);
  (0x157, 0x157, SB_Lower); (0x158, 0x158, SB_Upper); (0x159, 0x159, SB_Lower); (0x15A, 0x15A, SB_Upper);
  (0x15B, 0x15B, SB_Lower); (0x15C, 0x15C, SB_Upper); (0x15D, 0x15D, SB_Lower); (0x15E, 0x15E, SB_Upper);
  (0x15F, 0x15F, SB_Lower); (0x160, 0x160, SB_Upper); (0x161, 0x161, SB_Lower); (0x162, 0x162, SB_Upper);
  (0x163, 0x163, SB_Lower); (0x164, 0x164, SB_Upper); (0x165, 0x165, SB_Lower); (0x166, 0x166, SB_Upper);
  (0x167, 0x167, SB_Lower); (0x168, 0x168, SB_Upper); (0x169, 0x169, SB_Lower); (0x16A, 0x16A, SB_Upper);
  (0x16B, 0x16B, SB_Lower); (0x16C, 0x16C, SB_Upper); (0x16D, 0x16D, SB_Lower); (0x16E, 0x16E, SB_Upper);
  (0x16F, 0x16F, SB_Lower); (0x170, 0x170, SB_Upper); (0x171, 0x171, SB_Lower); (0x172, 0x172, SB_Upper);
  (0x173, 0x173, SB_Lower); (0x174, 0x174, SB_Upper); (0x175, 0x175, SB_Lower); (0x176, 0x176, SB_Upper);
  (0x177, 0x177, SB_Lower); (0x178, 0x179, SB_Upper); (0x17A, 0x17A, SB_Lower); (0x17B, 0x17B, SB_Upper);
  (0x17C, 0x17C, SB_Lower); (0x17D, 0x17D, SB_Upper); (0x17E, 0x180, SB_Lower); (0x181, 0x182, SB_Upper);
  (0x183, 0x183, SB_Lower); (0x184, 0x184, SB_Upper); (0x185, 0x185, SB_Lower); (0x186, 0x187, SB_Upper);
  (0x188, 0x188, SB_Lower); (0x189, 0x18B, SB_Upper); (0x18C, 0x18D, SB_Lower); (0x18E, 0x191, SB_Upper);
  (0x192, 0x192, SB_Lower); (0x193, 0x194, SB_Upper); (0x195, 0x195, SB_Lower); (0x196, 0x198, SB_Upper);
  (0x199, 0x19B, SB_Lower); (0x19C, 0x19D, SB_Upper); (0x19E, 0x19E, SB_Lower); (0x19F, 0x1A0, SB_Upper);
  (0x1A1, 0x1A1, SB_Lower); (0x1A2, 0x1A2, SB_Upper); (0x1A3, 0x1A3, SB_Lower); (0x1A4, 0x1A4, SB_Upper);
  (0x1A5, 0x1A5, SB_Lower); (0x1A6, 0x1A7, SB_Upper); (0x1A8, 0x1A8, SB_Lower); (0x1A9, 0x1A9, SB_Upper);
  (0x1AA, 0x1AB, SB_Lower); (0x1AC, 0x1AC, SB_Upper); (0x1AD, 0x1AD, SB_Lower); (0x1AE, 0x1AF, SB_Upper);
  (0x1B0, 0x1B0, SB_Lower); (0x1B1, 0x1B3, SB_Upper); (0x1B4, 0x1B4, SB_Lower); (0x1B5, 0x1B5, SB_Upper);
  (0x1B6, 0x1B6, SB_Lower); (0x1B7, 0x1B8, SB_Upper); (0x1B9, 0x1BA, SB_Lower); (0x1BB, 0x1BB, SB_OLetter);
  (0x1BC, 0x1BC, SB_Upper); (0x1BD, 0x1BF, SB_Lower); (0x1C0, 0x1C3, SB_OLetter); (0x1C4, 0x1C5, SB_Upper);
  (0x1C6, 0x1C6, SB_Lower); (0x1C7, 0x1C8, SB_Upper); (0x1C9, 0x1C9, SB_Lower); (0x1CA, 0x1CB, SB_Upper);
  (0x1CC, 0x1CC, SB_Lower); (0x1CD, 0x1CD, SB_Upper); (0x1CE, 0x1CE, SB_Lower); (0x1CF, 0x1CF, SB_Upper);
  (0x1D0, 0x1D0, SB_Lower); (0x1D1, 0x1D1, SB_Upper); (0x1D2, 0x1D2, SB_Lower); (0x1D3, 0x1D3, SB_Upper);
  (0x1D4, 0x1D4, SB_Lower); (0x1D5, 0x1D5, SB_Upper); (0x1D6, 0x1D6, SB_Lower); (0x1D7, 0x1D7, SB_Upper);
  (0x1D8, 0x1D8, SB_Lower); (0x1D9, 0x1D9, SB_Upper); (0x1DA, 0x1DA, SB_Lower); (0x1DB, 0x1DB, SB_Upper);
  (0x1DC, 0x1DD, SB_Lower); (0x1DE, 0x1DE, SB_Upper); (0x1DF, 0x1DF, SB_Lower); (0x1E0, 0x1E0, SB_Upper);
  (0x1E1, 0x1E1, SB_Lower); (0x1E2, 0x1E2, SB_Upper); (0x1E3, 0x1E3, SB_Lower); (0x1E4, 0x1E4, SB_Upper);
  (0x1E5, 0x1E5, SB_Lower); (0x1E6, 0x1E6, SB_Upper); (0x1E7, 0x1E7, SB_Lower); (0x1E8, 0x1E8, SB_Upper);
  (0x1E9, 0x1E9, SB_Lower); (0x1EA, 0x1EA, SB_Upper); (0x1EB, 0x1EB, SB_Lower); (0x1EC, 0x1EC, SB_Upper);
  (0x1ED, 0x1ED, SB_Lower); (0x1EE, 0x1EE, SB_Upper); (0x1EF, 0x1F0, SB_Lower); (0x1F1, 0x1F2, SB_Upper);
  (0x1F3, 0x1F3, SB_Lower); (0x1F4, 0x1F4, SB_Upper); (0x1F5, 0x1F5, SB_Lower); (0x1F6, 0x1F8, SB_Upper);
  (0x1F9, 0x1F9, SB_Lower); (0x1FA, 0x1FA, SB_Upper); (0x1FB, 0x1FB, SB_Lower); (0x1FC, 0x1FC, SB_Upper);
  (0x1FD, 0x1FD, SB_Lower); (0x1FE, 0x1FE, SB_Upper); (0x1FF, 0x1FF, SB_Lower); (0x200, 0x200, SB_Upper);
  (0x201, 0x201, SB_Lower); (0x202, 0x202, SB_Upper); (0x203, 0x203, SB_Lower); (0x204, 0x204, SB_Upper);
  (0x205, 0x205, SB_Lower); (0x206, 0x206, SB_Upper); (0x207, 0x207, SB_Lower); (0x208, 0x208, SB_Upper);
  (0x209, 0x209, SB_Lower); (0x20A, 0x20A, SB_Upper); (0x20B, 0x20B, SB_Lower); (0x20C, 0x20C, SB_Upper);
  (0x20D, 0x20D, SB_Lower); (0x20E, 0x20E, SB_Upper); (0x20F, 0x20F, SB_Lower); (0x210, 0x210, SB_Upper);
  (0x211, 0x211, SB_Lower); (0x212, 0x212, SB_Upper); (0x213, 0x213, SB_Lower); (0x214, 0x214, SB_Upper);
  (0x215, 0x215, SB_Lower); (0x216, 0x216, SB_Upper); (0x217, 0x217, SB_Lower); (0x218, 0x218, SB_Upper);
  (0x219, 0x219, SB_Lower); (0x21A, 0x21A, SB_Upper); (0x21B, 0x21B, SB_Lower); (0x21C, 0x21C, SB_Upper);
  (0x21D, 0x21D, SB_Lower); (0x21E, 0x21E, SB_Upper); (0x21F, 0x21F, SB_Lower); (0x220, 0x220, SB_Upper);
  (0x221, 0x221, SB_Lower); (0x222, 0x222, SB_Upper); (0x223, 0x223, SB_Lower); (0x224, 0x224, SB_Upper);
  (0x225, 0x225, SB_Lower); (0x226, 0x226, SB_Upper); (0x227, 0x227, SB_Lower); (0x228, 0x228, SB_Upper);
  (0x229, 0x229, SB_Lower); (0x22A, 0x22A, SB_Upper); (0x22B, 0x22B, SB_Lower); (0x22C, 0x22C, SB_Upper);
  (0x22D, 0x22D, SB_Lower); (0x22E, 0x22E, SB_Upper); (0x22F, 0x22F, SB_Lower); (0x230, 0x230, SB_Upper);
  (0x231, 0x231, SB_Lower); (0x232, 0x232, SB_Upper); (0x233, 0x239, SB_Lower); (0x23A, 0x23B, SB_Upper);
  (0x23C, 0x23C, SB_Lower); (0x23D, 0x23E, SB_Upper); (0x23F, 0x240, SB_Lower); (0x241, 0x241, SB_Upper);
  (0x242, 0x242, SB_Lower); (0x243, 0x246, SB_Upper); (0x247, 0x247, SB_Lower); (0x248, 0x248, SB_Upper);
  (0x249, 0x249, SB_Lower); (0x24A, 0x24A, SB_Upper); (0x24B, 0x24B, SB_Lower); (0x24C, 0x24C, SB_Upper);
  (0x24D, 0x24D, SB_Lower); (0x24E, 0x24E, SB_Upper); (0x24F, 0x293, SB_Lower); (0x294, 0x295, SB_OLetter);
  (0x296, 0x2B8, SB_Lower); (0x2B9, 0x2BF, SB_OLetter); (0x2C0, 0x2C1, SB_Lower); (0x2C6, 0x2D1, SB_OLetter);
  (0x2E0, 0x2E4, SB_Lower); (0x2EC, 0x2EC, SB_OLetter); (0x2EE, 0x2EE, SB_OLetter); (0x300, 0x36F, SB_Extend);
  (0x370, 0x370, SB_Upper); (0x371, 0x371, SB_Lower); (0x372, 0x372, SB_Upper); (0x373, 0x373, SB_Lower);
  (0x374, 0x374, SB_OLetter); (0x376, 0x376, SB_Upper); (0x377, 0x377, SB_Lower); (0x37A, 0x37D, SB_Lower);
  (0x37E, 0x37E, SB_SContinue); (0x37F, 0x37F, SB_Upper); (0x386, 0x386, SB_Upper); (0x388, 0x38A, SB_Upper);
  (0x38C, 0x38C, SB_Upper); (0x38E, 0x38F, SB_Upper); (0x390, 0x390, SB_Lower); (0x391, 0x3A1, SB_Upper);
  (0x3A3, 0x3AB, SB_Upper); (0x3AC, 0x3CE, SB_Lower); (0x3CF, 0x3CF, SB_Upper); (0x3D0, 0x3D1, SB_Lower);
  (0x3D2, 0x3D4, SB_Upper); (0x3D5, 0x3D7, SB_Lower); (0x3D8, 0x3D8, SB_Upper); (0x3D9, 0x3D9, SB_Lower);
  (0x3DA, 0x3DA, SB_Upper); (0x3DB, 0x3DB, SB_Lower); (0x3DC, 0x3DC, SB_Upper); (0x3DD, 0x3DD, SB_Lower);
  (0x3DE, 0x3DE, SB_Upper); (0x3DF, 0x3DF, SB_Lower); (0x3E0, 0x3E0, SB_Upper); (0x3E1, 0x3E1, SB_Lower);
  (0x3E2, 0x3E2, SB_Upper); (0x3E3, 0x3E3, SB_Lower); (0x3E4, 0x3E4, SB_Upper); (0x3E5, 0x3E5, SB_Lower);
  (0x3E6, 0x3E6, SB_Upper); (0x3E7, 0x3E7, SB_Lower); (0x3E8, 0x3E8, SB_Upper); (0x3E9, 0x3E9, SB_Lower);
  (0x3EA, 0x3EA, SB_Upper); (0x3EB, 0x3EB, SB_Lower); (0x3EC, 0x3EC, SB_Upper); (0x3ED, 0x3ED, SB_Lower);
  (0x3EE, 0x3EE, SB_Upper); (0x3EF, 0x3F3, SB_Lower); (0x3F4, 0x3F4, SB_Upper); (0x3F5, 0x3F5, SB_Lower);
  (0x3F7, 0x3F7, SB_Upper); (0x3F8, 0x3F8, SB_Lower); (0x3F9, 0x3FA, SB_Upper); (0x3FB, 0x3FC, SB_Lower);
  (0x3FD, 0x42F, SB_Upper); (0x430, 0x45F, SB_Lower); (0x460, 0x460, SB_Upper); (0x461, 0x461, SB_Lower);
  (0x462, 0x462, SB_Upper); (0x463, 0x463, SB_Lower); (0x464, 0x464, SB_Upper); (0x465, 0x465, SB_Lower);
  (0x466, 0x466, SB_Upper); (0x467, 0x467, SB_Lower); (0x468, 0x468, SB_Upper); (0x469, 0x469, SB_Lower);
  (0x46A, 0x46A, SB_Upper); (0x46B, 0x46B, SB_Lower); (0x46C, 0x46C, SB_Upper); (0x46D, 0x46D, SB_Lower);
  (0x46E, 0x46E, SB_Upper); (0x46F, 0x46F, SB_Lower); (0x470, 0x470, SB_Upper); (0x471, 0x471, SB_Lower);
  (0x472, 0x472, SB_Upper); (0x473, 0x473, SB_Lower); (0x474, 0x474, SB_Upper); (0x475, 0x475, SB_Lower);
  (0x476, 0x476, SB_Upper); (0x477, 0x477, SB_Lower); (0x478, 0x478, SB_Upper); (0x479, 0x479, SB_Lower);
  (0x47A, 0x47A, SB_Upper); (0x47B, 0x47B, SB_Lower); (0x47C, 0x47C, SB_Upper); (0x47D, 0x47D, SB_Lower);
  (0x47E, 0x47E, SB_Upper); (0x47F, 0x47F, SB_Lower); (0x480, 0x480, SB_Upper); (0x481, 0x481, SB_Lower);
  (0x483, 0x489, SB_Extend); (0x48A, 0x48A, SB_Upper); (0x48B, 0x48B, SB_Lower); (0x48C, 0x48C, SB_Upper);
  (0x48D, 0x48D, SB_Lower); (0x48E, 0x48E, SB_Upper); (0x48F, 0x48F, SB_Lower); (0x490, 0x490, SB_Upper);
  (0x491, 0x491, SB_Lower); (0x492, 0x492, SB_Upper); (0x493, 0x493, SB_Lower); (0x494, 0x494, SB_Upper);
  (0x495, 0x495, SB_Lower); (0x496, 0x496, SB_Upper); (0x497, 0x497, SB_Lower); (0x498, 0x498, SB_Upper);
  (0x499, 0x499, SB_Lower); (0x49A, 0x49A, SB_Upper); (0x49B, 0x49B, SB_Lower); (0x49C, 0x49C, SB_Upper);
  (0x49D, 0x49D, SB_Lower); (0x49E, 0x49E, SB_Upper); (0x49F, 0x49F, SB_Lower); (0x4A0, 0x4A0, SB_Upper);
  (0x4A1, 0x4A1, SB_Lower); (0x4A2, 0x4A2, SB_Upper); (0x4A3, 0x4A3, SB_Lower); (0x4A4, 0x4A4, SB_Upper);
  (0x4A5, 0x4A5, SB_Lower); (0x4A6, 0x4A6, SB_Upper); (0x4A7, 0x4A7, SB_Lower); (0x4A8, 0x4A8, SB_Upper);
  (0x4A9, 0x4A9, SB_Lower); (0x4AA, 0x4AA, SB_Upper); (0x4AB, 0x4AB, SB_Lower); (0x4AC, 0x4AC, SB_Upper);
  (0x4AD, 0x4AD, SB_Lower); (0x4AE, 0x4AE, SB_Upper); (0x4AF, 0x4AF, SB_Lower); (0x4B0, 0x4B0, SB_Upper);
  (0x4B1, 0x4B1, SB_Lower); (0x4B2, 0x4B2, SB_Upper); (0x4B3, 0x4B3, SB_Lower); (0x4B4, 0x4B4, SB_Upper);
  (0x4B5, 0x4B5, SB_Lower); (0x4B6, 0x4B6, SB_Upper); (0x4B7, 0x4B7, SB_Lower); (0x4B8, 0x4B8, SB_Upper);
  (0x4B9, 0x4B9, SB_Lower); (0x4BA, 0x4BA, SB_Upper); (0x4BB, 0x4BB, SB_Lower); (0x4BC, 0x4BC, SB_Upper);
  (0x4BD, 0x4BD, SB_Lower); (0x4BE, 0x4BE, SB_Upper); (0x4BF, 0x4BF, SB_Lower); (0x4C0, 0x4C1, SB_Upper);
  (0x4C2, 0x4C2, SB_Lower); (0x4C3, 0x4C3, SB_Upper); (0x4C4, 0x4C4, SB_Lower); (0x4C5, 0x4C5, SB_Upper);
  (0x4C6, 0x4C6, SB_Lower); (0x4C7, 0x4C7, SB_Upper); (0x4C8, 0x4C8, SB_Lower); (0x4C9, 0x4C9, SB_Upper);
  (0x4CA, 0x4CA, SB_Lower); (0x4CB, 0x4CB, SB_Upper); (0x4CC, 0x4CC, SB_Lower); (0x4CD, 0x4CD, SB_Upper);
  (0x4CE, 0x4CF, SB_Lower); (0x4D0, 0x4D0, SB_Upper); (0x4D1, 0x4D1, SB_Lower); (0x4D2, 0x4D2, SB_Upper);
  (0x4D3, 0x4D3, SB_Lower); (0x4D4, 0x4D4, SB_Upper); (0x4D5, 0x4D5, SB_Lower); (0x4D6, 0x4D6, SB_Upper);
  (0x4D7, 0x4D7, SB_Lower); (0x4D8, 0x4D8, SB_Upper); (0x4D9, 0x4D9, SB_Lower); (0x4DA, 0x4DA, SB_Upper);
  (0x4DB, 0x4DB, SB_Lower); (0x4DC, 0x4DC, SB_Upper); (0x4DD, 0x4DD, SB_Lower); (0x4DE, 0x4DE, SB_Upper);
  (0x4DF, 0x4DF, SB_Lower); (0x4E0, 0x4E0, SB_Upper); (0x4E1, 0x4E1, SB_Lower); (0x4E2, 0x4E2, SB_Upper);
  (0x4E3, 0x4E3, SB_Lower); (0x4E4, 0x4E4, SB_Upper); (0x4E5, 0x4E5, SB_Lower); (0x4E6, 0x4E6, SB_Upper);
  (0x4E7, 0x4E7, SB_Lower); (0x4E8, 0x4E8, SB_Upper); (0x4E9, 0x4E9, SB_Lower); (0x4EA, 0x4EA, SB_Upper);
  (0x4EB, 0x4EB, SB_Lower); (0x4EC, 0x4EC, SB_Upper); (0x4ED, 0x4ED, SB_Lower); (0x4EE, 0x4EE, SB_Upper);
  (0x4EF, 0x4EF, SB_Lower); (0x4F0, 0x4F0, SB_Upper); (0x4F1, 0x4F1, SB_Lower); (0x4F2, 0x4F2, SB_Upper);
  (0x4F3, 0x4F3, SB_Lower); (0x4F4, 0x4F4, SB_Upper); (0x4F5, 0x4F5, SB_Lower); (0x4F6, 0x4F6, SB_Upper);
  (0x4F7, 0x4F7, SB_Lower); (0x4F8, 0x4F8, SB_Upper); (0x4F9, 0x4F9, SB_Lower); (0x4FA, 0x4FA, SB_Upper);
  (0x4FB, 0x4FB, SB_Lower); (0x4FC, 0x4FC, SB_Upper); (0x4FD, 0x4FD, SB_Lower); (0x4FE, 0x4FE, SB_Upper);
  (0x4FF, 0x4FF, SB_Lower); (0x500, 0x500, SB_Upper); (0x501, 0x501, SB_Lower); (0x502, 0x502, SB_Upper);
  (0x503, 0x503, SB_Lower); (0x504, 0x504, SB_Upper); (0x505, 0x505, SB_Lower); (0x506, 0x506, SB_Upper);
  (0x507, 0x507, SB_Lower); (0x508, 0x508, SB_Upper); (0x509, 0x509, SB_Lower); (0x50A, 0x50A, SB_Upper);
  (0x50B, 0x50B, SB_Lower); (0x50C, 0x50C, SB_Upper); (0x50D, 0x50D, SB_Lower); (0x50E, 0x50E, SB_Upper);
  (0x50F, 0x50F, SB_Lower); (0x510, 0x510, SB_Upper); (0x511, 0x511, SB_Lower); (0x512, 0x512, SB_Upper);
  (0x513, 0x513, SB_Lower); (0x514, 0x514, SB_Upper); (0x515, 0x515, SB_Lower); (0x516, 0x516, SB_Upper);
  (0x517, 0x517, SB_Lower); (0x518, 0x518, SB_Upper); (0x519, 0x519, SB_Lower); (0x51A, 0x51A, SB_Upper);
  (0x51B, 0x51B, SB_Lower); (0x51C, 0x51C, SB_Upper); (0x51D, 0x51D, SB_Lower); (0x51E, 0x51E, SB_Upper);
  (0x51F, 0x51F, SB_Lower); (0x520, 0x520, SB_Upper); (0x521, 0x521, SB_Lower); (0x522, 0x522, SB_Upper);
  (0x523, 0x523, SB_Lower); (0x524, 0x524, SB_Upper); (0x525, 0x525, SB_Lower); (0x526, 0x526, SB_Upper);
  (0x527, 0x527, SB_Lower); (0x528, 0x528, SB_Upper); (0x529, 0x529, SB_Lower); (0x52A, 0x52A, SB_Upper);
  (0x52B, 0x52B, SB_Lower); (0x52C, 0x52C, SB_Upper); (0x52D, 0x52D, SB_Lower); (0x52E, 0x52E, SB_Upper);
  (0x52F, 0x52F, SB_Lower); (0x531, 0x556, SB_Upper); (0x559, 0x559, SB_OLetter); (0x55D, 0x55D, SB_SContinue);
  (0x560, 0x588, SB_Lower); (0x589, 0x589, SB_STerm); (0x591, 0x5BD, SB_Extend); (0x5BF, 0x5BF, SB_Extend);
  (0x5C1, 0x5C2, SB_Extend); (0x5C4, 0x5C5, SB_Extend); (0x5C7, 0x5C7, SB_Extend); (0x5D0, 0x5EA, SB_OLetter);
  (0x5EF, 0x5F3, SB_OLetter); (0x600, 0x605, SB_Numeric); (0x60C, 0x60D, SB_SContinue); (0x610, 0x61A, SB_Extend);
  (0x61C, 0x61C, SB_Format); (0x61D, 0x61F, SB_STerm); (0x620, 0x64A, SB_OLetter); (0x64B, 0x65F, SB_Extend);
  (0x660, 0x669, SB_Numeric); (0x66B, 0x66C, SB_Numeric); (0x66E, 0x66F, SB_OLetter); (0x670, 0x670, SB_Extend);
  (0x671, 0x6D3, SB_OLetter); (0x6D4, 0x6D4, SB_STerm); (0x6D5, 0x6D5, SB_OLetter); (0x6D6, 0x6DC, SB_Extend);
  (0x6DD, 0x6DD, SB_Numeric); (0x6DF, 0x6E4, SB_Extend); (0x6E5, 0x6E6, SB_OLetter); (0x6E7, 0x6E8, SB_Extend);
  (0x6EA, 0x6ED, SB_Extend); (0x6EE, 0x6EF, SB_OLetter); (0x6F0, 0x6F9, SB_Numeric); (0x6FA, 0x6FC, SB_OLetter);
  (0x6FF, 0x6FF, SB_OLetter); (0x700, 0x702, SB_STerm); (0x70F, 0x70F, SB_Format); (0x710, 0x710, SB_OLetter);
  (0x711, 0x711, SB_Extend); (0x712, 0x72F, SB_OLetter); (0x730, 0x74A, SB_Extend); (0x74D, 0x7A5, SB_OLetter);
  (0x7A6, 0x7B0, SB_Extend); (0x7B1, 0x7B1, SB_OLetter); (0x7C0, 0x7C9, SB_Numeric); (0x7CA, 0x7EA, SB_OLetter);
  (0x7EB, 0x7F3, SB_Extend); (0x7F4, 0x7F5, SB_OLetter); (0x7F8, 0x7F8, SB_SContinue); (0x7F9, 0x7F9, SB_STerm);
  (0x7FA, 0x7FA, SB_OLetter); (0x7FD, 0x7FD, SB_Extend); (0x800, 0x815, SB_OLetter); (0x816, 0x819, SB_Extend);
  (0x81A, 0x81A, SB_OLetter); (0x81B, 0x823, SB_Extend); (0x824, 0x824, SB_OLetter); (0x825, 0x827, SB_Extend);
  (0x828, 0x828, SB_OLetter); (0x829, 0x82D, SB_Extend); (0x837, 0x837, SB_STerm); (0x839, 0x839, SB_STerm);
  (0x83D, 0x83E, SB_STerm); (0x840, 0x858, SB_OLetter); (0x859, 0x85B, SB_Extend); (0x860, 0x86A, SB_OLetter);
  (0x870, 0x887, SB_OLetter); (0x889, 0x88F, SB_OLetter); (0x890, 0x891, SB_Numeric); (0x897, 0x89F, SB_Extend);
  (0x8A0, 0x8C9, SB_OLetter); (0x8CA, 0x8E1, SB_Extend); (0x8E2, 0x8E2, SB_Numeric); (0x8E3, 0x903, SB_Extend);
  (0x904, 0x939, SB_OLetter); (0x93A, 0x93C, SB_Extend); (0x93D, 0x93D, SB_OLetter); (0x93E, 0x94F, SB_Extend);
  (0x950, 0x950, SB_OLetter); (0x951, 0x957, SB_Extend); (0x958, 0x961, SB_OLetter); (0x962, 0x963, SB_Extend);
  (0x964, 0x965, SB_STerm); (0x966, 0x96F, SB_Numeric); (0x971, 0x980, SB_OLetter); (0x981, 0x983, SB_Extend);
  (0x985, 0x98C, SB_OLetter); (0x98F, 0x990, SB_OLetter); (0x993, 0x9A8, SB_OLetter); (0x9AA, 0x9B0, SB_OLetter);
  (0x9B2, 0x9B2, SB_OLetter); (0x9B6, 0x9B9, SB_OLetter); (0x9BC, 0x9BC, SB_Extend); (0x9BD, 0x9BD, SB_OLetter);
  (0x9BE, 0x9C4, SB_Extend); (0x9C7, 0x9C8, SB_Extend); (0x9CB, 0x9CD, SB_Extend); (0x9CE, 0x9CE, SB_OLetter);
  (0x9D7, 0x9D7, SB_Extend); (0x9DC, 0x9DD, SB_OLetter); (0x9DF, 0x9E1, SB_OLetter); (0x9E2, 0x9E3, SB_Extend);
  (0x9E6, 0x9EF, SB_Numeric); (0x9F0, 0x9F1, SB_OLetter); (0x9FC, 0x9FC, SB_OLetter); (0x9FE, 0x9FE, SB_Extend);
  (0xA01, 0xA03, SB_Extend); (0xA05, 0xA0A, SB_OLetter); (0xA0F, 0xA10, SB_OLetter); (0xA13, 0xA28, SB_OLetter);
  (0xA2A, 0xA30, SB_OLetter); (0xA32, 0xA33, SB_OLetter); (0xA35, 0xA36, SB_OLetter); (0xA38, 0xA39, SB_OLetter);
  (0xA3C, 0xA3C, SB_Extend); (0xA3E, 0xA42, SB_Extend); (0xA47, 0xA48, SB_Extend); (0xA4B, 0xA4D, SB_Extend);
  (0xA51, 0xA51, SB_Extend); (0xA59, 0xA5C, SB_OLetter); (0xA5E, 0xA5E, SB_OLetter); (0xA66, 0xA6F, SB_Numeric);
  (0xA70, 0xA71, SB_Extend); (0xA72, 0xA74, SB_OLetter); (0xA75, 0xA75, SB_Extend); (0xA81, 0xA83, SB_Extend);
  (0xA85, 0xA8D, SB_OLetter); (0xA8F, 0xA91, SB_OLetter); (0xA93, 0xAA8, SB_OLetter); (0xAAA, 0xAB0, SB_OLetter);
  (0xAB2, 0xAB3, SB_OLetter); (0xAB5, 0xAB9, SB_OLetter); (0xABC, 0xABC, SB_Extend); (0xABD, 0xABD, SB_OLetter);
  (0xABE, 0xAC5, SB_Extend); (0xAC7, 0xAC9, SB_Extend); (0xACB, 0xACD, SB_Extend); (0xAD0, 0xAD0, SB_OLetter);
  (0xAE0, 0xAE1, SB_OLetter); (0xAE2, 0xAE3, SB_Extend); (0xAE6, 0xAEF, SB_Numeric); (0xAF9, 0xAF9, SB_OLetter);
  (0xAFA, 0xAFF, SB_Extend); (0xB01, 0xB03, SB_Extend); (0xB05, 0xB0C, SB_OLetter); (0xB0F, 0xB10, SB_OLetter);
  (0xB13, 0xB28, SB_OLetter); (0xB2A, 0xB30, SB_OLetter); (0xB32, 0xB33, SB_OLetter); (0xB35, 0xB39, SB_OLetter);
  (0xB3C, 0xB3C, SB_Extend); (0xB3D, 0xB3D, SB_OLetter); (0xB3E, 0xB44, SB_Extend); (0xB47, 0xB48, SB_Extend);
  (0xB4B, 0xB4D, SB_Extend); (0xB55, 0xB57, SB_Extend); (0xB5C, 0xB5D, SB_OLetter); (0xB5F, 0xB61, SB_OLetter);
  (0xB62, 0xB63, SB_Extend); (0xB66, 0xB6F, SB_Numeric); (0xB71, 0xB71, SB_OLetter); (0xB82, 0xB82, SB_Extend);
  (0xB83, 0xB83, SB_OLetter); (0xB85, 0xB8A, SB_OLetter); (0xB8E, 0xB90, SB_OLetter); (0xB92, 0xB95, SB_OLetter);
  (0xB99, 0xB9A, SB_OLetter); (0xB9C, 0xB9C, SB_OLetter); (0xB9E, 0xB9F, SB_OLetter); (0xBA3, 0xBA4, SB_OLetter);
  (0xBA8, 0xBAA, SB_OLetter); (0xBAE, 0xBB9, SB_OLetter); (0xBBE, 0xBC2, SB_Extend); (0xBC6, 0xBC8, SB_Extend);
  (0xBCA, 0xBCD, SB_Extend); (0xBD0, 0xBD0, SB_OLetter); (0xBD7, 0xBD7, SB_Extend); (0xBE6, 0xBEF, SB_Numeric);
  (0xC00, 0xC04, SB_Extend); (0xC05, 0xC0C, SB_OLetter); (0xC0E, 0xC10, SB_OLetter); (0xC12, 0xC28, SB_OLetter);
  (0xC2A, 0xC39, SB_OLetter); (0xC3C, 0xC3C, SB_Extend); (0xC3D, 0xC3D, SB_OLetter); (0xC3E, 0xC44, SB_Extend);
  (0xC46, 0xC48, SB_Extend); (0xC4A, 0xC4D, SB_Extend); (0xC55, 0xC56, SB_Extend); (0xC58, 0xC5A, SB_OLetter);
  (0xC5C, 0xC5D, SB_OLetter); (0xC60, 0xC61, SB_OLetter); (0xC62, 0xC63, SB_Extend); (0xC66, 0xC6F, SB_Numeric);
  (0xC80, 0xC80, SB_OLetter); (0xC81, 0xC83, SB_Extend); (0xC85, 0xC8C, SB_OLetter); (0xC8E, 0xC90, SB_OLetter);
  (0xC92, 0xCA8, SB_OLetter); (0xCAA, 0xCB3, SB_OLetter); (0xCB5, 0xCB9, SB_OLetter); (0xCBC, 0xCBC, SB_Extend);
  (0xCBD, 0xCBD, SB_OLetter); (0xCBE, 0xCC4, SB_Extend); (0xCC6, 0xCC8, SB_Extend); (0xCCA, 0xCCD, SB_Extend);
  (0xCD5, 0xCD6, SB_Extend); (0xCDC, 0xCDE, SB_OLetter); (0xCE0, 0xCE1, SB_OLetter); (0xCE2, 0xCE3, SB_Extend);
  (0xCE6, 0xCEF, SB_Numeric); (0xCF1, 0xCF2, SB_OLetter); (0xCF3, 0xCF3, SB_Extend); (0xD00, 0xD03, SB_Extend);
  (0xD04, 0xD0C, SB_OLetter); (0xD0E, 0xD10, SB_OLetter); (0xD12, 0xD3A, SB_OLetter); (0xD3B, 0xD3C, SB_Extend);
  (0xD3D, 0xD3D, SB_OLetter); (0xD3E, 0xD44, SB_Extend); (0xD46, 0xD48, SB_Extend); (0xD4A, 0xD4D, SB_Extend);
  (0xD4E, 0xD4E, SB_OLetter); (0xD54, 0xD56, SB_OLetter); (0xD57, 0xD57, SB_Extend); (0xD5F, 0xD61, SB_OLetter);
  (0xD62, 0xD63, SB_Extend); (0xD66, 0xD6F, SB_Numeric); (0xD7A, 0xD7F, SB_OLetter); (0xD81, 0xD83, SB_Extend);
  (0xD85, 0xD96, SB_OLetter); (0xD9A, 0xDB1, SB_OLetter); (0xDB3, 0xDBB, SB_OLetter); (0xDBD, 0xDBD, SB_OLetter);
  (0xDC0, 0xDC6, SB_OLetter); (0xDCA, 0xDCA, SB_Extend); (0xDCF, 0xDD4, SB_Extend); (0xDD6, 0xDD6, SB_Extend);
  (0xDD8, 0xDDF, SB_Extend); (0xDE6, 0xDEF, SB_Numeric); (0xDF2, 0xDF3, SB_Extend); (0xE01, 0xE30, SB_OLetter);
  (0xE31, 0xE31, SB_Extend); (0xE32, 0xE33, SB_OLetter); (0xE34, 0xE3A, SB_Extend); (0xE40, 0xE46, SB_OLetter);
  (0xE47, 0xE4E, SB_Extend); (0xE50, 0xE59, SB_Numeric); (0xE81, 0xE82, SB_OLetter); (0xE84, 0xE84, SB_OLetter);
  (0xE86, 0xE8A, SB_OLetter); (0xE8C, 0xEA3, SB_OLetter); (0xEA5, 0xEA5, SB_OLetter); (0xEA7, 0xEB0, SB_OLetter);
  (0xEB1, 0xEB1, SB_Extend); (0xEB2, 0xEB3, SB_OLetter); (0xEB4, 0xEBC, SB_Extend); (0xEBD, 0xEBD, SB_OLetter);
  (0xEC0, 0xEC4, SB_OLetter); (0xEC6, 0xEC6, SB_OLetter); (0xEC8, 0xECE, SB_Extend); (0xED0, 0xED9, SB_Numeric);
  (0xEDC, 0xEDF, SB_OLetter); (0xF00, 0xF00, SB_OLetter); (0xF18, 0xF19, SB_Extend); (0xF20, 0xF29, SB_Numeric);
  (0xF35, 0xF35, SB_Extend); (0xF37, 0xF37, SB_Extend); (0xF39, 0xF39, SB_Extend); (0xF3A, 0xF3D, SB_Close);
  (0xF3E, 0xF3F, SB_Extend); (0xF40, 0xF47, SB_OLetter); (0xF49, 0xF6C, SB_OLetter); (0xF71, 0xF84, SB_Extend);
  (0xF86, 0xF87, SB_Extend); (0xF88, 0xF8C, SB_OLetter); (0xF8D, 0xF97, SB_Extend); (0xF99, 0xFBC, SB_Extend);
  (0xFC6, 0xFC6, SB_Extend); (0x1000, 0x102A, SB_OLetter); (0x102B, 0x103E, SB_Extend); (0x103F, 0x103F, SB_OLetter);
  (0x1040, 0x1049, SB_Numeric); (0x104A, 0x104B, SB_STerm); (0x1050, 0x1055, SB_OLetter); (0x1056, 0x1059, SB_Extend);
  (0x105A, 0x105D, SB_OLetter); (0x105E, 0x1060, SB_Extend); (0x1061, 0x1061, SB_OLetter); (0x1062, 0x1064, SB_Extend);
  (0x1065, 0x1066, SB_OLetter); (0x1067, 0x106D, SB_Extend); (0x106E, 0x1070, SB_OLetter); (0x1071, 0x1074, SB_Extend);
  (0x1075, 0x1081, SB_OLetter); (0x1082, 0x108D, SB_Extend); (0x108E, 0x108E, SB_OLetter); (0x108F, 0x108F, SB_Extend);
  (0x1090, 0x1099, SB_Numeric); (0x109A, 0x109D, SB_Extend); (0x10A0, 0x10C5, SB_Upper); (0x10C7, 0x10C7, SB_Upper);
  (0x10CD, 0x10CD, SB_Upper); (0x10D0, 0x10FA, SB_OLetter); (0x10FC, 0x10FC, SB_Lower); (0x10FD, 0x1248, SB_OLetter);
  (0x124A, 0x124D, SB_OLetter); (0x1250, 0x1256, SB_OLetter); (0x1258, 0x1258, SB_OLetter); (0x125A, 0x125D, SB_OLetter);
  (0x1260, 0x1288, SB_OLetter); (0x128A, 0x128D, SB_OLetter); (0x1290, 0x12B0, SB_OLetter); (0x12B2, 0x12B5, SB_OLetter);
  (0x12B8, 0x12BE, SB_OLetter); (0x12C0, 0x12C0, SB_OLetter); (0x12C2, 0x12C5, SB_OLetter); (0x12C8, 0x12D6, SB_OLetter);
  (0x12D8, 0x1310, SB_OLetter); (0x1312, 0x1315, SB_OLetter); (0x1318, 0x135A, SB_OLetter); (0x135D, 0x135F, SB_Extend);
  (0x1362, 0x1362, SB_STerm); (0x1367, 0x1368, SB_STerm); (0x1380, 0x138F, SB_OLetter); (0x13A0, 0x13F5, SB_Upper);
  (0x13F8, 0x13FD, SB_Lower); (0x1401, 0x166C, SB_OLetter); (0x166E, 0x166E, SB_STerm); (0x166F, 0x167F, SB_OLetter);
  (0x1680, 0x1680, SB_Sp); (0x1681, 0x169A, SB_OLetter); (0x169B, 0x169C, SB_Close); (0x16A0, 0x16EA, SB_OLetter);
  (0x16EE, 0x16F8, SB_OLetter); (0x1700, 0x1711, SB_OLetter); (0x1712, 0x1715, SB_Extend); (0x171F, 0x1731, SB_OLetter);
  (0x1732, 0x1734, SB_Extend); (0x1735, 0x1736, SB_STerm); (0x1740, 0x1751, SB_OLetter); (0x1752, 0x1753, SB_Extend);
  (0x1760, 0x176C, SB_OLetter); (0x176E, 0x1770, SB_OLetter); (0x1772, 0x1773, SB_Extend); (0x1780, 0x17B3, SB_OLetter);
  (0x17B4, 0x17D3, SB_Extend); (0x17D4, 0x17D5, SB_STerm); (0x17D7, 0x17D7, SB_OLetter); (0x17DC, 0x17DC, SB_OLetter);
  (0x17DD, 0x17DD, SB_Extend); (0x17E0, 0x17E9, SB_Numeric); (0x1802, 0x1802, SB_SContinue); (0x1803, 0x1803, SB_STerm);
  (0x1808, 0x1808, SB_SContinue); (0x1809, 0x1809, SB_STerm); (0x180B, 0x180D, SB_Extend); (0x180E, 0x180E, SB_Format);
  (0x180F, 0x180F, SB_Extend); (0x1810, 0x1819, SB_Numeric); (0x1820, 0x1878, SB_OLetter); (0x1880, 0x1884, SB_OLetter);
  (0x1885, 0x1886, SB_Extend); (0x1887, 0x18A8, SB_OLetter); (0x18A9, 0x18A9, SB_Extend); (0x18AA, 0x18AA, SB_OLetter);
  (0x18B0, 0x18F5, SB_OLetter); (0x1900, 0x191E, SB_OLetter); (0x1920, 0x192B, SB_Extend); (0x1930, 0x193B, SB_Extend);
  (0x1944, 0x1945, SB_STerm); (0x1946, 0x194F, SB_Numeric); (0x1950, 0x196D, SB_OLetter); (0x1970, 0x1974, SB_OLetter);
  (0x1980, 0x19AB, SB_OLetter); (0x19B0, 0x19C9, SB_OLetter); (0x19D0, 0x19DA, SB_Numeric); (0x1A00, 0x1A16, SB_OLetter);
  (0x1A17, 0x1A1B, SB_Extend); (0x1A20, 0x1A54, SB_OLetter); (0x1A55, 0x1A5E, SB_Extend); (0x1A60, 0x1A7C, SB_Extend);
  (0x1A7F, 0x1A7F, SB_Extend); (0x1A80, 0x1A89, SB_Numeric); (0x1A90, 0x1A99, SB_Numeric); (0x1AA7, 0x1AA7, SB_OLetter);
  (0x1AA8, 0x1AAB, SB_STerm); (0x1AB0, 0x1ADD, SB_Extend); (0x1AE0, 0x1AEB, SB_Extend); (0x1B00, 0x1B04, SB_Extend);
  (0x1B05, 0x1B33, SB_OLetter); (0x1B34, 0x1B44, SB_Extend); (0x1B45, 0x1B4C, SB_OLetter); (0x1B4E, 0x1B4F, SB_STerm);
  (0x1B50, 0x1B59, SB_Numeric); (0x1B5A, 0x1B5B, SB_STerm); (0x1B5E, 0x1B5F, SB_STerm); (0x1B6B, 0x1B73, SB_Extend);
  (0x1B7D, 0x1B7F, SB_STerm); (0x1B80, 0x1B82, SB_Extend); (0x1B83, 0x1BA0, SB_OLetter); (0x1BA1, 0x1BAD, SB_Extend);
  (0x1BAE, 0x1BAF, SB_OLetter); (0x1BB0, 0x1BB9, SB_Numeric); (0x1BBA, 0x1BE5, SB_OLetter); (0x1BE6, 0x1BF3, SB_Extend);
  (0x1C00, 0x1C23, SB_OLetter); (0x1C24, 0x1C37, SB_Extend); (0x1C3B, 0x1C3C, SB_STerm); (0x1C40, 0x1C49, SB_Numeric);
  (0x1C4D, 0x1C4F, SB_OLetter); (0x1C50, 0x1C59, SB_Numeric); (0x1C5A, 0x1C7D, SB_OLetter); (0x1C7E, 0x1C7F, SB_STerm);
  (0x1C80, 0x1C88, SB_Lower); (0x1C89, 0x1C89, SB_Upper); (0x1C8A, 0x1C8A, SB_Lower); (0x1C90, 0x1CBA, SB_OLetter);
  (0x1CBD, 0x1CBF, SB_OLetter); (0x1CD0, 0x1CD2, SB_Extend); (0x1CD4, 0x1CE8, SB_Extend); (0x1CE9, 0x1CEC, SB_OLetter);
  (0x1CED, 0x1CED, SB_Extend); (0x1CEE, 0x1CF3, SB_OLetter); (0x1CF4, 0x1CF4, SB_Extend); (0x1CF5, 0x1CF6, SB_OLetter);
  (0x1CF7, 0x1CF9, SB_Extend); (0x1CFA, 0x1CFA, SB_OLetter); (0x1D00, 0x1DBF, SB_Lower); (0x1DC0, 0x1DFF, SB_Extend);
  (0x1E00, 0x1E00, SB_Upper); (0x1E01, 0x1E01, SB_Lower); (0x1E02, 0x1E02, SB_Upper); (0x1E03, 0x1E03, SB_Lower);
  (0x1E04, 0x1E04, SB_Upper); (0x1E05, 0x1E05, SB_Lower); (0x1E06, 0x1E06, SB_Upper); (0x1E07, 0x1E07, SB_Lower);
  (0x1E08, 0x1E08, SB_Upper); (0x1E09, 0x1E09, SB_Lower); (0x1E0A, 0x1E0A, SB_Upper); (0x1E0B, 0x1E0B, SB_Lower);
  (0x1E0C, 0x1E0C, SB_Upper); (0x1E0D, 0x1E0D, SB_Lower); (0x1E0E, 0x1E0E, SB_Upper); (0x1E0F, 0x1E0F, SB_Lower);
  (0x1E10, 0x1E10, SB_Upper); (0x1E11, 0x1E11, SB_Lower); (0x1E12, 0x1E12, SB_Upper); (0x1E13, 0x1E13, SB_Lower);
  (0x1E14, 0x1E14, SB_Upper); (0x1E15, 0x1E15, SB_Lower); (0x1E16, 0x1E16, SB_Upper); (0x1E17, 0x1E17, SB_Lower);
  (0x1E18, 0x1E18, SB_Upper); (0x1E19, 0x1E19, SB_Lower); (0x1E1A, 0x1E1A, SB_Upper); (0x1E1B, 0x1E1B, SB_Lower);
  (0x1E1C, 0x1E1C, SB_Upper); (0x1E1D, 0x1E1D, SB_Lower); (0x1E1E, 0x1E1E, SB_Upper); (0x1E1F, 0x1E1F, SB_Lower);
  (0x1E20, 0x1E20, SB_Upper); (0x1E21, 0x1E21, SB_Lower); (0x1E22, 0x1E22, SB_Upper); (0x1E23, 0x1E23, SB_Lower);
  (0x1E24, 0x1E24, SB_Upper); (0x1E25, 0x1E25, SB_Lower); (0x1E26, 0x1E26, SB_Upper); (0x1E27, 0x1E27, SB_Lower);
  (0x1E28, 0x1E28, SB_Upper); (0x1E29, 0x1E29, SB_Lower); (0x1E2A, 0x1E2A, SB_Upper); (0x1E2B, 0x1E2B, SB_Lower);
  (0x1E2C, 0x1E2C, SB_Upper); (0x1E2D, 0x1E2D, SB_Lower); (0x1E2E, 0x1E2E, SB_Upper); (0x1E2F, 0x1E2F, SB_Lower);
  (0x1E30, 0x1E30, SB_Upper); (0x1E31, 0x1E31, SB_Lower); (0x1E32, 0x1E32, SB_Upper); (0x1E33, 0x1E33, SB_Lower);
  (0x1E34, 0x1E34, SB_Upper); (0x1E35, 0x1E35, SB_Lower); (0x1E36, 0x1E36, SB_Upper); (0x1E37, 0x1E37, SB_Lower);
  (0x1E38, 0x1E38, SB_Upper); (0x1E39, 0x1E39, SB_Lower); (0x1E3A, 0x1E3A, SB_Upper); (0x1E3B, 0x1E3B, SB_Lower);
  (0x1E3C, 0x1E3C, SB_Upper); (0x1E3D, 0x1E3D, SB_Lower); (0x1E3E, 0x1E3E, SB_Upper); (0x1E3F, 0x1E3F, SB_Lower);
  (0x1E40, 0x1E40, SB_Upper); (0x1E41, 0x1E41, SB_Lower); (0x1E42, 0x1E42, SB_Upper); (0x1E43, 0x1E43, SB_Lower);
  (0x1E44, 0x1E44, SB_Upper); (0x1E45, 0x1E45, SB_Lower); (0x1E46, 0x1E46, SB_Upper); (0x1E47, 0x1E47, SB_Lower);
  (0x1E48, 0x1E48, SB_Upper); (0x1E49, 0x1E49, SB_Lower); (0x1E4A, 0x1E4A, SB_Upper); (0x1E4B, 0x1E4B, SB_Lower);
  (0x1E4C, 0x1E4C, SB_Upper); (0x1E4D, 0x1E4D, SB_Lower); (0x1E4E, 0x1E4E, SB_Upper); (0x1E4F, 0x1E4F, SB_Lower);
  (0x1E50, 0x1E50, SB_Upper); (0x1E51, 0x1E51, SB_Lower); (0x1E52, 0x1E52, SB_Upper); (0x1E53, 0x1E53, SB_Lower);
  (0x1E54, 0x1E54, SB_Upper); (0x1E55, 0x1E55, SB_Lower); (0x1E56, 0x1E56, SB_Upper); (0x1E57, 0x1E57, SB_Lower);
  (0x1E58, 0x1E58, SB_Upper); (0x1E59, 0x1E59, SB_Lower); (0x1E5A, 0x1E5A, SB_Upper); (0x1E5B, 0x1E5B, SB_Lower);
  (0x1E5C, 0x1E5C, SB_Upper); (0x1E5D, 0x1E5D, SB_Lower); (0x1E5E, 0x1E5E, SB_Upper); (0x1E5F, 0x1E5F, SB_Lower);
  (0x1E60, 0x1E60, SB_Upper); (0x1E61, 0x1E61, SB_Lower); (0x1E62, 0x1E62, SB_Upper); (0x1E63, 0x1E63, SB_Lower);
  (0x1E64, 0x1E64, SB_Upper); (0x1E65, 0x1E65, SB_Lower); (0x1E66, 0x1E66, SB_Upper); (0x1E67, 0x1E67, SB_Lower);
  (0x1E68, 0x1E68, SB_Upper); (0x1E69, 0x1E69, SB_Lower); (0x1E6A, 0x1E6A, SB_Upper); (0x1E6B, 0x1E6B, SB_Lower);
  (0x1E6C, 0x1E6C, SB_Upper); (0x1E6D, 0x1E6D, SB_Lower); (0x1E6E, 0x1E6E, SB_Upper); (0x1E6F, 0x1E6F, SB_Lower);
  (0x1E70, 0x1E70, SB_Upper); (0x1E71, 0x1E71, SB_Lower); (0x1E72, 0x1E72, SB_Upper); (0x1E73, 0x1E73, SB_Lower);
  (0x1E74, 0x1E74, SB_Upper); (0x1E75, 0x1E75, SB_Lower); (0x1E76, 0x1E76, SB_Upper); (0x1E77, 0x1E77, SB_Lower);
  (0x1E78, 0x1E78, SB_Upper); (0x1E79, 0x1E79, SB_Lower); (0x1E7A, 0x1E7A, SB_Upper); (0x1E7B, 0x1E7B, SB_Lower);
  (0x1E7C, 0x1E7C, SB_Upper); (0x1E7D, 0x1E7D, SB_Lower); (0x1E7E, 0x1E7E, SB_Upper); (0x1E7F, 0x1E7F, SB_Lower);
  (0x1E80, 0x1E80, SB_Upper); (0x1E81, 0x1E81, SB_Lower); (0x1E82, 0x1E82, SB_Upper); (0x1E83, 0x1E83, SB_Lower);
  (0x1E84, 0x1E84, SB_Upper); (0x1E85, 0x1E85, SB_Lower); (0x1E86, 0x1E86, SB_Upper); (0x1E87, 0x1E87, SB_Lower);
  (0x1E88, 0x1E88, SB_Upper); (0x1E89, 0x1E89, SB_Lower); (0x1E8A, 0x1E8A, SB_Upper); (0x1E8B, 0x1E8B, SB_Lower);
  (0x1E8C, 0x1E8C, SB_Upper); (0x1E8D, 0x1E8D, SB_Lower); (0x1E8E, 0x1E8E, SB_Upper); (0x1E8F, 0x1E8F, SB_Lower);
  (0x1E90, 0x1E90, SB_Upper); (0x1E91, 0x1E91, SB_Lower); (0x1E92, 0x1E92, SB_Upper); (0x1E93, 0x1E93, SB_Lower);
  (0x1E94, 0x1E94, SB_Upper); (0x1E95, 0x1E9D, SB_Lower); (0x1E9E, 0x1E9E, SB_Upper); (0x1E9F, 0x1E9F, SB_Lower);
  (0x1EA0, 0x1EA0, SB_Upper); (0x1EA1, 0x1EA1, SB_Lower); (0x1EA2, 0x1EA2, SB_Upper); (0x1EA3, 0x1EA3, SB_Lower);
  (0x1EA4, 0x1EA4, SB_Upper); (0x1EA5, 0x1EA5, SB_Lower); (0x1EA6, 0x1EA6, SB_Upper); (0x1EA7, 0x1EA7, SB_Lower);
  (0x1EA8, 0x1EA8, SB_Upper); (0x1EA9, 0x1EA9, SB_Lower); (0x1EAA, 0x1EAA, SB_Upper); (0x1EAB, 0x1EAB, SB_Lower);
  (0x1EAC, 0x1EAC, SB_Upper); (0x1EAD, 0x1EAD, SB_Lower); (0x1EAE, 0x1EAE, SB_Upper); (0x1EAF, 0x1EAF, SB_Lower);
  (0x1EB0, 0x1EB0, SB_Upper); (0x1EB1, 0x1EB1, SB_Lower); (0x1EB2, 0x1EB2, SB_Upper); (0x1EB3, 0x1EB3, SB_Lower);
  (0x1EB4, 0x1EB4, SB_Upper); (0x1EB5, 0x1EB5, SB_Lower); (0x1EB6, 0x1EB6, SB_Upper); (0x1EB7, 0x1EB7, SB_Lower);
  (0x1EB8, 0x1EB8, SB_Upper); (0x1EB9, 0x1EB9, SB_Lower); (0x1EBA, 0x1EBA, SB_Upper); (0x1EBB, 0x1EBB, SB_Lower);
  (0x1EBC, 0x1EBC, SB_Upper); (0x1EBD, 0x1EBD, SB_Lower); (0x1EBE, 0x1EBE, SB_Upper); (0x1EBF, 0x1EBF, SB_Lower);
  (0x1EC0, 0x1EC0, SB_Upper); (0x1EC1, 0x1EC1, SB_Lower); (0x1EC2, 0x1EC2, SB_Upper); (0x1EC3, 0x1EC3, SB_Lower);
  (0x1EC4, 0x1EC4, SB_Upper); (0x1EC5, 0x1EC5, SB_Lower); (0x1EC6, 0x1EC6, SB_Upper); (0x1EC7, 0x1EC7, SB_Lower);
  (0x1EC8, 0x1EC8, SB_Upper); (0x1EC9, 0x1EC9, SB_Lower); (0x1ECA, 0x1ECA, SB_Upper); (0x1ECB, 0x1ECB, SB_Lower);
  (0x1ECC, 0x1ECC, SB_Upper); (0x1ECD, 0x1ECD, SB_Lower); (0x1ECE, 0x1ECE, SB_Upper); (0x1ECF, 0x1ECF, SB_Lower);
  (0x1ED0, 0x1ED0, SB_Upper); (0x1ED1, 0x1ED1, SB_Lower); (0x1ED2, 0x1ED2, SB_Upper); (0x1ED3, 0x1ED3, SB_Lower);
  (0x1ED4, 0x1ED4, SB_Upper); (0x1ED5, 0x1ED5, SB_Lower); (0x1ED6, 0x1ED6, SB_Upper); (0x1ED7, 0x1ED7, SB_Lower);
  (0x1ED8, 0x1ED8, SB_Upper); (0x1ED9, 0x1ED9, SB_Lower); (0x1EDA, 0x1EDA, SB_Upper); (0x1EDB, 0x1EDB, SB_Lower);
  (0x1EDC, 0x1EDC, SB_Upper); (0x1EDD, 0x1EDD, SB_Lower); (0x1EDE, 0x1EDE, SB_Upper); (0x1EDF, 0x1EDF, SB_Lower);
  (0x1EE0, 0x1EE0, SB_Upper); (0x1EE1, 0x1EE1, SB_Lower); (0x1EE2, 0x1EE2, SB_Upper); (0x1EE3, 0x1EE3, SB_Lower);
  (0x1EE4, 0x1EE4, SB_Upper); (0x1EE5, 0x1EE5, SB_Lower); (0x1EE6, 0x1EE6, SB_Upper); (0x1EE7, 0x1EE7, SB_Lower);
  (0x1EE8, 0x1EE8, SB_Upper); (0x1EE9, 0x1EE9, SB_Lower); (0x1EEA, 0x1EEA, SB_Upper); (0x1EEB, 0x1EEB, SB_Lower);
  (0x1EEC, 0x1EEC, SB_Upper); (0x1EED, 0x1EED, SB_Lower); (0x1EEE, 0x1EEE, SB_Upper); (0x1EEF, 0x1EEF, SB_Lower);
  (0x1EF0, 0x1EF0, SB_Upper); (0x1EF1, 0x1EF1, SB_Lower); (0x1EF2, 0x1EF2, SB_Upper); (0x1EF3, 0x1EF3, SB_Lower);
  (0x1EF4, 0x1EF4, SB_Upper); (0x1EF5, 0x1EF5, SB_Lower); (0x1EF6, 0x1EF6, SB_Upper); (0x1EF7, 0x1EF7, SB_Lower);
  (0x1EF8, 0x1EF8, SB_Upper); (0x1EF9, 0x1EF9, SB_Lower); (0x1EFA, 0x1EFA, SB_Upper); (0x1EFB, 0x1EFB, SB_Lower);
  (0x1EFC, 0x1EFC, SB_Upper); (0x1EFD, 0x1EFD, SB_Lower); (0x1EFE, 0x1EFE, SB_Upper); (0x1EFF, 0x1F07, SB_Lower);
  (0x1F08, 0x1F0F, SB_Upper); (0x1F10, 0x1F15, SB_Lower); (0x1F18, 0x1F1D, SB_Upper); (0x1F20, 0x1F27, SB_Lower);
  (0x1F28, 0x1F2F, SB_Upper); (0x1F30, 0x1F37, SB_Lower); (0x1F38, 0x1F3F, SB_Upper); (0x1F40, 0x1F45, SB_Lower);
  (0x1F48, 0x1F4D, SB_Upper); (0x1F50, 0x1F57, SB_Lower); (0x1F59, 0x1F59, SB_Upper); (0x1F5B, 0x1F5B, SB_Upper);
  (0x1F5D, 0x1F5D, SB_Upper); (0x1F5F, 0x1F5F, SB_Upper); (0x1F60, 0x1F67, SB_Lower); (0x1F68, 0x1F6F, SB_Upper);
  (0x1F70, 0x1F7D, SB_Lower); (0x1F80, 0x1F87, SB_Lower); (0x1F88, 0x1F8F, SB_Upper); (0x1F90, 0x1F97, SB_Lower);
  (0x1F98, 0x1F9F, SB_Upper); (0x1FA0, 0x1FA7, SB_Lower); (0x1FA8, 0x1FAF, SB_Upper); (0x1FB0, 0x1FB4, SB_Lower);
  (0x1FB6, 0x1FB7, SB_Lower); (0x1FB8, 0x1FBC, SB_Upper); (0x1FBE, 0x1FBE, SB_Lower); (0x1FC2, 0x1FC4, SB_Lower);
  (0x1FC6, 0x1FC7, SB_Lower); (0x1FC8, 0x1FCC, SB_Upper); (0x1FD0, 0x1FD3, SB_Lower); (0x1FD6, 0x1FD7, SB_Lower);
  (0x1FD8, 0x1FDB, SB_Upper); (0x1FE0, 0x1FE7, SB_Lower); (0x1FE8, 0x1FEC, SB_Upper); (0x1FF2, 0x1FF4, SB_Lower);
  (0x1FF6, 0x1FF7, SB_Lower); (0x1FF8, 0x1FFC, SB_Upper); (0x2000, 0x200A, SB_Sp); (0x200B, 0x200B, SB_Format);
  (0x200C, 0x200D, SB_Extend); (0x200E, 0x200F, SB_Format); (0x2013, 0x2014, SB_SContinue); (0x2018, 0x201F, SB_Close);
  (0x2024, 0x2024, SB_ATerm); (0x2028, 0x2029, SB_Sep); (0x202A, 0x202E, SB_Format); (0x202F, 0x202F, SB_Sp);
  (0x2039, 0x203A, SB_Close); (0x203C, 0x203D, SB_STerm); (0x2045, 0x2046, SB_Close); (0x2047, 0x2049, SB_STerm);
  (0x205F, 0x205F, SB_Sp); (0x2060, 0x2064, SB_Format); (0x2066, 0x206F, SB_Format); (0x2071, 0x2071, SB_Lower);
  (0x207D, 0x207E, SB_Close); (0x207F, 0x207F, SB_Lower); (0x208D, 0x208E, SB_Close); (0x2090, 0x209C, SB_Lower);
  (0x20D0, 0x20F0, SB_Extend); (0x2102, 0x2102, SB_Upper); (0x2107, 0x2107, SB_Upper); (0x210A, 0x210A, SB_Lower);
  (0x210B, 0x210D, SB_Upper); (0x210E, 0x210F, SB_Lower); (0x2110, 0x2112, SB_Upper); (0x2113, 0x2113, SB_Lower);
  (0x2115, 0x2115, SB_Upper); (0x2119, 0x211D, SB_Upper); (0x2124, 0x2124, SB_Upper); (0x2126, 0x2126, SB_Upper);
  (0x2128, 0x2128, SB_Upper); (0x212A, 0x212D, SB_Upper); (0x212F, 0x212F, SB_Lower); (0x2130, 0x2133, SB_Upper);
  (0x2134, 0x2134, SB_Lower); (0x2135, 0x2138, SB_OLetter); (0x2139, 0x2139, SB_Lower); (0x213C, 0x213D, SB_Lower);
  (0x213E, 0x213F, SB_Upper); (0x2145, 0x2145, SB_Upper); (0x2146, 0x2149, SB_Lower); (0x214E, 0x214E, SB_Lower);
  (0x2160, 0x216F, SB_Upper); (0x2170, 0x217F, SB_Lower); (0x2180, 0x2182, SB_OLetter); (0x2183, 0x2183, SB_Upper);
  (0x2184, 0x2184, SB_Lower); (0x2185, 0x2188, SB_OLetter); (0x2308, 0x230B, SB_Close); (0x2329, 0x232A, SB_Close);
  (0x24B6, 0x24CF, SB_Upper); (0x24D0, 0x24E9, SB_Lower); (0x275B, 0x2760, SB_Close); (0x2768, 0x2775, SB_Close);
  (0x27C5, 0x27C6, SB_Close); (0x27E6, 0x27EF, SB_Close); (0x2983, 0x2998, SB_Close); (0x29D8, 0x29DB, SB_Close);
  (0x29FC, 0x29FD, SB_Close); (0x2C00, 0x2C2F, SB_Upper); (0x2C30, 0x2C5F, SB_Lower); (0x2C60, 0x2C60, SB_Upper);
  (0x2C61, 0x2C61, SB_Lower); (0x2C62, 0x2C64, SB_Upper); (0x2C65, 0x2C66, SB_Lower); (0x2C67, 0x2C67, SB_Upper);
  (0x2C68, 0x2C68, SB_Lower); (0x2C69, 0x2C69, SB_Upper); (0x2C6A, 0x2C6A, SB_Lower); (0x2C6B, 0x2C6B, SB_Upper);
  (0x2C6C, 0x2C6C, SB_Lower); (0x2C6D, 0x2C70, SB_Upper); (0x2C71, 0x2C71, SB_Lower); (0x2C72, 0x2C72, SB_Upper);
  (0x2C73, 0x2C74, SB_Lower); (0x2C75, 0x2C75, SB_Upper); (0x2C76, 0x2C7D, SB_Lower); (0x2C7E, 0x2C80, SB_Upper);
  (0x2C81, 0x2C81, SB_Lower); (0x2C82, 0x2C82, SB_Upper); (0x2C83, 0x2C83, SB_Lower); (0x2C84, 0x2C84, SB_Upper);
  (0x2C85, 0x2C85, SB_Lower); (0x2C86, 0x2C86, SB_Upper); (0x2C87, 0x2C87, SB_Lower); (0x2C88, 0x2C88, SB_Upper);
  (0x2C89, 0x2C89, SB_Lower); (0x2C8A, 0x2C8A, SB_Upper); (0x2C8B, 0x2C8B, SB_Lower); (0x2C8C, 0x2C8C, SB_Upper);
  (0x2C8D, 0x2C8D, SB_Lower); (0x2C8E, 0x2C8E, SB_Upper); (0x2C8F, 0x2C8F, SB_Lower); (0x2C90, 0x2C90, SB_Upper);
  (0x2C91, 0x2C91, SB_Lower); (0x2C92, 0x2C92, SB_Upper); (0x2C93, 0x2C93, SB_Lower); (0x2C94, 0x2C94, SB_Upper);
  (0x2C95, 0x2C95, SB_Lower); (0x2C96, 0x2C96, SB_Upper); (0x2C97, 0x2C97, SB_Lower); (0x2C98, 0x2C98, SB_Upper);
  (0x2C99, 0x2C99, SB_Lower); (0x2C9A, 0x2C9A, SB_Upper); (0x2C9B, 0x2C9B, SB_Lower); (0x2C9C, 0x2C9C, SB_Upper);
  (0x2C9D, 0x2C9D, SB_Lower); (0x2C9E, 0x2C9E, SB_Upper); (0x2C9F, 0x2C9F, SB_Lower); (0x2CA0, 0x2CA0, SB_Upper);
  (0x2CA1, 0x2CA1, SB_Lower); (0x2CA2, 0x2CA2, SB_Upper); (0x2CA3, 0x2CA3, SB_Lower); (0x2CA4, 0x2CA4, SB_Upper);
  (0x2CA5, 0x2CA5, SB_Lower); (0x2CA6, 0x2CA6, SB_Upper); (0x2CA7, 0x2CA7, SB_Lower); (0x2CA8, 0x2CA8, SB_Upper);
  (0x2CA9, 0x2CA9, SB_Lower); (0x2CAA, 0x2CAA, SB_Upper); (0x2CAB, 0x2CAB, SB_Lower); (0x2CAC, 0x2CAC, SB_Upper);
  (0x2CAD, 0x2CAD, SB_Lower); (0x2CAE, 0x2CAE, SB_Upper); (0x2CAF, 0x2CAF, SB_Lower); (0x2CB0, 0x2CB0, SB_Upper);
  (0x2CB1, 0x2CB1, SB_Lower); (0x2CB2, 0x2CB2, SB_Upper); (0x2CB3, 0x2CB3, SB_Lower); (0x2CB4, 0x2CB4, SB_Upper);
  (0x2CB5, 0x2CB5, SB_Lower); (0x2CB6, 0x2CB6, SB_Upper); (0x2CB7, 0x2CB7, SB_Lower); (0x2CB8, 0x2CB8, SB_Upper);
  (0x2CB9, 0x2CB9, SB_Lower); (0x2CBA, 0x2CBA, SB_Upper); (0x2CBB, 0x2CBB, SB_Lower); (0x2CBC, 0x2CBC, SB_Upper);
  (0x2CBD, 0x2CBD, SB_Lower); (0x2CBE, 0x2CBE, SB_Upper); (0x2CBF, 0x2CBF, SB_Lower); (0x2CC0, 0x2CC0, SB_Upper);
  (0x2CC1, 0x2CC1, SB_Lower); (0x2CC2, 0x2CC2, SB_Upper); (0x2CC3, 0x2CC3, SB_Lower); (0x2CC4, 0x2CC4, SB_Upper);
  (0x2CC5, 0x2CC5, SB_Lower); (0x2CC6, 0x2CC6, SB_Upper); (0x2CC7, 0x2CC7, SB_Lower); (0x2CC8, 0x2CC8, SB_Upper);
  (0x2CC9, 0x2CC9, SB_Lower); (0x2CCA, 0x2CCA, SB_Upper); (0x2CCB, 0x2CCB, SB_Lower); (0x2CCC, 0x2CCC, SB_Upper);
  (0x2CCD, 0x2CCD, SB_Lower); (0x2CCE, 0x2CCE, SB_Upper); (0x2CCF, 0x2CCF, SB_Lower); (0x2CD0, 0x2CD0, SB_Upper);
  (0x2CD1, 0x2CD1, SB_Lower); (0x2CD2, 0x2CD2, SB_Upper); (0x2CD3, 0x2CD3, SB_Lower); (0x2CD4, 0x2CD4, SB_Upper);
  (0x2CD5, 0x2CD5, SB_Lower); (0x2CD6, 0x2CD6, SB_Upper); (0x2CD7, 0x2CD7, SB_Lower); (0x2CD8, 0x2CD8, SB_Upper);
  (0x2CD9, 0x2CD9, SB_Lower); (0x2CDA, 0x2CDA, SB_Upper); (0x2CDB, 0x2CDB, SB_Lower); (0x2CDC, 0x2CDC, SB_Upper);
  (0x2CDD, 0x2CDD, SB_Lower); (0x2CDE, 0x2CDE, SB_Upper); (0x2CDF, 0x2CDF, SB_Lower); (0x2CE0, 0x2CE0, SB_Upper);
  (0x2CE1, 0x2CE1, SB_Lower); (0x2CE2, 0x2CE2, SB_Upper); (0x2CE3, 0x2CE4, SB_Lower); (0x2CEB, 0x2CEB, SB_Upper);
  (0x2CEC, 0x2CEC, SB_Lower); (0x2CED, 0x2CED, SB_Upper); (0x2CEE, 0x2CEE, SB_Lower); (0x2CEF, 0x2CF1, SB_Extend);
  (0x2CF2, 0x2CF2, SB_Upper); (0x2CF3, 0x2CF3, SB_Lower); (0x2CF9, 0x2CFB, SB_STerm); (0x2D00, 0x2D25, SB_Lower);
  (0x2D27, 0x2D27, SB_Lower); (0x2D2D, 0x2D2D, SB_Lower); (0x2D30, 0x2D67, SB_OLetter); (0x2D6F, 0x2D6F, SB_OLetter);
  (0x2D7F, 0x2D7F, SB_Extend); (0x2D80, 0x2D96, SB_OLetter); (0x2DA0, 0x2DA6, SB_OLetter); (0x2DA8, 0x2DAE, SB_OLetter);
  (0x2DB0, 0x2DB6, SB_OLetter); (0x2DB8, 0x2DBE, SB_OLetter); (0x2DC0, 0x2DC6, SB_OLetter); (0x2DC8, 0x2DCE, SB_OLetter);
  (0x2DD0, 0x2DD6, SB_OLetter); (0x2DD8, 0x2DDE, SB_OLetter); (0x2DE0, 0x2DFF, SB_Extend); (0x2E00, 0x2E0D, SB_Close);
  (0x2E1C, 0x2E1D, SB_Close); (0x2E20, 0x2E29, SB_Close); (0x2E2E, 0x2E2E, SB_STerm); (0x2E2F, 0x2E2F, SB_OLetter);
  (0x2E3C, 0x2E3C, SB_STerm); (0x2E42, 0x2E42, SB_Close); (0x2E53, 0x2E54, SB_STerm); (0x2E55, 0x2E5C, SB_Close);
  (0x3000, 0x3000, SB_Sp); (0x3001, 0x3001, SB_SContinue); (0x3002, 0x3002, SB_STerm); (0x3005, 0x3007, SB_OLetter);
  (0x3008, 0x3011, SB_Close); (0x3014, 0x301B, SB_Close); (0x301D, 0x301F, SB_Close); (0x3021, 0x3029, SB_OLetter);
  (0x302A, 0x302F, SB_Extend); (0x3031, 0x3035, SB_OLetter); (0x3038, 0x303C, SB_OLetter); (0x3041, 0x3096, SB_OLetter);
  (0x3099, 0x309A, SB_Extend); (0x309D, 0x309F, SB_OLetter); (0x30A1, 0x30FA, SB_OLetter); (0x30FC, 0x30FF, SB_OLetter);
  (0x3105, 0x312F, SB_OLetter); (0x3131, 0x318E, SB_OLetter); (0x31A0, 0x31BF, SB_OLetter); (0x31F0, 0x31FF, SB_OLetter);
  (0x3400, 0x4DBF, SB_OLetter); (0x4E00, 0xA48C, SB_OLetter); (0xA4D0, 0xA4FD, SB_OLetter); (0xA4FF, 0xA4FF, SB_STerm);
  (0xA500, 0xA60C, SB_OLetter); (0xA60E, 0xA60F, SB_STerm); (0xA610, 0xA61F, SB_OLetter); (0xA620, 0xA629, SB_Numeric);
  (0xA62A, 0xA62B, SB_OLetter); (0xA640, 0xA640, SB_Upper); (0xA641, 0xA641, SB_Lower); (0xA642, 0xA642, SB_Upper);
  (0xA643, 0xA643, SB_Lower); (0xA644, 0xA644, SB_Upper); (0xA645, 0xA645, SB_Lower); (0xA646, 0xA646, SB_Upper);
  (0xA647, 0xA647, SB_Lower); (0xA648, 0xA648, SB_Upper); (0xA649, 0xA649, SB_Lower); (0xA64A, 0xA64A, SB_Upper);
  (0xA64B, 0xA64B, SB_Lower); (0xA64C, 0xA64C, SB_Upper); (0xA64D, 0xA64D, SB_Lower); (0xA64E, 0xA64E, SB_Upper);
  (0xA64F, 0xA64F, SB_Lower); (0xA650, 0xA650, SB_Upper); (0xA651, 0xA651, SB_Lower); (0xA652, 0xA652, SB_Upper);
  (0xA653, 0xA653, SB_Lower); (0xA654, 0xA654, SB_Upper); (0xA655, 0xA655, SB_Lower); (0xA656, 0xA656, SB_Upper);
  (0xA657, 0xA657, SB_Lower); (0xA658, 0xA658, SB_Upper); (0xA659, 0xA659, SB_Lower); (0xA65A, 0xA65A, SB_Upper);
  (0xA65B, 0xA65B, SB_Lower); (0xA65C, 0xA65C, SB_Upper); (0xA65D, 0xA65D, SB_Lower); (0xA65E, 0xA65E, SB_Upper);
  (0xA65F, 0xA65F, SB_Lower); (0xA660, 0xA660, SB_Upper); (0xA661, 0xA661, SB_Lower); (0xA662, 0xA662, SB_Upper);
  (0xA663, 0xA663, SB_Lower); (0xA664, 0xA664, SB_Upper); (0xA665, 0xA665, SB_Lower); (0xA666, 0xA666, SB_Upper);
  (0xA667, 0xA667, SB_Lower); (0xA668, 0xA668, SB_Upper); (0xA669, 0xA669, SB_Lower); (0xA66A, 0xA66A, SB_Upper);
  (0xA66B, 0xA66B, SB_Lower); (0xA66C, 0xA66C, SB_Upper); (0xA66D, 0xA66D, SB_Lower); (0xA66E, 0xA66E, SB_OLetter);
  (0xA66F, 0xA672, SB_Extend); (0xA674, 0xA67D, SB_Extend); (0xA67F, 0xA67F, SB_OLetter); (0xA680, 0xA680, SB_Upper);
  (0xA681, 0xA681, SB_Lower); (0xA682, 0xA682, SB_Upper); (0xA683, 0xA683, SB_Lower); (0xA684, 0xA684, SB_Upper);
  (0xA685, 0xA685, SB_Lower); (0xA686, 0xA686, SB_Upper); (0xA687, 0xA687, SB_Lower); (0xA688, 0xA688, SB_Upper);
  (0xA689, 0xA689, SB_Lower); (0xA68A, 0xA68A, SB_Upper); (0xA68B, 0xA68B, SB_Lower); (0xA68C, 0xA68C, SB_Upper);
  (0xA68D, 0xA68D, SB_Lower); (0xA68E, 0xA68E, SB_Upper); (0xA68F, 0xA68F, SB_Lower); (0xA690, 0xA690, SB_Upper);
  (0xA691, 0xA691, SB_Lower); (0xA692, 0xA692, SB_Upper); (0xA693, 0xA693, SB_Lower); (0xA694, 0xA694, SB_Upper);
  (0xA695, 0xA695, SB_Lower); (0xA696, 0xA696, SB_Upper); (0xA697, 0xA697, SB_Lower); (0xA698, 0xA698, SB_Upper);
  (0xA699, 0xA699, SB_Lower); (0xA69A, 0xA69A, SB_Upper); (0xA69B, 0xA69D, SB_Lower); (0xA69E, 0xA69F, SB_Extend);
  (0xA6A0, 0xA6EF, SB_OLetter); (0xA6F0, 0xA6F1, SB_Extend); (0xA6F3, 0xA6F3, SB_STerm); (0xA6F7, 0xA6F7, SB_STerm);
  (0xA717, 0xA71F, SB_OLetter); (0xA722, 0xA722, SB_Upper); (0xA723, 0xA723, SB_Lower); (0xA724, 0xA724, SB_Upper);
  (0xA725, 0xA725, SB_Lower); (0xA726, 0xA726, SB_Upper); (0xA727, 0xA727, SB_Lower); (0xA728, 0xA728, SB_Upper);
  (0xA729, 0xA729, SB_Lower); (0xA72A, 0xA72A, SB_Upper); (0xA72B, 0xA72B, SB_Lower); (0xA72C, 0xA72C, SB_Upper);
  (0xA72D, 0xA72D, SB_Lower); (0xA72E, 0xA72E, SB_Upper); (0xA72F, 0xA731, SB_Lower); (0xA732, 0xA732, SB_Upper);
  (0xA733, 0xA733, SB_Lower); (0xA734, 0xA734, SB_Upper); (0xA735, 0xA735, SB_Lower); (0xA736, 0xA736, SB_Upper);
  (0xA737, 0xA737, SB_Lower); (0xA738, 0xA738, SB_Upper); (0xA739, 0xA739, SB_Lower); (0xA73A, 0xA73A, SB_Upper);
  (0xA73B, 0xA73B, SB_Lower); (0xA73C, 0xA73C, SB_Upper); (0xA73D, 0xA73D, SB_Lower); (0xA73E, 0xA73E, SB_Upper);
  (0xA73F, 0xA73F, SB_Lower); (0xA740, 0xA740, SB_Upper); (0xA741, 0xA741, SB_Lower); (0xA742, 0xA742, SB_Upper);
  (0xA743, 0xA743, SB_Lower); (0xA744, 0xA744, SB_Upper); (0xA745, 0xA745, SB_Lower); (0xA746, 0xA746, SB_Upper);
  (0xA747, 0xA747, SB_Lower); (0xA748, 0xA748, SB_Upper); (0xA749, 0xA749, SB_Lower); (0xA74A, 0xA74A, SB_Upper);
  (0xA74B, 0xA74B, SB_Lower); (0xA74C, 0xA74C, SB_Upper); (0xA74D, 0xA74D, SB_Lower); (0xA74E, 0xA74E, SB_Upper);
  (0xA74F, 0xA74F, SB_Lower); (0xA750, 0xA750, SB_Upper); (0xA751, 0xA751, SB_Lower); (0xA752, 0xA752, SB_Upper);
  (0xA753, 0xA753, SB_Lower); (0xA754, 0xA754, SB_Upper); (0xA755, 0xA755, SB_Lower); (0xA756, 0xA756, SB_Upper);
  (0xA757, 0xA757, SB_Lower); (0xA758, 0xA758, SB_Upper); (0xA759, 0xA759, SB_Lower); (0xA75A, 0xA75A, SB_Upper);
  (0xA75B, 0xA75B, SB_Lower); (0xA75C, 0xA75C, SB_Upper); (0xA75D, 0xA75D, SB_Lower); (0xA75E, 0xA75E, SB_Upper);
  (0xA75F, 0xA75F, SB_Lower); (0xA760, 0xA760, SB_Upper); (0xA761, 0xA761, SB_Lower); (0xA762, 0xA762, SB_Upper);
  (0xA763, 0xA763, SB_Lower); (0xA764, 0xA764, SB_Upper); (0xA765, 0xA765, SB_Lower); (0xA766, 0xA766, SB_Upper);
  (0xA767, 0xA767, SB_Lower); (0xA768, 0xA768, SB_Upper); (0xA769, 0xA769, SB_Lower); (0xA76A, 0xA76A, SB_Upper);
  (0xA76B, 0xA76B, SB_Lower); (0xA76C, 0xA76C, SB_Upper); (0xA76D, 0xA76D, SB_Lower); (0xA76E, 0xA76E, SB_Upper);
  (0xA76F, 0xA778, SB_Lower); (0xA779, 0xA779, SB_Upper); (0xA77A, 0xA77A, SB_Lower); (0xA77B, 0xA77B, SB_Upper);
  (0xA77C, 0xA77C, SB_Lower); (0xA77D, 0xA77E, SB_Upper); (0xA77F, 0xA77F, SB_Lower); (0xA780, 0xA780, SB_Upper);
  (0xA781, 0xA781, SB_Lower); (0xA782, 0xA782, SB_Upper); (0xA783, 0xA783, SB_Lower); (0xA784, 0xA784, SB_Upper);
  (0xA785, 0xA785, SB_Lower); (0xA786, 0xA786, SB_Upper); (0xA787, 0xA787, SB_Lower); (0xA788, 0xA788, SB_OLetter);
  (0xA78B, 0xA78B, SB_Upper); (0xA78C, 0xA78C, SB_Lower); (0xA78D, 0xA78D, SB_Upper); (0xA78E, 0xA78E, SB_Lower);
  (0xA78F, 0xA78F, SB_OLetter); (0xA790, 0xA790, SB_Upper); (0xA791, 0xA791, SB_Lower); (0xA792, 0xA792, SB_Upper);
  (0xA793, 0xA795, SB_Lower); (0xA796, 0xA796, SB_Upper); (0xA797, 0xA797, SB_Lower); (0xA798, 0xA798, SB_Upper);
  (0xA799, 0xA799, SB_Lower); (0xA79A, 0xA79A, SB_Upper); (0xA79B, 0xA79B, SB_Lower); (0xA79C, 0xA79C, SB_Upper);
  (0xA79D, 0xA79D, SB_Lower); (0xA79E, 0xA79E, SB_Upper); (0xA79F, 0xA79F, SB_Lower); (0xA7A0, 0xA7A0, SB_Upper);
  (0xA7A1, 0xA7A1, SB_Lower); (0xA7A2, 0xA7A2, SB_Upper); (0xA7A3, 0xA7A3, SB_Lower); (0xA7A4, 0xA7A4, SB_Upper);
  (0xA7A5, 0xA7A5, SB_Lower); (0xA7A6, 0xA7A6, SB_Upper); (0xA7A7, 0xA7A7, SB_Lower); (0xA7A8, 0xA7A8, SB_Upper);
  (0xA7A9, 0xA7A9, SB_Lower); (0xA7AA, 0xA7AE, SB_Upper); (0xA7AF, 0xA7AF, SB_Lower); (0xA7B0, 0xA7B4, SB_Upper);
  (0xA7B5, 0xA7B5, SB_Lower); (0xA7B6, 0xA7B6, SB_Upper); (0xA7B7, 0xA7B7, SB_Lower); (0xA7B8, 0xA7B8, SB_Upper);
  (0xA7B9, 0xA7B9, SB_Lower); (0xA7BA, 0xA7BA, SB_Upper); (0xA7BB, 0xA7BB, SB_Lower); (0xA7BC, 0xA7BC, SB_Upper);
  (0xA7BD, 0xA7BD, SB_Lower); (0xA7BE, 0xA7BE, SB_Upper); (0xA7BF, 0xA7BF, SB_Lower); (0xA7C0, 0xA7C0, SB_Upper);
  (0xA7C1, 0xA7C1, SB_Lower); (0xA7C2, 0xA7C2, SB_Upper); (0xA7C3, 0xA7C3, SB_Lower); (0xA7C4, 0xA7C7, SB_Upper);
  (0xA7C8, 0xA7C8, SB_Lower); (0xA7C9, 0xA7C9, SB_Upper); (0xA7CA, 0xA7CA, SB_Lower); (0xA7CB, 0xA7CC, SB_Upper);
  (0xA7CD, 0xA7CD, SB_Lower); (0xA7CE, 0xA7CE, SB_Upper); (0xA7CF, 0xA7CF, SB_Lower); (0xA7D0, 0xA7D0, SB_Upper);
  (0xA7D1, 0xA7D1, SB_Lower); (0xA7D2, 0xA7D2, SB_Upper); (0xA7D3, 0xA7D3, SB_Lower); (0xA7D4, 0xA7D4, SB_Upper);
  (0xA7D5, 0xA7D5, SB_Lower); (0xA7D6, 0xA7D6, SB_Upper); (0xA7D7, 0xA7D7, SB_Lower); (0xA7D8, 0xA7D8, SB_Upper);
  (0xA7D9, 0xA7D9, SB_Lower); (0xA7DA, 0xA7DA, SB_Upper); (0xA7DB, 0xA7DB, SB_Lower); (0xA7DC, 0xA7DC, SB_Upper);
  (0xA7F1, 0xA7F4, SB_Lower); (0xA7F5, 0xA7F5, SB_Upper); (0xA7F6, 0xA7F6, SB_Lower); (0xA7F7, 0xA7F7, SB_OLetter);
  (0xA7F8, 0xA7FA, SB_Lower); (0xA7FB, 0xA801, SB_OLetter); (0xA802, 0xA802, SB_Extend); (0xA803, 0xA805, SB_OLetter);
  (0xA806, 0xA806, SB_Extend); (0xA807, 0xA80A, SB_OLetter); (0xA80B, 0xA80B, SB_Extend); (0xA80C, 0xA822, SB_OLetter);
  (0xA823, 0xA827, SB_Extend); (0xA82C, 0xA82C, SB_Extend); (0xA840, 0xA873, SB_OLetter); (0xA876, 0xA877, SB_STerm);
  (0xA880, 0xA881, SB_Extend); (0xA882, 0xA8B3, SB_OLetter); (0xA8B4, 0xA8C5, SB_Extend); (0xA8CE, 0xA8CF, SB_STerm);
  (0xA8D0, 0xA8D9, SB_Numeric); (0xA8E0, 0xA8F1, SB_Extend); (0xA8F2, 0xA8F7, SB_OLetter); (0xA8FB, 0xA8FB, SB_OLetter);
  (0xA8FD, 0xA8FE, SB_OLetter); (0xA8FF, 0xA8FF, SB_Extend); (0xA900, 0xA909, SB_Numeric); (0xA90A, 0xA925, SB_OLetter);
  (0xA926, 0xA92D, SB_Extend); (0xA92F, 0xA92F, SB_STerm); (0xA930, 0xA946, SB_OLetter); (0xA947, 0xA953, SB_Extend);
  (0xA960, 0xA97C, SB_OLetter); (0xA980, 0xA983, SB_Extend); (0xA984, 0xA9B2, SB_OLetter); (0xA9B3, 0xA9C0, SB_Extend);
  (0xA9C8, 0xA9C9, SB_STerm); (0xA9CF, 0xA9CF, SB_OLetter); (0xA9D0, 0xA9D9, SB_Numeric); (0xA9E0, 0xA9E4, SB_OLetter);
  (0xA9E5, 0xA9E5, SB_Extend); (0xA9E6, 0xA9EF, SB_OLetter); (0xA9F0, 0xA9F9, SB_Numeric); (0xA9FA, 0xA9FE, SB_OLetter);
  (0xAA00, 0xAA28, SB_OLetter); (0xAA29, 0xAA36, SB_Extend); (0xAA40, 0xAA42, SB_OLetter); (0xAA43, 0xAA43, SB_Extend);
  (0xAA44, 0xAA4B, SB_OLetter); (0xAA4C, 0xAA4D, SB_Extend); (0xAA50, 0xAA59, SB_Numeric); (0xAA5D, 0xAA5F, SB_STerm);
  (0xAA60, 0xAA76, SB_OLetter); (0xAA7A, 0xAA7A, SB_OLetter); (0xAA7B, 0xAA7D, SB_Extend); (0xAA7E, 0xAAAF, SB_OLetter);
  (0xAAB0, 0xAAB0, SB_Extend); (0xAAB1, 0xAAB1, SB_OLetter); (0xAAB2, 0xAAB4, SB_Extend); (0xAAB5, 0xAAB6, SB_OLetter);
  (0xAAB7, 0xAAB8, SB_Extend); (0xAAB9, 0xAABD, SB_OLetter); (0xAABE, 0xAABF, SB_Extend); (0xAAC0, 0xAAC0, SB_OLetter);
  (0xAAC1, 0xAAC1, SB_Extend); (0xAAC2, 0xAAC2, SB_OLetter); (0xAADB, 0xAADD, SB_OLetter); (0xAAE0, 0xAAEA, SB_OLetter);
  (0xAAEB, 0xAAEF, SB_Extend); (0xAAF0, 0xAAF1, SB_STerm); (0xAAF2, 0xAAF4, SB_OLetter); (0xAAF5, 0xAAF6, SB_Extend);
  (0xAB01, 0xAB06, SB_OLetter); (0xAB09, 0xAB0E, SB_OLetter); (0xAB11, 0xAB16, SB_OLetter); (0xAB20, 0xAB26, SB_OLetter);
  (0xAB28, 0xAB2E, SB_OLetter); (0xAB30, 0xAB5A, SB_Lower); (0xAB5C, 0xAB69, SB_Lower); (0xAB70, 0xABBF, SB_Lower);
  (0xABC0, 0xABE2, SB_OLetter); (0xABE3, 0xABEA, SB_Extend); (0xABEB, 0xABEB, SB_STerm); (0xABEC, 0xABED, SB_Extend);
  (0xABF0, 0xABF9, SB_Numeric); (0xAC00, 0xD7A3, SB_OLetter); (0xD7B0, 0xD7C6, SB_OLetter); (0xD7CB, 0xD7FB, SB_OLetter);
  (0xF900, 0xFA6D, SB_OLetter); (0xFA70, 0xFAD9, SB_OLetter); (0xFB00, 0xFB06, SB_Lower); (0xFB13, 0xFB17, SB_Lower);
  (0xFB1D, 0xFB1D, SB_OLetter); (0xFB1E, 0xFB1E, SB_Extend); (0xFB1F, 0xFB28, SB_OLetter); (0xFB2A, 0xFB36, SB_OLetter);
  (0xFB38, 0xFB3C, SB_OLetter); (0xFB3E, 0xFB3E, SB_OLetter); (0xFB40, 0xFB41, SB_OLetter); (0xFB43, 0xFB44, SB_OLetter);
  (0xFB46, 0xFBB1, SB_OLetter); (0xFBD3, 0xFD3D, SB_OLetter); (0xFD3E, 0xFD3F, SB_Close); (0xFD50, 0xFD8F, SB_OLetter);
  (0xFD92, 0xFDC7, SB_OLetter); (0xFDF0, 0xFDFB, SB_OLetter); (0xFE00, 0xFE0F, SB_Extend); (0xFE10, 0xFE11, SB_SContinue);
  (0xFE12, 0xFE12, SB_STerm); (0xFE13, 0xFE14, SB_SContinue); (0xFE15, 0xFE16, SB_STerm); (0xFE17, 0xFE18, SB_Close);
  (0xFE20, 0xFE2F, SB_Extend); (0xFE31, 0xFE32, SB_SContinue); (0xFE35, 0xFE44, SB_Close); (0xFE47, 0xFE48, SB_Close);
  (0xFE50, 0xFE51, SB_SContinue); (0xFE52, 0xFE52, SB_ATerm); (0xFE54, 0xFE55, SB_SContinue); (0xFE56, 0xFE57, SB_STerm);
  (0xFE58, 0xFE58, SB_SContinue); (0xFE59, 0xFE5E, SB_Close); (0xFE63, 0xFE63, SB_SContinue); (0xFE70, 0xFE74, SB_OLetter);
  (0xFE76, 0xFEFC, SB_OLetter); (0xFEFF, 0xFEFF, SB_Format); (0xFF01, 0xFF01, SB_STerm); (0xFF08, 0xFF09, SB_Close);
  (0xFF0C, 0xFF0D, SB_SContinue); (0xFF0E, 0xFF0E, SB_ATerm); (0xFF10, 0xFF19, SB_Numeric); (0xFF1A, 0xFF1B, SB_SContinue);
  (0xFF1F, 0xFF1F, SB_STerm); (0xFF21, 0xFF3A, SB_Upper); (0xFF3B, 0xFF3B, SB_Close); (0xFF3D, 0xFF3D, SB_Close);
  (0xFF41, 0xFF5A, SB_Lower); (0xFF5B, 0xFF5B, SB_Close); (0xFF5D, 0xFF5D, SB_Close); (0xFF5F, 0xFF60, SB_Close);
  (0xFF61, 0xFF61, SB_STerm); (0xFF62, 0xFF63, SB_Close); (0xFF64, 0xFF64, SB_SContinue); (0xFF66, 0xFF9D, SB_OLetter);
  (0xFF9E, 0xFF9F, SB_Extend); (0xFFA0, 0xFFBE, SB_OLetter); (0xFFC2, 0xFFC7, SB_OLetter); (0xFFCA, 0xFFCF, SB_OLetter);
  (0xFFD2, 0xFFD7, SB_OLetter); (0xFFDA, 0xFFDC, SB_OLetter); (0xFFF9, 0xFFFB, SB_Format); (0x10000, 0x1000B, SB_OLetter);
  (0x1000D, 0x10026, SB_OLetter); (0x10028, 0x1003A, SB_OLetter); (0x1003C, 0x1003D, SB_OLetter); (0x1003F, 0x1004D, SB_OLetter);
  (0x10050, 0x1005D, SB_OLetter); (0x10080, 0x100FA, SB_OLetter); (0x10140, 0x10174, SB_OLetter); (0x101FD, 0x101FD, SB_Extend);
  (0x10280, 0x1029C, SB_OLetter); (0x102A0, 0x102D0, SB_OLetter); (0x102E0, 0x102E0, SB_Extend); (0x10300, 0x1031F, SB_OLetter);
  (0x1032D, 0x1034A, SB_OLetter); (0x10350, 0x10375, SB_OLetter); (0x10376, 0x1037A, SB_Extend); (0x10380, 0x1039D, SB_OLetter);
  (0x103A0, 0x103C3, SB_OLetter); (0x103C8, 0x103CF, SB_OLetter); (0x103D1, 0x103D5, SB_OLetter); (0x10400, 0x10427, SB_Upper);
  (0x10428, 0x1044F, SB_Lower); (0x10450, 0x1049D, SB_OLetter); (0x104A0, 0x104A9, SB_Numeric); (0x104B0, 0x104D3, SB_Upper);
  (0x104D8, 0x104FB, SB_Lower); (0x10500, 0x10527, SB_OLetter); (0x10530, 0x10563, SB_OLetter); (0x10570, 0x1057A, SB_Upper);
  (0x1057C, 0x1058A, SB_Upper); (0x1058C, 0x10592, SB_Upper); (0x10594, 0x10595, SB_Upper); (0x10597, 0x105A1, SB_Lower);
  (0x105A3, 0x105B1, SB_Lower); (0x105B3, 0x105B9, SB_Lower); (0x105BB, 0x105BC, SB_Lower); (0x105C0, 0x105F3, SB_OLetter);
  (0x10600, 0x10736, SB_OLetter); (0x10740, 0x10755, SB_OLetter); (0x10760, 0x10767, SB_OLetter); (0x10780, 0x10780, SB_Lower);
  (0x10781, 0x10782, SB_OLetter); (0x10783, 0x10785, SB_Lower); (0x10787, 0x107B0, SB_Lower); (0x107B2, 0x107BA, SB_Lower);
  (0x10800, 0x10805, SB_OLetter); (0x10808, 0x10808, SB_OLetter); (0x1080A, 0x10835, SB_OLetter); (0x10837, 0x10838, SB_OLetter);
  (0x1083C, 0x1083C, SB_OLetter); (0x1083F, 0x10855, SB_OLetter); (0x10860, 0x10876, SB_OLetter); (0x10880, 0x1089E, SB_OLetter);
  (0x108E0, 0x108F2, SB_OLetter); (0x108F4, 0x108F5, SB_OLetter); (0x10900, 0x10915, SB_OLetter); (0x10920, 0x10939, SB_OLetter);
  (0x10940, 0x10959, SB_OLetter); (0x10980, 0x109B7, SB_OLetter); (0x109BE, 0x109BF, SB_OLetter); (0x10A00, 0x10A00, SB_OLetter);
  (0x10A01, 0x10A03, SB_Extend); (0x10A05, 0x10A06, SB_Extend); (0x10A0C, 0x10A0F, SB_Extend); (0x10A10, 0x10A13, SB_OLetter);
  (0x10A15, 0x10A17, SB_OLetter); (0x10A19, 0x10A35, SB_OLetter); (0x10A38, 0x10A3A, SB_Extend); (0x10A3F, 0x10A3F, SB_Extend);
  (0x10A56, 0x10A57, SB_STerm); (0x10A60, 0x10A7C, SB_OLetter); (0x10A80, 0x10A9C, SB_OLetter); (0x10AC0, 0x10AC7, SB_OLetter);
  (0x10AC9, 0x10AE4, SB_OLetter); (0x10AE5, 0x10AE6, SB_Extend); (0x10B00, 0x10B35, SB_OLetter); (0x10B40, 0x10B55, SB_OLetter);
  (0x10B60, 0x10B72, SB_OLetter); (0x10B80, 0x10B91, SB_OLetter); (0x10C00, 0x10C48, SB_OLetter); (0x10C80, 0x10CB2, SB_Upper);
  (0x10CC0, 0x10CF2, SB_Lower); (0x10D00, 0x10D23, SB_OLetter); (0x10D24, 0x10D27, SB_Extend); (0x10D30, 0x10D39, SB_Numeric);
  (0x10D40, 0x10D49, SB_Numeric); (0x10D4A, 0x10D4F, SB_OLetter); (0x10D50, 0x10D65, SB_Upper); (0x10D69, 0x10D6D, SB_Extend);
  (0x10D6F, 0x10D6F, SB_OLetter); (0x10D70, 0x10D85, SB_Lower); (0x10E80, 0x10EA9, SB_OLetter); (0x10EAB, 0x10EAC, SB_Extend);
  (0x10EB0, 0x10EB1, SB_OLetter); (0x10EC2, 0x10EC7, SB_OLetter); (0x10EFA, 0x10EFF, SB_Extend); (0x10F00, 0x10F1C, SB_OLetter);
  (0x10F27, 0x10F27, SB_OLetter); (0x10F30, 0x10F45, SB_OLetter); (0x10F46, 0x10F50, SB_Extend); (0x10F55, 0x10F59, SB_STerm);
  (0x10F70, 0x10F81, SB_OLetter); (0x10F82, 0x10F85, SB_Extend); (0x10F86, 0x10F89, SB_STerm); (0x10FB0, 0x10FC4, SB_OLetter);
  (0x10FE0, 0x10FF6, SB_OLetter); (0x11000, 0x11002, SB_Extend); (0x11003, 0x11037, SB_OLetter); (0x11038, 0x11046, SB_Extend);
  (0x11047, 0x11048, SB_STerm); (0x11066, 0x1106F, SB_Numeric); (0x11070, 0x11070, SB_Extend); (0x11071, 0x11072, SB_OLetter);
  (0x11073, 0x11074, SB_Extend); (0x11075, 0x11075, SB_OLetter); (0x1107F, 0x11082, SB_Extend); (0x11083, 0x110AF, SB_OLetter);
  (0x110B0, 0x110BA, SB_Extend); (0x110BD, 0x110BD, SB_Numeric); (0x110BE, 0x110C1, SB_STerm); (0x110C2, 0x110C2, SB_Extend);
  (0x110CD, 0x110CD, SB_Numeric); (0x110D0, 0x110E8, SB_OLetter); (0x110F0, 0x110F9, SB_Numeric); (0x11100, 0x11102, SB_Extend);
  (0x11103, 0x11126, SB_OLetter); (0x11127, 0x11134, SB_Extend); (0x11136, 0x1113F, SB_Numeric); (0x11141, 0x11143, SB_STerm);
  (0x11144, 0x11144, SB_OLetter); (0x11145, 0x11146, SB_Extend); (0x11147, 0x11147, SB_OLetter); (0x11150, 0x11172, SB_OLetter);
  (0x11173, 0x11173, SB_Extend); (0x11176, 0x11176, SB_OLetter); (0x11180, 0x11182, SB_Extend); (0x11183, 0x111B2, SB_OLetter);
  (0x111B3, 0x111C0, SB_Extend); (0x111C1, 0x111C4, SB_OLetter); (0x111C5, 0x111C6, SB_STerm); (0x111C9, 0x111CC, SB_Extend);
  (0x111CD, 0x111CD, SB_STerm); (0x111CE, 0x111CF, SB_Extend); (0x111D0, 0x111D9, SB_Numeric); (0x111DA, 0x111DA, SB_OLetter);
  (0x111DC, 0x111DC, SB_OLetter); (0x111DE, 0x111DF, SB_STerm); (0x11200, 0x11211, SB_OLetter); (0x11213, 0x1122B, SB_OLetter);
  (0x1122C, 0x11237, SB_Extend); (0x11238, 0x11239, SB_STerm); (0x1123B, 0x1123C, SB_STerm); (0x1123E, 0x1123E, SB_Extend);
  (0x1123F, 0x11240, SB_OLetter); (0x11241, 0x11241, SB_Extend); (0x11280, 0x11286, SB_OLetter); (0x11288, 0x11288, SB_OLetter);
  (0x1128A, 0x1128D, SB_OLetter); (0x1128F, 0x1129D, SB_OLetter); (0x1129F, 0x112A8, SB_OLetter); (0x112A9, 0x112A9, SB_STerm);
  (0x112B0, 0x112DE, SB_OLetter); (0x112DF, 0x112EA, SB_Extend); (0x112F0, 0x112F9, SB_Numeric); (0x11300, 0x11303, SB_Extend);
  (0x11305, 0x1130C, SB_OLetter); (0x1130F, 0x11310, SB_OLetter); (0x11313, 0x11328, SB_OLetter); (0x1132A, 0x11330, SB_OLetter);
  (0x11332, 0x11333, SB_OLetter); (0x11335, 0x11339, SB_OLetter); (0x1133B, 0x1133C, SB_Extend); (0x1133D, 0x1133D, SB_OLetter);
  (0x1133E, 0x11344, SB_Extend); (0x11347, 0x11348, SB_Extend); (0x1134B, 0x1134D, SB_Extend); (0x11350, 0x11350, SB_OLetter);
  (0x11357, 0x11357, SB_Extend); (0x1135D, 0x11361, SB_OLetter); (0x11362, 0x11363, SB_Extend); (0x11366, 0x1136C, SB_Extend);
  (0x11370, 0x11374, SB_Extend); (0x11380, 0x11389, SB_OLetter); (0x1138B, 0x1138B, SB_OLetter); (0x1138E, 0x1138E, SB_OLetter);
  (0x11390, 0x113B5, SB_OLetter); (0x113B7, 0x113B7, SB_OLetter); (0x113B8, 0x113C0, SB_Extend); (0x113C2, 0x113C2, SB_Extend);
  (0x113C5, 0x113C5, SB_Extend); (0x113C7, 0x113CA, SB_Extend); (0x113CC, 0x113D0, SB_Extend); (0x113D1, 0x113D1, SB_OLetter);
  (0x113D2, 0x113D2, SB_Extend); (0x113D3, 0x113D3, SB_OLetter); (0x113D4, 0x113D5, SB_STerm); (0x113E1, 0x113E2, SB_Extend);
  (0x11400, 0x11434, SB_OLetter); (0x11435, 0x11446, SB_Extend); (0x11447, 0x1144A, SB_OLetter); (0x1144B, 0x1144C, SB_STerm);
  (0x11450, 0x11459, SB_Numeric); (0x1145E, 0x1145E, SB_Extend); (0x1145F, 0x11461, SB_OLetter); (0x11480, 0x114AF, SB_OLetter);
  (0x114B0, 0x114C3, SB_Extend); (0x114C4, 0x114C5, SB_OLetter); (0x114C7, 0x114C7, SB_OLetter); (0x114D0, 0x114D9, SB_Numeric);
  (0x11580, 0x115AE, SB_OLetter); (0x115AF, 0x115B5, SB_Extend); (0x115B8, 0x115C0, SB_Extend); (0x115C2, 0x115C3, SB_STerm);
  (0x115C9, 0x115D7, SB_STerm); (0x115D8, 0x115DB, SB_OLetter); (0x115DC, 0x115DD, SB_Extend); (0x11600, 0x1162F, SB_OLetter);
  (0x11630, 0x11640, SB_Extend); (0x11641, 0x11642, SB_STerm); (0x11644, 0x11644, SB_OLetter); (0x11650, 0x11659, SB_Numeric);
  (0x11680, 0x116AA, SB_OLetter); (0x116AB, 0x116B7, SB_Extend); (0x116B8, 0x116B8, SB_OLetter); (0x116C0, 0x116C9, SB_Numeric);
  (0x116D0, 0x116E3, SB_Numeric); (0x11700, 0x1171A, SB_OLetter); (0x1171D, 0x1172B, SB_Extend); (0x11730, 0x11739, SB_Numeric);
  (0x1173C, 0x1173E, SB_STerm); (0x11740, 0x11746, SB_OLetter); (0x11800, 0x1182B, SB_OLetter); (0x1182C, 0x1183A, SB_Extend);
  (0x118A0, 0x118BF, SB_Upper); (0x118C0, 0x118DF, SB_Lower); (0x118E0, 0x118E9, SB_Numeric); (0x118FF, 0x11906, SB_OLetter);
  (0x11909, 0x11909, SB_OLetter); (0x1190C, 0x11913, SB_OLetter); (0x11915, 0x11916, SB_OLetter); (0x11918, 0x1192F, SB_OLetter);
  (0x11930, 0x11935, SB_Extend); (0x11937, 0x11938, SB_Extend); (0x1193B, 0x1193E, SB_Extend); (0x1193F, 0x1193F, SB_OLetter);
  (0x11940, 0x11940, SB_Extend); (0x11941, 0x11941, SB_OLetter); (0x11942, 0x11943, SB_Extend); (0x11944, 0x11944, SB_STerm);
  (0x11946, 0x11946, SB_STerm); (0x11950, 0x11959, SB_Numeric); (0x119A0, 0x119A7, SB_OLetter); (0x119AA, 0x119D0, SB_OLetter);
  (0x119D1, 0x119D7, SB_Extend); (0x119DA, 0x119E0, SB_Extend); (0x119E1, 0x119E1, SB_OLetter); (0x119E3, 0x119E3, SB_OLetter);
  (0x119E4, 0x119E4, SB_Extend); (0x11A00, 0x11A00, SB_OLetter); (0x11A01, 0x11A0A, SB_Extend); (0x11A0B, 0x11A32, SB_OLetter);
  (0x11A33, 0x11A39, SB_Extend); (0x11A3A, 0x11A3A, SB_OLetter); (0x11A3B, 0x11A3E, SB_Extend); (0x11A42, 0x11A43, SB_STerm);
  (0x11A47, 0x11A47, SB_Extend); (0x11A50, 0x11A50, SB_OLetter); (0x11A51, 0x11A5B, SB_Extend); (0x11A5C, 0x11A89, SB_OLetter);
  (0x11A8A, 0x11A99, SB_Extend); (0x11A9B, 0x11A9C, SB_STerm); (0x11A9D, 0x11A9D, SB_OLetter); (0x11AB0, 0x11AF8, SB_OLetter);
  (0x11B60, 0x11B67, SB_Extend); (0x11BC0, 0x11BE0, SB_OLetter); (0x11BF0, 0x11BF9, SB_Numeric); (0x11C00, 0x11C08, SB_OLetter);
  (0x11C0A, 0x11C2E, SB_OLetter); (0x11C2F, 0x11C36, SB_Extend); (0x11C38, 0x11C3F, SB_Extend); (0x11C40, 0x11C40, SB_OLetter);
  (0x11C41, 0x11C42, SB_STerm); (0x11C50, 0x11C59, SB_Numeric); (0x11C72, 0x11C8F, SB_OLetter); (0x11C92, 0x11CA7, SB_Extend);
  (0x11CA9, 0x11CB6, SB_Extend); (0x11D00, 0x11D06, SB_OLetter); (0x11D08, 0x11D09, SB_OLetter); (0x11D0B, 0x11D30, SB_OLetter);
  (0x11D31, 0x11D36, SB_Extend); (0x11D3A, 0x11D3A, SB_Extend); (0x11D3C, 0x11D3D, SB_Extend); (0x11D3F, 0x11D45, SB_Extend);
  (0x11D46, 0x11D46, SB_OLetter); (0x11D47, 0x11D47, SB_Extend); (0x11D50, 0x11D59, SB_Numeric); (0x11D60, 0x11D65, SB_OLetter);
  (0x11D67, 0x11D68, SB_OLetter); (0x11D6A, 0x11D89, SB_OLetter); (0x11D8A, 0x11D8E, SB_Extend); (0x11D90, 0x11D91, SB_Extend);
  (0x11D93, 0x11D97, SB_Extend); (0x11D98, 0x11D98, SB_OLetter); (0x11DA0, 0x11DA9, SB_Numeric); (0x11DB0, 0x11DDB, SB_OLetter);
  (0x11DE0, 0x11DE9, SB_Numeric); (0x11EE0, 0x11EF2, SB_OLetter); (0x11EF3, 0x11EF6, SB_Extend); (0x11EF7, 0x11EF8, SB_STerm);
  (0x11F00, 0x11F01, SB_Extend); (0x11F02, 0x11F02, SB_OLetter); (0x11F03, 0x11F03, SB_Extend); (0x11F04, 0x11F10, SB_OLetter);
  (0x11F12, 0x11F33, SB_OLetter); (0x11F34, 0x11F3A, SB_Extend); (0x11F3E, 0x11F42, SB_Extend); (0x11F43, 0x11F44, SB_STerm);
  (0x11F50, 0x11F59, SB_Numeric); (0x11F5A, 0x11F5A, SB_Extend); (0x11FB0, 0x11FB0, SB_OLetter); (0x12000, 0x12399, SB_OLetter);
  (0x12400, 0x1246E, SB_OLetter); (0x12480, 0x12543, SB_OLetter); (0x12F90, 0x12FF0, SB_OLetter); (0x13000, 0x1342F, SB_OLetter);
  (0x13430, 0x1343F, SB_Format); (0x13440, 0x13440, SB_Extend); (0x13441, 0x13446, SB_OLetter); (0x13447, 0x13455, SB_Extend);
  (0x13460, 0x143FA, SB_OLetter); (0x14400, 0x14646, SB_OLetter); (0x16100, 0x1611D, SB_OLetter); (0x1611E, 0x1612F, SB_Extend);
  (0x16130, 0x16139, SB_Numeric); (0x16800, 0x16A38, SB_OLetter); (0x16A40, 0x16A5E, SB_OLetter); (0x16A60, 0x16A69, SB_Numeric);
  (0x16A6E, 0x16A6F, SB_STerm); (0x16A70, 0x16ABE, SB_OLetter); (0x16AC0, 0x16AC9, SB_Numeric); (0x16AD0, 0x16AED, SB_OLetter);
  (0x16AF0, 0x16AF4, SB_Extend); (0x16AF5, 0x16AF5, SB_STerm); (0x16B00, 0x16B2F, SB_OLetter); (0x16B30, 0x16B36, SB_Extend);
  (0x16B37, 0x16B38, SB_STerm); (0x16B40, 0x16B43, SB_OLetter); (0x16B44, 0x16B44, SB_STerm); (0x16B50, 0x16B59, SB_Numeric);
  (0x16B63, 0x16B77, SB_OLetter); (0x16B7D, 0x16B8F, SB_OLetter); (0x16D40, 0x16D6C, SB_OLetter); (0x16D6E, 0x16D6F, SB_STerm);
  (0x16D70, 0x16D79, SB_Numeric); (0x16E40, 0x16E5F, SB_Upper); (0x16E60, 0x16E7F, SB_Lower); (0x16E98, 0x16E98, SB_STerm);
  (0x16EA0, 0x16EB8, SB_Upper); (0x16EBB, 0x16ED3, SB_Lower); (0x16F00, 0x16F4A, SB_OLetter); (0x16F4F, 0x16F4F, SB_Extend);
  (0x16F50, 0x16F50, SB_OLetter); (0x16F51, 0x16F87, SB_Extend); (0x16F8F, 0x16F92, SB_Extend); (0x16F93, 0x16F9F, SB_OLetter);
  (0x16FE0, 0x16FE1, SB_OLetter); (0x16FE3, 0x16FE3, SB_OLetter); (0x16FE4, 0x16FE4, SB_Extend); (0x16FF0, 0x16FF1, SB_Extend);
  (0x16FF2, 0x16FF6, SB_OLetter); (0x17000, 0x18CD5, SB_OLetter); (0x18CFF, 0x18D1E, SB_OLetter); (0x18D80, 0x18DF2, SB_OLetter);
  (0x1AFF0, 0x1AFF3, SB_OLetter); (0x1AFF5, 0x1AFFB, SB_OLetter); (0x1AFFD, 0x1AFFE, SB_OLetter); (0x1B000, 0x1B122, SB_OLetter);
  (0x1B132, 0x1B132, SB_OLetter); (0x1B150, 0x1B152, SB_OLetter); (0x1B155, 0x1B155, SB_OLetter); (0x1B164, 0x1B167, SB_OLetter);
  (0x1B170, 0x1B2FB, SB_OLetter); (0x1BC00, 0x1BC6A, SB_OLetter); (0x1BC70, 0x1BC7C, SB_OLetter); (0x1BC80, 0x1BC88, SB_OLetter);
  (0x1BC90, 0x1BC99, SB_OLetter); (0x1BC9D, 0x1BC9E, SB_Extend); (0x1BC9F, 0x1BC9F, SB_STerm); (0x1BCA0, 0x1BCA3, SB_Format);
  (0x1CCF0, 0x1CCF9, SB_Numeric); (0x1CF00, 0x1CF2D, SB_Extend); (0x1CF30, 0x1CF46, SB_Extend); (0x1D165, 0x1D169, SB_Extend);
  (0x1D16D, 0x1D172, SB_Extend); (0x1D173, 0x1D17A, SB_Format); (0x1D17B, 0x1D182, SB_Extend); (0x1D185, 0x1D18B, SB_Extend);
  (0x1D1AA, 0x1D1AD, SB_Extend); (0x1D242, 0x1D244, SB_Extend); (0x1D400, 0x1D419, SB_Upper); (0x1D41A, 0x1D433, SB_Lower);
  (0x1D434, 0x1D44D, SB_Upper); (0x1D44E, 0x1D454, SB_Lower); (0x1D456, 0x1D467, SB_Lower); (0x1D468, 0x1D481, SB_Upper);
  (0x1D482, 0x1D49B, SB_Lower); (0x1D49C, 0x1D49C, SB_Upper); (0x1D49E, 0x1D49F, SB_Upper); (0x1D4A2, 0x1D4A2, SB_Upper);
  (0x1D4A5, 0x1D4A6, SB_Upper); (0x1D4A9, 0x1D4AC, SB_Upper); (0x1D4AE, 0x1D4B5, SB_Upper); (0x1D4B6, 0x1D4B9, SB_Lower);
  (0x1D4BB, 0x1D4BB, SB_Lower); (0x1D4BD, 0x1D4C3, SB_Lower); (0x1D4C5, 0x1D4CF, SB_Lower); (0x1D4D0, 0x1D4E9, SB_Upper);
  (0x1D4EA, 0x1D503, SB_Lower); (0x1D504, 0x1D505, SB_Upper); (0x1D507, 0x1D50A, SB_Upper); (0x1D50D, 0x1D514, SB_Upper);
  (0x1D516, 0x1D51C, SB_Upper); (0x1D51E, 0x1D537, SB_Lower); (0x1D538, 0x1D539, SB_Upper); (0x1D53B, 0x1D53E, SB_Upper);
  (0x1D540, 0x1D544, SB_Upper); (0x1D546, 0x1D546, SB_Upper); (0x1D54A, 0x1D550, SB_Upper); (0x1D552, 0x1D56B, SB_Lower);
  (0x1D56C, 0x1D585, SB_Upper); (0x1D586, 0x1D59F, SB_Lower); (0x1D5A0, 0x1D5B9, SB_Upper); (0x1D5BA, 0x1D5D3, SB_Lower);
  (0x1D5D4, 0x1D5ED, SB_Upper); (0x1D5EE, 0x1D607, SB_Lower); (0x1D608, 0x1D621, SB_Upper); (0x1D622, 0x1D63B, SB_Lower);
  (0x1D63C, 0x1D655, SB_Upper); (0x1D656, 0x1D66F, SB_Lower); (0x1D670, 0x1D689, SB_Upper); (0x1D68A, 0x1D6A5, SB_Lower);
  (0x1D6A8, 0x1D6C0, SB_Upper); (0x1D6C2, 0x1D6DA, SB_Lower); (0x1D6DC, 0x1D6E1, SB_Lower); (0x1D6E2, 0x1D6FA, SB_Upper);
  (0x1D6FC, 0x1D714, SB_Lower); (0x1D716, 0x1D71B, SB_Lower); (0x1D71C, 0x1D734, SB_Upper); (0x1D736, 0x1D74E, SB_Lower);
  (0x1D750, 0x1D755, SB_Lower); (0x1D756, 0x1D76E, SB_Upper); (0x1D770, 0x1D788, SB_Lower); (0x1D78A, 0x1D78F, SB_Lower);
  (0x1D790, 0x1D7A8, SB_Upper); (0x1D7AA, 0x1D7C2, SB_Lower); (0x1D7C4, 0x1D7C9, SB_Lower); (0x1D7CA, 0x1D7CA, SB_Upper);
  (0x1D7CB, 0x1D7CB, SB_Lower); (0x1D7CE, 0x1D7FF, SB_Numeric); (0x1DA00, 0x1DA36, SB_Extend); (0x1DA3B, 0x1DA6C, SB_Extend);
  (0x1DA75, 0x1DA75, SB_Extend); (0x1DA84, 0x1DA84, SB_Extend); (0x1DA88, 0x1DA88, SB_STerm); (0x1DA9B, 0x1DA9F, SB_Extend);
  (0x1DAA1, 0x1DAAF, SB_Extend); (0x1DF00, 0x1DF09, SB_Lower); (0x1DF0A, 0x1DF0A, SB_OLetter); (0x1DF0B, 0x1DF1E, SB_Lower);
  (0x1DF25, 0x1DF2A, SB_Lower); (0x1E000, 0x1E006, SB_Extend); (0x1E008, 0x1E018, SB_Extend); (0x1E01B, 0x1E021, SB_Extend);
  (0x1E023, 0x1E024, SB_Extend); (0x1E026, 0x1E02A, SB_Extend); (0x1E030, 0x1E06D, SB_Lower); (0x1E08F, 0x1E08F, SB_Extend);
  (0x1E100, 0x1E12C, SB_OLetter); (0x1E130, 0x1E136, SB_Extend); (0x1E137, 0x1E13D, SB_OLetter); (0x1E140, 0x1E149, SB_Numeric);
  (0x1E14E, 0x1E14E, SB_OLetter); (0x1E290, 0x1E2AD, SB_OLetter); (0x1E2AE, 0x1E2AE, SB_Extend); (0x1E2C0, 0x1E2EB, SB_OLetter);
  (0x1E2EC, 0x1E2EF, SB_Extend); (0x1E2F0, 0x1E2F9, SB_Numeric); (0x1E4D0, 0x1E4EB, SB_OLetter); (0x1E4EC, 0x1E4EF, SB_Extend);
  (0x1E4F0, 0x1E4F9, SB_Numeric); (0x1E5D0, 0x1E5ED, SB_OLetter); (0x1E5EE, 0x1E5EF, SB_Extend); (0x1E5F0, 0x1E5F0, SB_OLetter);
  (0x1E5F1, 0x1E5FA, SB_Numeric); (0x1E6C0, 0x1E6DE, SB_OLetter); (0x1E6E0, 0x1E6E2, SB_OLetter); (0x1E6E3, 0x1E6E3, SB_Extend);
  (0x1E6E4, 0x1E6E5, SB_OLetter); (0x1E6E6, 0x1E6E6, SB_Extend); (0x1E6E7, 0x1E6ED, SB_OLetter); (0x1E6EE, 0x1E6EF, SB_Extend);
  (0x1E6F0, 0x1E6F4, SB_OLetter); (0x1E6F5, 0x1E6F5, SB_Extend); (0x1E6FE, 0x1E6FF, SB_OLetter); (0x1E7E0, 0x1E7E6, SB_OLetter);
  (0x1E7E8, 0x1E7EB, SB_OLetter); (0x1E7ED, 0x1E7EE, SB_OLetter); (0x1E7F0, 0x1E7FE, SB_OLetter); (0x1E800, 0x1E8C4, SB_OLetter);
  (0x1E8D0, 0x1E8D6, SB_Extend); (0x1E900, 0x1E921, SB_Upper); (0x1E922, 0x1E943, SB_Lower); (0x1E944, 0x1E94A, SB_Extend);
  (0x1E94B, 0x1E94B, SB_OLetter); (0x1E950, 0x1E959, SB_Numeric); (0x1EE00, 0x1EE03, SB_OLetter); (0x1EE05, 0x1EE1F, SB_OLetter);
  (0x1EE21, 0x1EE22, SB_OLetter); (0x1EE24, 0x1EE24, SB_OLetter); (0x1EE27, 0x1EE27, SB_OLetter); (0x1EE29, 0x1EE32, SB_OLetter);
  (0x1EE34, 0x1EE37, SB_OLetter); (0x1EE39, 0x1EE39, SB_OLetter); (0x1EE3B, 0x1EE3B, SB_OLetter); (0x1EE42, 0x1EE42, SB_OLetter);
  (0x1EE47, 0x1EE47, SB_OLetter); (0x1EE49, 0x1EE49, SB_OLetter); (0x1EE4B, 0x1EE4B, SB_OLetter); (0x1EE4D, 0x1EE4F, SB_OLetter);
  (0x1EE51, 0x1EE52, SB_OLetter); (0x1EE54, 0x1EE54, SB_OLetter); (0x1EE57, 0x1EE57, SB_OLetter); (0x1EE59, 0x1EE59, SB_OLetter);
  (0x1EE5B, 0x1EE5B, SB_OLetter); (0x1EE5D, 0x1EE5D, SB_OLetter); (0x1EE5F, 0x1EE5F, SB_OLetter); (0x1EE61, 0x1EE62, SB_OLetter);
  (0x1EE64, 0x1EE64, SB_OLetter); (0x1EE67, 0x1EE6A, SB_OLetter); (0x1EE6C, 0x1EE72, SB_OLetter); (0x1EE74, 0x1EE77, SB_OLetter);
  (0x1EE79, 0x1EE7C, SB_OLetter); (0x1EE7E, 0x1EE7E, SB_OLetter); (0x1EE80, 0x1EE89, SB_OLetter); (0x1EE8B, 0x1EE9B, SB_OLetter);
  (0x1EEA1, 0x1EEA3, SB_OLetter); (0x1EEA5, 0x1EEA9, SB_OLetter); (0x1EEAB, 0x1EEBB, SB_OLetter); (0x1F130, 0x1F149, SB_Upper);
  (0x1F150, 0x1F169, SB_Upper); (0x1F170, 0x1F189, SB_Upper); (0x1F676, 0x1F678, SB_Close); (0x1FBF0, 0x1FBF9, SB_Numeric);
  (0x20000, 0x2A6DF, SB_OLetter); (0x2A700, 0x2B81D, SB_OLetter); (0x2B820, 0x2CEAD, SB_OLetter); (0x2CEB0, 0x2EBE0, SB_OLetter);
  (0x2EBF0, 0x2EE5D, SB_OLetter); (0x2F800, 0x2FA1D, SB_OLetter); (0x30000, 0x3134A, SB_OLetter); (0x31350, 0x33479, SB_OLetter);
  (0xE0001, 0xE0001, SB_Format); (0xE0020, 0xE007F, SB_Extend); (0xE0100, 0xE01EF, SB_Extend)
].

Definition extpict_table : list (N * N * bool) := [
  (0xA9, 0xA9, true); (0xAE, 0xAE, true); (0x203C, 0x203C, true); (0x2049, 0x2049, true);
  (0x2122, 0x2122, true); (0x2139, 0x2139, true); (0x2194, 0x2199, true); (0x21A9, 0x21AA, true);
  (0x231A, 0x231B, true); (0x2328, 0x2328, true); (0x23CF, 0x23CF, true); (0x23E9, 0x23F3, true);
  (0x23F8, 0x23FA, true); (0x24C2, 0x24C2, true); (0x25AA, 0x25AB, true); (0x25B6, 0x25B6, true);
  (0x25C0, 0x25C0, true); (0x25FB, 0x25FE, true); (0x2600, 0x2604, true); (0x260E, 0x260E, true);
  (0x2611, 0x2611, true); (0x2614, 0x2615, true); (0x2618, 0x2618, true); (0x261D, 0x261D, true);
  (0x2620, 0x2620, true); (0x2622, 0x2623, true); (0x2626, 0x2626, true); (0x262A, 0x262A, true);
  (0x262E, 0x262F, true); (0x2638, 0x263A, true); (0x2640, 0x2640, true); (0x2642, 0x2642, true);
  (0x2648, 0x2653, true); (0x265F, 0x2660, true); (0x2663, 0x2663, true); (0x2665, 0x2666, true);
  (0x2668, 0x2668, true); (0x267B, 0x267B, true); (0x267E, 0x267F, true); (0x2692, 0x2697, true);
  (0x2699, 0x2699, true); (0x269B, 0x269C, true); (0x26A0, 0x26A1, true); (0x26A7, 0x26A7, true);
  (0x26AA, 0x26AB, true); (0x26B0, 0x26B1, true); (0x26BD, 0x26BE, true); (0x26C4, 0x26C5, true);
  (0x26C8, 0x26C8, true); (0x26CE, 0x26CF, true); (0x26D1, 0x26D1, true); (0x26D3, 0x26D4, true);
  (0x26E9, 0x26EA, true); (0x26F0, 0x26F5, true); (0x26F7, 0x26FA, true); (0x26FD, 0x26FD, true);
  (0x2702, 0x2702, true); (0x2705, 0x2705, true); (0x2708, 0x270D, true); (0x270F, 0x270F, true);
  (0x2712, 0x2712, true); (0x2714, 0x2714, true); (0x2716, 0x2716, true); (0x271D, 0x271D, true);
  (0x2721, 0x2721, true); (0x2728, 0x2728, true); (0x2733, 0x2734, true); (0x2744, 0x2744, true);
  (0x2747, 0x2747, true); (0x274C, 0x274C, true); (0x274E, 0x274E, true); (0x2753, 0x2755, true);
  (0x2757, 0x2757, true); (0x2763, 0x2764, true); (0x2795, 0x2797, true); (0x27A1, 0x27A1, true);
  (0x27B0, 0x27B0, true); (0x27BF, 0x27BF, true); (0x2934, 0x2935, true); (0x2B05, 0x2B07, true);
  (0x2B1B, 0x2B1C, true); (0x2B50, 0x2B50, true); (0x2B55, 0x2B55, true); (0x3030, 0x3030, true);
  (0x303D, 0x303D, true); (0x3297, 0x3297, true); (0x3299, 0x3299, true); (0x1F004, 0x1F004, true);
  (0x1F02C, 0x1F02F, true); (0x1F094, 0x1F09F, true); (0x1F0AF, 0x1F0B0, true); (0x1F0C0, 0x1F0C0, true);
  (0x1F0CF, 0x1F0D0, true); (0x1F0F6, 0x1F0FF, true); (0x1F170, 0x1F171, true); (0x1F17E, 0x1F17F, true);
  (0x1F18E, 0x1F18E, true); (0x1F191, 0x1F19A, true); (0x1F1AE, 0x1F1E5, true); (0x1F201, 0x1F20F, true);
  (0x1F21A, 0x1F21A, true); (0x1F22F, 0x1F22F, true); (0x1F232, 0x1F23A, true); (0x1F23C, 0x1F23F, true);
  (0x1F249, 0x1F25F, true); (0x1F266, 0x1F321, true); (0x1F324, 0x1F393, true); (0x1F396, 0x1F397, true);
  (0x1F399, 0x1F39B, true); (0x1F39E, 0x1F3F0, true); (0x1F3F3, 0x1F3F5, true); (0x1F3F7, 0x1F3FA, true);
  (0x1F400, 0x1F4FD, true); (0x1F4FF, 0x1F53D, true); (0x1F549, 0x1F54E, true); (0x1F550, 0x1F567, true);
  (0x1F56F, 0x1F570, true); (0x1F573, 0x1F57A, true); (0x1F587, 0x1F587, true); (0x1F58A, 0x1F58D, true);
  (0x1F590, 0x1F590, true); (0x1F595, 0x1F596, true); (0x1F5A4, 0x1F5A5, true); (0x1F5A8, 0x1F5A8, true);
  (0x1F5B1, 0x1F5B2, true); (0x1F5BC, 0x1F5BC, true); (0x1F5C2, 0x1F5C4, true); (0x1F5D1, 0x1F5D3, true);
  (0x1F5DC, 0x1F5DE, true); (0x1F5E1, 0x1F5E1, true); (0x1F5E3, 0x1F5E3, true); (0x1F5E8, 0x1F5E8, true);
  (0x1F5EF, 0x1F5EF, true); (0x1F5F3, 0x1F5F3, true); (0x1F5FA, 0x1F64F, true); (0x1F680, 0x1F6C5, true);
  (0x1F6CB, 0x1F6D2, true); (0x1F6D5, 0x1F6E5, true); (0x1F6E9, 0x1F6E9, true); (0x1F6EB, 0x1F6F0, true);
  (0x1F6F3, 0x1F6FF, true); (0x1F7DA, 0x1F7FF, true); (0x1F80C, 0x1F80F, true); (0x1F848, 0x1F84F, true);
  (0x1F85A, 0x1F85F, true); (0x1F888, 0x1F88F, true); (0x1F8AE, 0x1F8AF, true); (0x1F8BC, 0x1F8BF, true);
  (0x1F8C2, 0x1F8CF, true); (0x1F8D9, 0x1F8FF, true); (0x1F90C, 0x1F93A, true); (0x1F93C, 0x1F945, true);
  (0x1F947, 0x1F9FF, true); (0x1FA58, 0x1FA5F, true); (0x1FA6E, 0x1FAFF, true); (0x1FC00, 0x1FFFD, true)
].

Definition ideographic_table : list (N * N * bool) := [
  (0x2E80, 0x2E99, true); (0x2E9B, 0x2EF3, true); (0x2F00, 0x2FD5, true); (0x3005, 0x3005, true);
  (0x3007, 0x3007, true); (0x3021, 0x3029, true); (0x3031, 0x3035, true); (0x3038, 0x303B, true);
  (0x3041, 0x3096, true); (0x309B, 0x30FA, true); (0x30FC, 0x30FF, true); (0x31F0, 0x31FF, true);
  (0x32D0, 0x32FE, true); (0x3300, 0x3357, true); (0x3400, 0x4DBF, true); (0x4E00, 0x9FFF, true);
  (0xF900, 0xFA6D, true); (0xFA70, 0xFAD9, true); (0xFF66, 0xFF9D, true); (0x16FE2, 0x16FE3, true);
  (0x16FF0, 0x16FF1, true); (0x1AFF0, 0x1AFF3, true); (0x1AFF5, 0x1AFFB, true); (0x1AFFD, 0x1AFFE, true);
  (0x1B000, 0x1B122, true); (0x1B132, 0x1B132, true); (0x1B150, 0x1B152, true); (0x1B155, 0x1B155, true);
  (0x1B164, 0x1B167, true); (0x1F200, 0x1F200, true); (0x20000, 0x2A6DF, true); (0x2A700, 0x2B739, true);
  (0x2B740, 0x2B81D, true); (0x2B820, 0x2CEA1, true); (0x2CEB0, 0x2EBE0, true); (0x2F800, 0x2FA1D, true);
  (0x30000, 0x3134A, true); (0x31350, 0x323AF, true)
].

(** Grapheme_Cluster_Break *)
Definition GCB (cp : N) : gcb := range_value GCB_Other gcb_table cp.
(** Indic_Conjunct_Break *)
Definition InCB (cp : N) : incb := range_value InCB_Other incb_table cp.
(** Word_Break *)
Definition WB (cp : N) : wb := range_value WB_Other wb_table cp.
(** Sentence_Break *)
Definition SB (cp : N) : sb := range_value SB_Other sb_table cp.
(** Extended_Pictographic *)
Definition ExtPict (cp : N) : bool := range_value false extpict_table cp.
(** Ideographs, Hiragana and Katakana, as used by the Bleve compatible functions of package words *)
Definition BleveIdeographic (cp : N) : bool := range_value false ideographic_table cp.
