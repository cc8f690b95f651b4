(** C39, C40: the Bleve compatible functions decide their grammars, for every byte string. *)
From Verif Require Import Base SpecUtf8 SpecUcd SpecWords SpecBleve BleveFacts Conform.
From Verif Require Words.
Local Open Scope N_scope.

Theorem C39_numeric : forall token, exists b, Words.BleveNumeric token = Ok b
  /\ (b = true <-> exists cps, scalars cps /\ token = encode cps /\ bleve_numeric cps).
Proof. exact numeric_correct. Qed.

(** "3,14" is accepted, also with a soft hyphen before the 1; "3," and "a" and a truncated "3\xD9" are not. *)
Example C39_case : bleve_numeric [0x33; 0x2C; 0xAD; 0x31; 0x34] /\ Words.BleveNumeric (encode [0x33; 0x2C; 0xAD; 0x31; 0x34]) = Ok true
  /\ Words.BleveNumeric [0x33; 0x2C] = Ok false /\ Words.BleveNumeric [0x61] = Ok false /\ Words.BleveNumeric [0x33; 0xD9] = Ok false.
Proof.
  split; [|vm_compute; auto]. left. split; [reflexivity|]. apply (nr_mid 0x2C [0xAD] 0x31); [left; reflexivity|repeat constructor|reflexivity|].
  apply nr_numeric; [reflexivity|constructor].
Qed.

Theorem C40_ideographic : forall token, exists b, Words.BleveIdeographic token = Ok b
  /\ (b = true <-> exists cps, scalars cps /\ token = encode cps /\ bleve_ideographic cps).
Proof. exact ideographic_correct. Qed.

(** A kanji, a variation selector and a hiragana are accepted; a letter after a kanji, or a truncated kanji, is not. *)
Example C40_case : bleve_ideographic [0x4E16; 0xFE00; 0x306E] /\ Words.BleveIdeographic (encode [0x4E16; 0xFE00; 0x306E]) = Ok true
  /\ Words.BleveIdeographic (encode [0x4E16; 0x61]) = Ok false /\ Words.BleveIdeographic [0xE4; 0xB8; 0x96; 0xE4; 0xB8] = Ok false.
Proof. split; [|vm_compute; auto]. split; [reflexivity|]. constructor; [right; right; reflexivity|]. constructor; [left; reflexivity|constructor]. Qed.

Print Assumptions C39_numeric.
Print Assumptions C40_ideographic.
