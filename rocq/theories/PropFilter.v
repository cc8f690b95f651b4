(** C41: filter.AlphaNumeric, for every byte string and every classification of runes. *)
From Verif Require Import Base SpecUtf8 SpecRunes Filter FilterFacts.
Local Open Scope N_scope.

(** Every byte string has exactly one list of runes ... *)
Theorem C41_runes : forall d, exists l, runes d l /\ forall l', runes d l' -> l = l'.
Proof. intros d. destruct (runes_ex d) as (l & H). exists l. split; [exact H|]. apply runes_fun. exact H. Qed.
(** ... and the filter looks for a letter or number in it. *)
Theorem C41_alphanumeric : forall IsLetter IsNumber token l, runes token l ->
  exists b, AlphaNumeric IsLetter IsNumber token = Ok b /\ (b = true <-> exists r, In r l /\ (IsLetter r = true \/ IsNumber r = true)).
Proof. exact alphanumeric_runes. Qed.
(** For well-formed text these are its code points. *)
Theorem C41_text : forall IsLetter IsNumber cps, scalars cps ->
  exists b, AlphaNumeric IsLetter IsNumber (encode cps) = Ok b /\ (b = true <-> exists c, In c cps /\ (IsLetter c = true \/ IsNumber c = true)).
Proof. intros IsLetter IsNumber cps S. apply alphanumeric_runes. apply runes_encode. exact S. Qed.

(** A stray lead byte, then "a": the runes are U+FFFD and 'a', and the letter is found. *)
Example C41_case : runes [0xE2; 0x61] [0xFFFD; 0x61] /\ AlphaNumeric (N.eqb 0x61) (N.eqb 0x31) [0xE2; 0x61] = Ok true
  /\ AlphaNumeric (N.eqb 0x61) (N.eqb 0x31) [0xE2; 0x82; 0xAC] = Ok false.
Proof.
  split; [|vm_compute; auto]. destruct (runes_ex [0xE2; 0x61]) as (l & H). enough (l = [0xFFFD; 0x61]) by congruence.
  inversion H as [|x z l0 Sx H0 E|b z l0 HB H0]; subst.
  { pose proof (DecodeFacts.decode_utf8 x z Sx) as D. rewrite E in D. vm_compute in D. injection D as <- D. vm_compute in D. discriminate. }
  f_equal. apply (runes_fun _ _ H0). change [0x61] with (utf8 0x61 ++ []). constructor; [left; reflexivity|constructor].
Qed.

Print Assumptions C41_runes.
Print Assumptions C41_alphanumeric.
Print Assumptions C41_text.
