(** C66: plain text is cut the familiar way. *)
From Verif Require Import Base SpecUtf8 SpecIter SpecApi SpecUcd SpecRules SpecPlain SegFacts ConformApi ApiInst PropConform ClusterAscii PlainFacts PlainApi.
From Verif Require Words Phrases Sentences.

(** Words of a text in which nothing joins letters or numbers across it: a character stays with the one before it as the two of them say. *)
Theorem C66_words : forall cps fuel, scalars cps -> Forall (fun c => plain_word c = true) cps -> length (encode cps) < fuel ->
  tokens words_api fuel (Words.FromBytes (encode cps)) = Ok (map encode (cut_where stays_word cps)).
Proof.
  intros cps fuel Hs F Hf. destruct (C06_words_are_uax29 cps fuel Hs Hf) as (segs & E & _ & U). rewrite (U _ (words_plain cps F)). exact E.
Qed.
Print Assumptions C66_words.
Theorem C66_phrases : forall cps fuel, scalars cps -> Forall (fun c => plain_word c = true) cps -> length (encode cps) < fuel ->
  tokens phrases_api fuel (Phrases.FromBytes (encode cps)) = Ok (map encode (cut_where stays_phrase cps)).
Proof.
  intros cps fuel Hs F Hf. destruct (C08_phrases_are_tailored_words cps fuel Hs Hf) as (segs & E & _ & U). rewrite (U _ (phrases_plain cps Hs F)). exact E.
Qed.
Print Assumptions C66_phrases.
(** A text without terminators is cut into its lines. *)
Theorem C66_sentences : forall cps fuel, scalars cps -> Forall (fun c => no_term c = true) cps -> length (encode cps) < fuel ->
  tokens sentences_api fuel (Sentences.FromBytes (encode cps)) = Ok (map encode (cut_where stays_line cps)).
Proof.
  intros cps fuel Hs F Hf. destruct (C07_sentences_are_uax29 cps fuel Hs Hf) as (segs & E & _ & U). rewrite (U _ (sentences_plain cps F)). exact E.
Qed.
Print Assumptions C66_sentences.

(** ASCII, in terms of bytes alone *)
Theorem C66_ascii_words : forall d fuel, Forall (fun c => (c < 128)%N /\ joint_byte c = false) d -> length d < fuel ->
  tokens words_api fuel (Words.FromBytes d) = Ok (cut_where ascii_word d).
Proof.
  intros d fuel F Hf. assert (A : Forall ascii d) by (eapply Forall_impl; [|exact F]; intros c (H & _); exact H). pose proof (ascii_encode d A) as E.
  assert (Fp : Forall (fun c => plain_word c = true) d) by (eapply Forall_impl; [|exact F]; intros c (H & J); cbv beta; rewrite (ascii_plain c H), J; reflexivity).
  pose proof (C66_words d fuel (ascii_scalars d A) Fp ltac:(rewrite E; exact Hf)) as T. rewrite E in T. rewrite T, (cut_ext _ _ d ascii_stays_word A). f_equal.
  apply ascii_map_encode. rewrite cut_concat. exact A.
Qed.
Print Assumptions C66_ascii_words.
Theorem C66_ascii_phrases : forall d fuel, Forall (fun c => (c < 128)%N /\ joint_byte c = false) d -> length d < fuel ->
  tokens phrases_api fuel (Phrases.FromBytes d) = Ok (cut_where ascii_phrase d).
Proof.
  intros d fuel F Hf. assert (A : Forall ascii d) by (eapply Forall_impl; [|exact F]; intros c (H & _); exact H). pose proof (ascii_encode d A) as E.
  assert (Fp : Forall (fun c => plain_word c = true) d) by (eapply Forall_impl; [|exact F]; intros c (H & J); cbv beta; rewrite (ascii_plain c H), J; reflexivity).
  pose proof (C66_phrases d fuel (ascii_scalars d A) Fp ltac:(rewrite E; exact Hf)) as T. rewrite E in T. rewrite T, (cut_ext _ _ d ascii_stays_phrase A). f_equal.
  apply ascii_map_encode. rewrite cut_concat. exact A.
Qed.
Print Assumptions C66_ascii_phrases.
Theorem C66_ascii_sentences : forall d fuel, Forall (fun c => (c < 128)%N /\ term_byte c = false) d -> length d < fuel ->
  tokens sentences_api fuel (Sentences.FromBytes d) = Ok (cut_where ascii_line d).
Proof.
  intros d fuel F Hf. assert (A : Forall ascii d) by (eapply Forall_impl; [|exact F]; intros c (H & _); exact H). pose proof (ascii_encode d A) as E.
  assert (Fp : Forall (fun c => no_term c = true) d) by (eapply Forall_impl; [|exact F]; intros c (H & J); cbv beta; rewrite (ascii_no_term c H), J; reflexivity).
  pose proof (C66_sentences d fuel (ascii_scalars d A) Fp ltac:(rewrite E; exact Hf)) as T. rewrite E in T. rewrite T, (cut_ext _ _ d ascii_stays_line A). f_equal.
  apply ascii_map_encode. rewrite cut_concat. exact A.
Qed.
Print Assumptions C66_ascii_sentences.

(** "Hi  (x_1)", CR LF, "yo" *)
Definition text66 : list N := [72; 105; 32; 32; 40; 120; 95; 49; 41; 13; 10; 121; 111]%N.
Example C66_case : Forall (fun c => (c < 128)%N /\ joint_byte c = false) text66 /\ Forall (fun c => (c < 128)%N /\ term_byte c = false) text66
  /\ cut_where ascii_word text66 = [[72; 105]; [32; 32]; [40]; [120; 95; 49]; [41]; [13; 10]; [121; 111]]%N
  /\ cut_where ascii_phrase text66 = [[72; 105; 32; 32]; [40]; [120; 95; 49]; [41]; [13; 10]; [121; 111]]%N
  /\ cut_where ascii_line text66 = [[72; 105; 32; 32; 40; 120; 95; 49; 41; 13; 10]; [121; 111]]%N.
Proof.
  split; [repeat (apply Forall_cons; [split; [lia|reflexivity]|]); apply Forall_nil|]. split; [repeat (apply Forall_cons; [split; [lia|reflexivity]|]); apply Forall_nil|].
  split; [vm_compute; reflexivity|]. split; vm_compute; reflexivity.
Qed.
(** Beyond ASCII: Greek, Hebrew, Katakana, a pictograph and an ideograph. Sentences: a combining acute does not stay with the line separator before it. *)
Example C66_case_unicode :
  let w := [0x3B1; 0x3B2; 0x5D0; 49; 0x30AB; 0x30BF; 95; 97; 0x1F600; 0x4E00; 0x4E01]%N in let s := [97; 0x301; 0x2028; 0x301; 98]%N in
  Forall (fun c => plain_word c = true) w /\ cut_where stays_word w = [[0x3B1; 0x3B2; 0x5D0; 49]; [0x30AB; 0x30BF; 95; 97]; [0x1F600]; [0x4E00]; [0x4E01]]%N
  /\ cut_where stays_phrase w = [[0x3B1; 0x3B2; 0x5D0; 49]; [0x30AB; 0x30BF; 95; 97; 0x1F600]; [0x4E00]; [0x4E01]]%N
  /\ Forall (fun c => no_term c = true) s /\ cut_where stays_line s = [[97; 0x301; 0x2028]; [0x301; 98]]%N.
Proof.
  cbv zeta. split; [repeat (apply Forall_cons; [vm_compute; reflexivity|]); apply Forall_nil|]. split; [vm_compute; reflexivity|]. split; [vm_compute; reflexivity|].
  split; [repeat (apply Forall_cons; [vm_compute; reflexivity|]); apply Forall_nil|]. vm_compute; reflexivity.
Qed.
