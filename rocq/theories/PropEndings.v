(** C79: how lines end moves no boundary. *)
From Verif Require Import Base ListFacts SpecUtf8 SpecIter SpecApi SpecRules SegFacts ApiInst ConformApi TextFacts SpecEndings EndingFacts EndingSeg EndingRules.

(** A text and the same text with LF at the end of each line: the same tokens, with LF at the end of each line. *)
Definition converted_alike (A : api) : Prop := forall cps fuel, scalars cps -> length (encode cps) < fuel ->
  exists segs, tokens A fuel (a_new A (encode cps)) = Ok (map encode segs) /\ concat segs = cps
    /\ tokens A fuel (a_new A (encode (unix cps))) = Ok (map (fun s => encode (unix s)) segs).
(** Two texts that differ only in how their lines end: as many tokens, and they differ in the same way. *)
Definition ended_alike (A : api) : Prop := forall cps cps' fuel, scalars cps -> scalars cps' -> unix cps = unix cps' -> length (encode cps) < fuel -> length (encode cps') < fuel ->
  exists segs segs', tokens A fuel (a_new A (encode cps)) = Ok (map encode segs) /\ tokens A fuel (a_new A (encode cps')) = Ok (map encode segs')
    /\ Forall2 (fun s s' => unix s = unix s') segs segs'.

Lemma utf8_some : forall c, 1 <= length (utf8 c).
Proof. intros c. unfold utf8. repeat destruct (_ <? _)%N; cbn; lia. Qed.
Lemma unix_scalars : forall n cps, length cps <= n -> scalars cps -> scalars (unix cps) /\ length (encode (unix cps)) <= length (encode cps).
Proof.
  assert (E : forall c t, length (encode (c :: t)) = length (utf8 c) + length (encode t)) by (intros c t; unfold encode; cbn [map concat]; apply app_length).
  assert (S10 : scalar 10) by (left; reflexivity). assert (L10 : length (utf8 10) = 1) by reflexivity.
  induction n as [|n IH]; intros [|c t] L S; cbn [length] in L; try (split; [constructor|cbn; lia]); [lia|]. pose proof (utf8_some c) as U. destruct (N.eq_dec c 13) as [->|Nc].
  - destruct t as [|d t]; [split; [constructor; [exact S10|constructor]|cbn; lia]|]. cbn [length] in L. destruct (N.eq_dec d 10) as [->|Nd].
    + rewrite unix_crlf, !E, L10. destruct (IH t ltac:(lia) (Forall_inv_tail (Forall_inv_tail S))) as (A & B). split; [constructor; assumption|lia].
    + rewrite unix_cr by (cbn; congruence). destruct (IH (d :: t) ltac:(cbn; lia) (Forall_inv_tail S)) as (A & B). rewrite (E 10%N), (E 13%N), L10. split; [constructor; assumption|lia].
  - rewrite (unix_cons c t Nc). destruct (IH t ltac:(lia) (Forall_inv_tail S)) as (A & B). rewrite !E. destruct (ends_line c); [rewrite L10|]; (split; [constructor; [|exact A]|lia]); [exact S10|exact (Forall_inv S)].
Qed.
Lemma alike : forall A (D : text -> text -> op -> Prop), tokens_are_segments A D -> (forall cps segs, segmentation D cps segs -> segmentation D (unix cps) (map unix segs)) ->
  converted_alike A /\ ended_alike A.
Proof.
  intros A D C X. split.
  - intros cps fuel Hs Hf. destruct (unix_scalars _ cps (le_n _) Hs) as (S' & L). destruct (C cps fuel Hs Hf) as (segs & T & G). destruct (C _ fuel S' ltac:(lia)) as (segs' & T' & G').
    exists segs. split; [exact T|]. split; [exact (proj1 G)|]. rewrite T', (segmentation_unique _ _ _ _ G' (X _ _ G)), map_map. reflexivity.
  - intros cps cps' fuel Hs Hs' E Hf Hf'. destruct (C cps fuel Hs Hf) as (segs & T & G). destruct (C cps' fuel Hs' Hf') as (segs' & T' & G'). exists segs, segs'. split; [exact T|]. split; [exact T'|].
    apply X in G, G'. rewrite E in G. pose proof (segmentation_unique _ _ _ _ G G') as M. clear - M. revert segs' M. induction segs as [|s segs IH]; intros [|s' segs'] M; try discriminate; constructor; cbn in M; injection M as M1 M2; auto.
Qed.

Theorem C79_graphemes : converted_alike graphemes_api. Proof. exact (proj1 (alike _ _ g_segments g_unix)). Qed.
Print Assumptions C79_graphemes.
Theorem C79_words : converted_alike words_api. Proof. exact (proj1 (alike _ _ w_segments w_unix)). Qed.
Print Assumptions C79_words.
Theorem C79_phrases : converted_alike phrases_api. Proof. exact (proj1 (alike _ _ p_segments p_unix)). Qed.
Print Assumptions C79_phrases.
Theorem C79_sentences : converted_alike sentences_api. Proof. exact (proj1 (alike _ _ s_segments s_unix)). Qed.
Print Assumptions C79_sentences.
Theorem C79_endings : ended_alike graphemes_api /\ ended_alike words_api /\ ended_alike phrases_api /\ ended_alike sentences_api.
Proof. exact (conj (proj2 (alike _ _ g_segments g_unix)) (conj (proj2 (alike _ _ w_segments w_unix)) (conj (proj2 (alike _ _ p_segments p_unix)) (proj2 (alike _ _ s_segments s_unix))))). Qed.
Print Assumptions C79_endings.

(** A form feed is no such line end: replaced by LF, it ends a sentence.  It does end words, phrases and graphemes like one. *)
Definition paged (t : text) : text := map (fun c => if (c =? 0x0C)%N then 0x0A%N else c) t.
Theorem C79_form_feed_refuted : exists cps, scalars cps /\ tokens sentences_api 20 (a_new sentences_api (encode cps)) = Ok [encode cps]
  /\ tokens sentences_api 20 (a_new sentences_api (encode (paged cps))) = Ok (map encode [[97; 10]; [98]]%N).
Proof. exists [97; 0x0C; 98]%N. split; [repeat constructor; left; reflexivity|]. split; vm_compute; reflexivity. Qed.
Print Assumptions C79_form_feed_refuted.

(** "a.", CR LF, "b", CR, CR LF, NEL, "c." and a paragraph separator: a case of the hypotheses. *)
Example C79_case : let t := [97; 46; 13; 10; 98; 13; 13; 10; 0x85; 99; 46; 0x2029]%N in
  scalars t /\ unix t = [97; 46; 10; 98; 10; 10; 10; 99; 46; 10]%N
  /\ tokens sentences_api 40 (a_new sentences_api (encode t)) = Ok (map encode [[97; 46; 13; 10]; [98; 13]; [13; 10]; [0x85]; [99; 46; 0x2029]]%N)
  /\ tokens sentences_api 40 (a_new sentences_api (encode (unix t))) = Ok (map encode [[97; 46; 10]; [98; 10]; [10]; [10]; [99; 46; 10]]%N)
  /\ tokens words_api 40 (a_new words_api (encode t)) = Ok (map encode [[97]; [46]; [13; 10]; [98]; [13]; [13; 10]; [0x85]; [99]; [46]; [0x2029]]%N).
Proof. cbv zeta. split; [repeat (apply Forall_cons; [left; reflexivity|]); apply Forall_nil|]. split; [vm_compute; reflexivity|]. split; [vm_compute; reflexivity|]. split; vm_compute; reflexivity. Qed.
