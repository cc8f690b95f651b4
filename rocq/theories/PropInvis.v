(** C80: soft hyphens, directional marks and other invisible characters do not take part in words and sentences. *)
From Verif Require Import Base ListFacts SpecUtf8 SpecIter SpecApi SpecRules SegFacts ApiInst ConformApi TextFacts SpecInvis InvisRules.
From Verif Require SpecWords SpecSentences WordsConform PhrasesConform.

(** Removing such characters before cutting, or from the tokens after cutting, comes to the same. *)
Definition stripped_alike (A : api) (f : text -> text) : Prop := forall cps fuel, scalars cps -> length (encode cps) < fuel ->
  exists segs, tokens A fuel (a_new A (encode cps)) = Ok (map encode segs) /\ concat segs = cps
    /\ tokens A fuel (a_new A (encode (f cps))) = Ok (map (fun s => encode (f s)) segs).

Lemma strip_scalars : forall inv holds t h, scalars t -> scalars (strip_from inv holds h t) /\ length (encode (strip_from inv holds h t)) <= length (encode t).
Proof.
  assert (E : forall c t, length (encode (c :: t)) = length (utf8 c) + length (encode t)) by (intros c t; unfold encode; cbn [map concat]; apply app_length).
  intros inv holds t. induction t as [|c t IH]; intros h S; [split; [constructor|cbn; lia]|]. cbn [strip_from]. rewrite E. destruct (h && inv c).
  - destruct (IH true (Forall_inv_tail S)) as (A & B). split; [exact A|lia].
  - destruct (IH (holds c) (Forall_inv_tail S)) as (A & B). rewrite E. split; [constructor; [exact (Forall_inv S)|exact A]|lia].
Qed.
Lemma alike : forall A (D : text -> text -> op -> Prop) inv holds, tokens_are_segments A D ->
  (forall t segs segs', segmentation D t segs -> segmentation D (strip inv holds t) segs' -> segs' = map (strip inv holds) segs) -> stripped_alike A (strip inv holds).
Proof.
  intros A D inv holds C X cps fuel Hs Hf. destruct (strip_scalars inv holds cps false Hs) as (S' & L). fold (strip inv holds cps) in *.
  destruct (C cps fuel Hs Hf) as (segs & T & G). destruct (C _ fuel S' ltac:(lia)) as (segs' & T' & G'). exists segs. split; [exact T|]. split; [exact (proj1 G)|]. rewrite T', (X _ _ _ G G'), map_map. reflexivity.
Qed.

Theorem C80_words : stripped_alike words_api w_strip.
Proof. exact (alike _ _ _ _ w_segments (seg_strip _ _ _ _ w_inv w_hold _ (like_marks _ _ WordsConform.w_disjoint))). Qed.
Print Assumptions C80_words.
Theorem C80_phrases : stripped_alike phrases_api w_strip.
Proof. exact (alike _ _ _ _ p_segments (seg_strip _ _ _ _ w_inv w_hold _ (like_marks _ _ PhrasesConform.p_disjoint))). Qed.
Print Assumptions C80_phrases.
Theorem C80_sentences : stripped_alike sentences_api s_strip.
Proof. exact (alike _ _ _ _ s_segments (seg_strip _ _ _ _ s_inv s_hold _ s_marks)). Qed.
Print Assumptions C80_sentences.

(** After a space they do take part: a soft hyphen between two spaces parts them, and one between a zero width joiner and a pictograph parts these. *)
Theorem C80_space_refuted : let hyphen := 0xAD%N in
  tokens words_api 20 (a_new words_api (encode [32; hyphen; 32]%N)) = Ok (map encode [[32; hyphen]; [32]]%N) /\ tokens words_api 20 (a_new words_api (encode [32; 32]%N)) = Ok (map encode [[32; 32]]%N)
  /\ tokens words_api 20 (a_new words_api (encode [0x200D; hyphen; 0x2764]%N)) = Ok (map encode [[0x200D; hyphen]; [0x2764]]%N) /\ tokens words_api 20 (a_new words_api (encode [0x200D; 0x2764]%N)) = Ok (map encode [[0x200D; 0x2764]]%N).
Proof. cbv zeta. split; [vm_compute; reflexivity|]. split; [vm_compute; reflexivity|]. split; vm_compute; reflexivity. Qed.
Print Assumptions C80_space_refuted.
(** To graphemes they are characters like others. *)
Theorem C80_graphemes_refuted : tokens graphemes_api 20 (a_new graphemes_api (encode [97; 0xAD; 0x301]%N)) = Ok (map encode [[97]; [0xAD]; [0x301]]%N)
  /\ tokens graphemes_api 20 (a_new graphemes_api (encode [97; 0x301]%N)) = Ok (map encode [[97; 0x301]]%N).
Proof. split; vm_compute; reflexivity. Qed.
Print Assumptions C80_graphemes_refuted.

(** "co-op, e'" with a soft hyphen, a left-to-right mark before the comma, one after the space, and an accent: a case of the hypotheses. *)
Example C80_case : let t := [99; 111; 0xAD; 111; 112; 0x200E; 44; 32; 0x200E; 101; 0x301]%N in
  scalars t /\ w_strip t = [99; 111; 111; 112; 44; 32; 0x200E; 101]%N
  /\ tokens words_api 40 (a_new words_api (encode t)) = Ok (map encode [[99; 111; 0xAD; 111; 112; 0x200E]; [44]; [32; 0x200E]; [101; 0x301]]%N)
  /\ tokens words_api 40 (a_new words_api (encode (w_strip t))) = Ok (map encode [[99; 111; 111; 112]; [44]; [32; 0x200E]; [101]]%N)
  /\ map w_strip [[99; 111; 0xAD; 111; 112; 0x200E]; [44]; [32; 0x200E]; [101; 0x301]]%N = [[99; 111; 111; 112]; [44]; [32; 0x200E]; [101]]%N.
Proof. cbv zeta. split; [repeat (apply Forall_cons; [left; reflexivity|]); apply Forall_nil|]. split; [vm_compute; reflexivity|]. split; [vm_compute; reflexivity|]. split; vm_compute; reflexivity. Qed.
