(** C69: writing Hangul syllables as conjoining jamo, or the other way round, moves no boundary. *)
From Verif Require Import Base ListFacts SpecUtf8 SpecIter SpecApi SpecRules SegFacts ApiInst ConformApi TextFacts SpecHangul HangulFacts HangulProps HangulRules.

(** A text and its decomposition: the same tokens, decomposed. *)
Definition decomposed_alike (A : api) : Prop := forall cps fuel, scalars cps -> length (encode (decompose cps)) < fuel ->
  exists segs, tokens A fuel (a_new A (encode cps)) = Ok (map encode segs) /\ concat segs = cps
    /\ tokens A fuel (a_new A (encode (decompose cps))) = Ok (map (fun s => encode (decompose s)) segs).
(** Two texts that differ only in how syllables are written: as many tokens, and they differ in the same way. *)
Definition spelled_alike (A : api) : Prop := forall cps cps' fuel, scalars cps -> scalars cps' -> decompose cps = decompose cps' -> length (encode (decompose cps)) < fuel ->
  exists segs segs', tokens A fuel (a_new A (encode cps)) = Ok (map encode segs) /\ tokens A fuel (a_new A (encode cps')) = Ok (map encode segs')
    /\ Forall2 (fun s s' => decompose s = decompose s') segs segs'.

Lemma jamo_scalar : forall c, scalar c -> scalars (jamo c) /\ length (utf8 c) <= length (encode (jamo c)).
Proof.
  intros c H. unfold jamo. destruct (syllable c) eqn:E; [|split; [apply Forall_cons; [exact H|apply Forall_nil]|unfold encode; cbn [map concat]; rewrite app_nil_r; lia]].
  unfold syllable in E. apply andb_prop in E. destruct E as (E1 & E2). apply N.leb_le in E1. apply N.ltb_lt in E2. cbv zeta.
  assert (L : ((c - SBase) / NCount < 19)%N) by (apply N.div_lt_upper_bound; [discriminate|change (NCount * 19)%N with SCount; lia]).
  assert (V : (((c - SBase) mod NCount) / TCount < 21)%N) by (apply N.div_lt_upper_bound; [discriminate|change (TCount * 21)%N with NCount; apply N.mod_lt; discriminate]).
  assert (T : ((c - SBase) mod TCount < 28)%N) by (apply N.mod_lt; discriminate).
  revert L V T. generalize ((c - SBase) / NCount)%N, (((c - SBase) mod NCount) / TCount)%N, ((c - SBase) mod TCount)%N. intros l v t L V T.
  assert (U : length (utf8 c) = 3).
  { unfold utf8. assert (X : (0xAC00 <= c < 0x10000)%N) by (unfold SBase in *; change SCount with 11172%N in E2; lia). destruct (N.ltb_spec c 0x80) as [|_]; [lia|]. destruct (N.ltb_spec c 0x800) as [|_]; [lia|]. destruct (N.ltb_spec c 0x10000) as [_|]; [reflexivity|lia]. }
  assert (W : forall x, (0x1100 <= x < 0x1200)%N -> scalar x /\ length (utf8 x) = 3).
  { intros x X. split; [left; lia|]. unfold utf8. destruct (N.ltb_spec x 0x80) as [|_]; [lia|]. destruct (N.ltb_spec x 0x800) as [|_]; [lia|]. destruct (N.ltb_spec x 0x10000) as [_|]; [reflexivity|lia]. }
  destruct (W (LBase + l)%N ltac:(unfold LBase; lia)) as (A1 & B1). destruct (W (VBase + v)%N ltac:(unfold VBase; lia)) as (A2 & B2). destruct (W (TBase + t)%N ltac:(unfold TBase; lia)) as (A3 & B3).
  rewrite U. destruct (TBase + t =? TBase)%N; unfold encode; cbn [map concat]; rewrite !app_length, B1; (split; [repeat (first [apply Forall_nil|apply Forall_cons; [assumption|]])|lia]).
Qed.
Lemma decompose_scalars : forall cps, scalars cps -> scalars (decompose cps) /\ length (encode cps) <= length (encode (decompose cps)).
Proof.
  intros cps H. induction H as [|c cps H F (IH1 & IH2)]; [split; [constructor|cbn; lia]|]. destruct (jamo_scalar c H) as (J1 & J2). unfold decompose in *. cbn [flat_map]. split; [apply Forall_app; split; assumption|].
  unfold encode in *. rewrite map_app, concat_app. cbn [map concat]. rewrite !app_length. lia.
Qed.
Lemma alike : forall A (D : text -> text -> op -> Prop), tokens_are_segments A D -> (forall cps segs, segmentation D cps segs -> segmentation D (decompose cps) (map decompose segs)) ->
  decomposed_alike A /\ spelled_alike A.
Proof.
  intros A D C X. split.
  - intros cps fuel Hs Hf. destruct (decompose_scalars cps Hs) as (S' & L). destruct (C cps fuel Hs ltac:(lia)) as (segs & T & G). destruct (C _ fuel S' Hf) as (segs' & T' & G').
    exists segs. split; [exact T|]. split; [exact (proj1 G)|]. rewrite T', (segmentation_unique _ _ _ _ G' (X _ _ G)), map_map. reflexivity.
  - intros cps cps' fuel Hs Hs' E Hf. destruct (decompose_scalars cps Hs) as (S1 & L1). destruct (decompose_scalars cps' Hs') as (S2 & L2). rewrite <- E in L2.
    destruct (C cps fuel Hs ltac:(lia)) as (segs & T & G). destruct (C cps' fuel Hs' ltac:(lia)) as (segs' & T' & G'). exists segs, segs'. split; [exact T|]. split; [exact T'|].
    apply X in G, G'. rewrite E in G. pose proof (segmentation_unique _ _ _ _ G G') as M. clear - M. revert segs' M. induction segs as [|s segs IH]; intros [|s' segs'] M; try discriminate; constructor; cbn in M; injection M as M1 M2; auto.
Qed.

Theorem C69_graphemes : decomposed_alike graphemes_api. Proof. exact (proj1 (alike _ _ g_segments g_exp)). Qed.
Print Assumptions C69_graphemes.
Theorem C69_words : decomposed_alike words_api. Proof. exact (proj1 (alike _ _ w_segments w_exp)). Qed.
Print Assumptions C69_words.
Theorem C69_sentences : decomposed_alike sentences_api. Proof. exact (proj1 (alike _ _ s_segments s_exp)). Qed.
Print Assumptions C69_sentences.
Theorem C69_phrases : decomposed_alike phrases_api. Proof. exact (proj1 (alike _ _ p_segments p_exp)). Qed.
Print Assumptions C69_phrases.
Theorem C69_spelling : spelled_alike graphemes_api /\ spelled_alike words_api /\ spelled_alike sentences_api /\ spelled_alike phrases_api.
Proof. exact (conj (proj2 (alike _ _ g_segments g_exp)) (conj (proj2 (alike _ _ w_segments w_exp)) (conj (proj2 (alike _ _ s_segments s_exp)) (proj2 (alike _ _ p_segments p_exp))))). Qed.
Print Assumptions C69_spelling.

(** Two syllables, the first without and the second with a trailing consonant, a space, a third: a case of the hypotheses. *)
Example C69_case : let t := [0xAC00; 0xD55C; 32; 0xAE00]%N in let u := [0x1100; 0x1161; 0xD55C; 32; 0x1100; 0x1173; 0x11AF]%N in
  scalars t /\ scalars u /\ decompose t = [0x1100; 0x1161; 0x1112; 0x1161; 0x11AB; 32; 0x1100; 0x1173; 0x11AF]%N /\ decompose u = decompose t
  /\ tokens graphemes_api 40 (a_new graphemes_api (encode t)) = Ok (map encode [[0xAC00]; [0xD55C]; [32]; [0xAE00]]%N)
  /\ tokens graphemes_api 40 (a_new graphemes_api (encode u)) = Ok (map encode [[0x1100; 0x1161]; [0xD55C]; [32]; [0x1100; 0x1173; 0x11AF]]%N).
Proof.
  cbv zeta. split; [repeat (first [apply Forall_nil|apply Forall_cons; [first [left; lia|right; lia]|]])|]. split; [repeat (first [apply Forall_nil|apply Forall_cons; [first [left; lia|right; lia]|]])|]. split; [vm_compute; reflexivity|]. split; [vm_compute; reflexivity|]. split; vm_compute; reflexivity.
Qed.
