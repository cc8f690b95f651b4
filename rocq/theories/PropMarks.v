(** C70: an accented letter and the letter followed by its marks are cut alike. *)
From Verif Require Import Base ListFacts SpecUtf8 SpecIter SpecApi SpecUcd SpecRules SegFacts ApiInst ConformApi TextFacts SpecSame SameFacts SameRules SpecMarks MarkFacts MarkRules.
From Verif Require SpecWords WordsConform PhrasesConform.

(** Any characters of a text respelled as characters of the same properties with marks: the same tokens, respelled. *)
Definition respelled_alike (A : api) : Prop := forall (t : list spelling) fuel, Forall respells t -> scalars (map before t) -> scalars (flat_map after t) -> length (encode (map before t)) < fuel -> length (encode (flat_map after t)) < fuel ->
  exists gs, concat gs = t /\ Forall (fun g => g <> []) gs
    /\ tokens A fuel (a_new A (encode (map before t))) = Ok (map (fun g => encode (map before g)) gs)
    /\ tokens A fuel (a_new A (encode (flat_map after t))) = Ok (map (fun g => encode (flat_map after g)) gs).

Lemma takes_same : forall c c', same_grapheme c c' -> same_word c c' -> same_sentence c c' -> takes_marks c -> takes_marks c'.
Proof. intros c c' (G & I & _) (W & _) S (A & B & C & D & E). unfold takes_marks. rewrite <- G, <- I, <- W. unfold same_sentence in S. rewrite <- S. auto. Qed.
Lemma spell_ok : forall t, Forall respells t -> Forall (ok mark takes_marks) (map snd t).
Proof.
  intros t F. apply Forall_map. eapply Forall_impl; [|exact F]. intros (c & c' & ms) (G & W & S & T & M). split; [|exact M]. destruct T as [T|T]; [left; exact T|right]. exact (takes_same c c' G W S T).
Qed.
Lemma after_D : forall t : list spelling, flat_map after t = D (map snd t).
Proof. induction t as [|e t IH]; [reflexivity|]. cbn [flat_map map]. rewrite IH. reflexivity. Qed.
Lemma regroup_spell : forall (gs : list (list (N * list N))) (t : list spelling), concat gs = map snd t -> exists hs, concat hs = t /\ gs = map (map snd) hs.
Proof.
  induction gs as [|g gs IH]; intros t E; cbn [concat] in E; [symmetry in E; apply map_eq_nil in E; subst t; exists []; auto|].
  symmetry in E. apply map_eq_app in E. destruct E as (x & y & -> & <- & E). destruct (IH y (eq_sym E)) as (hs & <- & ->). exists (x :: hs). auto.
Qed.
Lemma same_cut : forall (hs : list (list spelling)) (segs : list text), concat segs = map before (concat hs) -> map (@length N) segs = map (@length spelling) hs -> segs = map (map before) hs.
Proof.
  induction hs as [|h hs IH]; intros segs E L; destruct segs as [|s segs]; try discriminate; [reflexivity|]. cbn [map concat] in *. injection L as L1 L2. rewrite map_app in E.
  assert (X : s = map before h /\ concat segs = map before (concat hs)).
  { clear - E L1. revert s L1 E. induction h as [|e h IHh]; intros [|x s] L E; cbn in *; try discriminate; [auto|]. injection E as -> E. destruct (IHh s ltac:(lia) E) as (-> & H). auto. }
  destruct X as (-> & X). f_equal. exact (IH segs X L2).
Qed.
Lemma respelled : forall A (D0 : text -> text -> op -> Prop) (R : N -> N -> Prop), tokens_are_segments A D0 -> (forall x y, R x y -> R y x) ->
  (forall b a o b' a', Forall2 R b b' -> Forall2 R a a' -> D0 b a o -> D0 b' a' o) ->
  (forall t segs, Forall (ok mark takes_marks) t -> segmentation D0 (B t) segs -> exists gs, concat gs = t /\ segs = map B gs /\ segmentation D0 (D t) (map D gs)) ->
  (forall c c', same_grapheme c c' -> same_word c c' -> same_sentence c c' -> R c c') -> respelled_alike A.
Proof.
  intros A D0 R C sy HR HM HS t fuel F S1 S2 L1 L2. destruct (C _ fuel S1 L1) as (segs & T & G). destruct (C _ fuel S2 L2) as (segs' & T' & G').
  assert (FR : Forall2 R (map before t) (B (map snd t))).
  { clear - F HS. induction F as [|e t H F IH]; [constructor|]. destruct e as (c & c' & ms). cbn [map B before fst snd]. constructor; [|exact IH]. destruct H as (H1 & H2 & H3 & _). exact (HS _ _ H1 H2 H3). }
  destruct (seg_resp R sy D0 HR _ _ _ G FR) as (s & X & Gs). destruct (HM _ s (spell_ok t F) Gs) as (gs & E & -> & Gd).
  destruct (regroup_spell gs t E) as (hs & <- & ->). exists hs. split; [reflexivity|]. destruct G as (G1 & G2 & _).
  assert (ES : segs = map (map before) hs).
  { apply same_cut; [exact G1|]. transitivity (map (@length N) (map B (map (map snd) hs))); [|rewrite !map_map; apply map_ext; intros h; unfold B; rewrite !map_length; reflexivity].
    clear - X. induction X as [|x y l l' H X IH]; [reflexivity|]. cbn [map]. rewrite IH, (rel_length _ _ _ H). reflexivity. }
  subst segs. split; [rewrite Forall_map in G2; eapply Forall_impl; [|exact G2]; cbv beta; intros h Hh ->; apply Hh; reflexivity|].
  split; [rewrite T, map_map; reflexivity|]. rewrite T'. rewrite after_D in G'. rewrite (segmentation_unique _ _ _ _ G' Gd), !map_map. f_equal. apply map_ext. intros h. rewrite after_D. reflexivity.
Qed.

Theorem C70_graphemes : respelled_alike graphemes_api. Proof. exact (respelled _ _ _ g_segments g_sym g_resp g_marks (fun _ _ a _ _ => a)). Qed.
Print Assumptions C70_graphemes.
Theorem C70_words : respelled_alike words_api. Proof. exact (respelled _ _ _ w_segments w_sym w_resp (like_marks _ _ WordsConform.w_disjoint) (fun _ _ _ a _ => a)). Qed.
Print Assumptions C70_words.
Theorem C70_phrases : respelled_alike phrases_api. Proof. exact (respelled _ _ _ p_segments w_sym p_resp (like_marks _ _ PhrasesConform.p_disjoint) (fun _ _ _ a _ => a)). Qed.
Print Assumptions C70_phrases.
Theorem C70_sentences : respelled_alike sentences_api. Proof. exact (respelled _ _ _ s_segments s_sym s_resp s_marks (fun _ _ _ _ a => a)). Qed.
Print Assumptions C70_sentences.

(** "été e." with the accents as marks of their own, and two marks on the last letter. *)
Definition summer : list spelling := [(0xE9, (101, [0x301])); (116, (116, [])); (0xE9, (101, [0x301])); (32, (32, [])); (0x1EC7, (101, [0x323; 0x302])); (46, (46, []))]%N.
Lemma bool_same : forall c c', gcb_beq (GCB c) (GCB c') && incb_beq (InCB c) (InCB c') && Bool.eqb (ExtPict c) (ExtPict c') && wb_beq (WB c) (WB c') && sb_beq (SB c) (SB c') = true -> same_grapheme c c' /\ same_word c c' /\ same_sentence c c'.
Proof.
  intros c c' H. repeat match type of H with _ && _ = true => let X := fresh "X" in apply andb_prop in H; destruct H as (H & X) end.
  apply internal_gcb_dec_bl in H. apply internal_incb_dec_bl in X2. apply eqb_prop in X1. apply internal_wb_dec_bl in X0. apply internal_sb_dec_bl in X. unfold same_grapheme, same_word, same_sentence. auto.
Qed.
Lemma summer_respells : Forall respells summer.
Proof.
  assert (M : forall c, gcb_beq (GCB c) GCB_Extend && incb_beq (InCB c) InCB_Extend && wb_beq (WB c) WB_Extend && sb_beq (SB c) SB_Extend && negb (ExtPict c) = true -> mark c).
  { intros c H. repeat match type of H with _ && _ = true => let X := fresh "X" in apply andb_prop in H; destruct H as (H & X) end.
    apply internal_gcb_dec_bl in H. apply internal_incb_dec_bl in X2. apply negb_true_iff in X. apply internal_wb_dec_bl in X1. apply internal_sb_dec_bl in X0. unfold mark. auto. }
  assert (T : forall c, gcb_beq (GCB c) GCB_Other && incb_beq (InCB c) InCB_Other && wb_beq (WB c) WB_ALetter && sb_beq (SB c) SB_Lower = true -> takes_marks c).
  { intros c H. repeat match type of H with _ && _ = true => let X := fresh "X" in apply andb_prop in H; destruct H as (H & X) end.
    apply internal_gcb_dec_bl in H. apply internal_incb_dec_bl in X1. apply internal_wb_dec_bl in X0. apply internal_sb_dec_bl in X. unfold takes_marks. rewrite H, X1, X0, X. cbn. intuition congruence. }
  assert (R : forall c c' ms, (gcb_beq (GCB c) (GCB c') && incb_beq (InCB c) (InCB c') && Bool.eqb (ExtPict c) (ExtPict c') && wb_beq (WB c) (WB c') && sb_beq (SB c) (SB c') = true) -> (ms = [] \/ takes_marks c) -> Forall mark ms -> respells (c, (c', ms))).
  { intros c c' ms H H1 H2. destruct (bool_same c c' H) as (A & B & C). exact (conj A (conj B (conj C (conj H1 H2)))). }
  unfold summer. apply Forall_cons; [apply R; [vm_compute; reflexivity|right; apply T; vm_compute; reflexivity|apply Forall_cons; [apply M; vm_compute; reflexivity|apply Forall_nil]]|].
  apply Forall_cons; [apply R; [vm_compute; reflexivity|left; reflexivity|apply Forall_nil]|].
  apply Forall_cons; [apply R; [vm_compute; reflexivity|right; apply T; vm_compute; reflexivity|apply Forall_cons; [apply M; vm_compute; reflexivity|apply Forall_nil]]|].
  apply Forall_cons; [apply R; [vm_compute; reflexivity|left; reflexivity|apply Forall_nil]|].
  apply Forall_cons; [apply R; [vm_compute; reflexivity|right; apply T; vm_compute; reflexivity|apply Forall_cons; [apply M; vm_compute; reflexivity|apply Forall_cons; [apply M; vm_compute; reflexivity|apply Forall_nil]]]|].
  apply Forall_cons; [apply R; [vm_compute; reflexivity|left; reflexivity|apply Forall_nil]|]. apply Forall_nil.
Qed.
Example C70_case : Forall respells summer /\ scalars (map before summer) /\ scalars (flat_map after summer)
  /\ tokens words_api 30 (a_new words_api (encode (map before summer))) = Ok (map encode [[0xE9; 116; 0xE9]; [32]; [0x1EC7]; [46]]%N)
  /\ tokens words_api 30 (a_new words_api (encode (flat_map after summer))) = Ok (map encode [[101; 0x301; 116; 101; 0x301]; [32]; [101; 0x323; 0x302]; [46]]%N)
  /\ tokens graphemes_api 30 (a_new graphemes_api (encode (flat_map after summer))) = Ok (map encode [[101; 0x301]; [116]; [101; 0x301]; [32]; [101; 0x323; 0x302]; [46]]%N).
Proof.
  split; [exact summer_respells|]. split; [repeat (first [apply Forall_nil|apply Forall_cons; [left; cbn; lia|]])|]. split; [repeat (first [apply Forall_nil|apply Forall_cons; [left; cbn; lia|]])|].
  split; [vm_compute; reflexivity|]. split; vm_compute; reflexivity.
Qed.
