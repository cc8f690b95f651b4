(** C68: boundaries depend on the Unicode properties of the characters and on nothing else. *)
From Verif Require Import Base ListFacts SpecUtf8 SpecIter SpecApi SpecUcd SpecRules SpecGraphemes SpecWords SpecSentences SegFacts ApiInst SpecIll IllFacts SpecSame SameFacts SameRules SameApi PropIll.
From Verif Require Graphemes Words Sentences Phrases.

(** Two byte strings whose units stand for characters of the same properties, one by one, are cut between the same units. *)
Definition cut_together (same : N -> N -> Prop) (toks : bytes -> nat -> res (list bytes)) : Prop :=
  forall d us tail d' us' tail' fuel, units d us tail -> units d' us' tail' -> length d < fuel -> length d' < fuel ->
    Forall2 (fun u u' => same (character u) (character u')) us us' -> (tail = [] <-> tail' = []) ->
    exists segs segs' : list (list bytes), concat segs = us /\ concat segs' = us' /\ map (@length bytes) segs = map (@length bytes) segs'
      /\ toks d fuel = Ok (with_tail (map (@concat N) segs) tail) /\ toks d' fuel = Ok (with_tail (map (@concat N) segs') tail').

Lemma together : forall (R : N -> N -> Prop), (forall x y, R x y -> R y x) -> forall D : text -> text -> op -> Prop, (forall b a o b' a', Forall2 R b b' -> Forall2 R a a' -> D b a o -> D b' a' o) ->
  forall toks, cut_as_characters D toks -> cut_together R toks.
Proof.
  intros R sy D HD toks C d us tail d' us' tail' fuel U U' Hf Hf' F _. destruct (C d us tail fuel U Hf) as (segs & H1 & H2 & H3 & _). destruct (C d' us' tail' fuel U' Hf') as (segs' & H1' & H2' & H3' & _).
  exists segs, segs'. repeat split; auto. pose proof (same_lengths R sy D HD _ _ _ _ H3 H3' (rel_map R _ _ F)) as L. rewrite !map_len_map in L. exact L.
Qed.
Theorem C68_graphemes : cut_together same_grapheme (fun d fuel => tokens graphemes_api fuel (Graphemes.FromBytes d)).
Proof. exact (together _ g_sym _ g_resp _ C67_graphemes). Qed.
Print Assumptions C68_graphemes.
Theorem C68_words : cut_together same_word (fun d fuel => tokens words_api fuel (Words.FromBytes d)).
Proof. exact (together _ w_sym _ w_resp _ C67_words). Qed.
Print Assumptions C68_words.
Theorem C68_phrases : cut_together same_word (fun d fuel => tokens phrases_api fuel (Phrases.FromBytes d)).
Proof. exact (together _ w_sym _ p_resp _ C67_phrases). Qed.
Print Assumptions C68_phrases.
Lemma with_nil : forall l, with_tail l [] = l.
Proof. induction l as [|t [|t' l] IH]; [reflexivity|cbn; rewrite app_nil_r; reflexivity|]. change (with_tail (t :: t' :: l) []) with (t :: with_tail (t' :: l) []). rewrite IH. reflexivity. Qed.
Theorem C68_sentences : cut_together same_sentence (fun d fuel => tokens sentences_api fuel (Sentences.FromBytes d)).
Proof.
  intros d us tail d' us' tail' fuel U U' Hf Hf' F T. destruct tail as [|t tail].
  - rewrite (proj1 T eq_refl) in *. destruct (C67_sentences d us fuel U Hf) as (segs & H1 & H2 & H3 & _). destruct (C67_sentences d' us' fuel U' Hf') as (segs' & H1' & H2' & H3' & _).
    exists segs, segs'. rewrite !with_nil. repeat split; auto. pose proof (same_lengths _ s_sym _ s_resp _ _ _ _ H3 H3' (rel_map _ _ _ F)) as L. rewrite !map_len_map in L. exact L.
  - assert (Nt : tail' <> []) by (intros E; apply T in E; discriminate).
    destruct (C67_sentences_tail d us (t :: tail) fuel U ltac:(discriminate) Hf) as (segs & H1 & H2 & H3 & full & H4 & H5).
    destruct (C67_sentences_tail d' us' tail' fuel U' Nt Hf') as (segs' & H1' & H2' & H3' & full' & H4' & H5'). exists segs, segs'. repeat split; auto.
    apply (letter_lengths segs segs' full full' H2 H2' H5 H5'). refine (same_lengths _ s_sym _ s_resp _ _ _ _ H4 H4' _). apply Forall2_app; [exact (rel_map _ _ _ F)|]. repeat constructor.
Qed.
Print Assumptions C68_sentences.

(** Renaming letters and digits, or changing the case, of any bytes whatever: the tokens are renamed, no more. *)
Definition renamed_alike (ok : (N -> N) -> Prop) (toks : bytes -> nat -> res (list bytes)) : Prop :=
  forall f d fuel, ok f -> length d < fuel -> exists l, toks d fuel = Ok l /\ toks (map f d) fuel = Ok (map (map f) l).
Lemma rename_together : forall (R : N -> N -> Prop) (ok : (N -> N) -> Prop) toks, (forall f, ok f -> ascii_keep f) -> (forall c, R c c) -> (forall f, ok f -> forall c, (c < 128)%N -> R c (f c)) ->
  cut_together R toks -> renamed_alike ok toks.
Proof.
  intros R ok toks K Rr Ra C f d fuel Hf Hl. destruct (units_exist d) as (us & tail & U). pose proof (keep_units f (K f Hf) _ _ _ U) as U'.
  destruct (C d us tail _ _ _ fuel U U' Hl ltac:(rewrite map_length; exact Hl) (keep_chars f R (K f Hf) Rr (Ra f Hf) _ _ _ U)) as (segs & segs' & E & E' & L & T & T').
  { split; intros H; [rewrite H; reflexivity|destruct tail; [reflexivity|discriminate]]. }
  exists (with_tail (map (@concat N) segs) tail). split; [exact T|]. rewrite T', with_tail_map. f_equal. rewrite (regroup_map (map f) segs segs' us E E' L), !map_map. f_equal.
  apply map_ext. intros s. apply concat_map_map.
Qed.
Theorem C68_rename_graphemes : renamed_alike renames (fun d fuel => tokens graphemes_api fuel (Graphemes.FromBytes d)).
Proof. refine (rename_together same_grapheme _ _ renames_keep _ _ C68_graphemes); [intros c; repeat split|]. intros f H c Hc. exact (proj1 (agree_same _ _ (renames_agree f H c Hc))). Qed.
Print Assumptions C68_rename_graphemes.
Theorem C68_rename_words : renamed_alike renames (fun d fuel => tokens words_api fuel (Words.FromBytes d)).
Proof. refine (rename_together same_word _ _ renames_keep _ _ C68_words); [intros c; repeat split|]. intros f H c Hc. exact (proj2 (agree_same _ _ (renames_agree f H c Hc))). Qed.
Print Assumptions C68_rename_words.
Theorem C68_rename_phrases : renamed_alike renames (fun d fuel => tokens phrases_api fuel (Phrases.FromBytes d)).
Proof. refine (rename_together same_word _ _ renames_keep _ _ C68_phrases); [intros c; repeat split|]. intros f H c Hc. exact (proj2 (agree_same _ _ (renames_agree f H c Hc))). Qed.
Print Assumptions C68_rename_phrases.
Theorem C68_rename_sentences : renamed_alike renames_in_case (fun d fuel => tokens sentences_api fuel (Sentences.FromBytes d)).
Proof. refine (rename_together same_sentence _ _ case_keep _ case_agree C68_sentences). intros c. reflexivity. Qed.
Print Assumptions C68_rename_sentences.
(** Sentences look at the case: "A. B" has two, "a. b" one. *)
Theorem C68_case_sentences_refuted : ~ renamed_alike renames (fun d fuel => tokens sentences_api fuel (Sentences.FromBytes d)).
Proof.
  intros H. destruct (H to_lower [65; 46; 32; 66]%N 10) as (l & H1 & H2).
  - intros c. unfold to_lower. destruct (upper_byte c) eqn:E; [rewrite orb_true_r|rewrite orb_false_r; destruct (lower_byte c) eqn:E'; [reflexivity|]].
    + unfold upper_byte in E. apply andb_prop in E. destruct E as (E1 & E2). apply N.leb_le in E1, E2. unfold lower_byte. replace (97 <=? c + 32)%N with true by (symmetry; apply N.leb_le; lia).
      replace (c + 32 <=? 122)%N with true by (symmetry; apply N.leb_le; lia). reflexivity.
    + destruct (digit_byte c) eqn:E2; reflexivity.
  - cbn. lia.
  - vm_compute in H1. injection H1 as <-. vm_compute in H2. discriminate.
Qed.
Print Assumptions C68_case_sentences_refuted.

(** "Don't (E=mc", superscript two, ") 3.5", with the case changed: a case of the hypotheses, and what comes out. *)
Definition rot (c : N) : N := if lower_byte c then if (c =? 122)%N then 97%N else (c + 1)%N else if digit_byte c then 57%N else c.
Lemma rot_renames : renames rot /\ renames_in_case rot.
Proof.
  split; intros c; unfold rot; destruct (lower_byte c) eqn:E; cbn [orb].
  - unfold lower_byte in E. apply andb_prop in E. destruct E as (E1 & E2). apply N.leb_le in E1, E2. destruct (N.eqb_spec c 122); [reflexivity|]. unfold lower_byte.
    replace (97 <=? c + 1)%N with true by (symmetry; apply N.leb_le; lia). replace (c + 1 <=? 122)%N with true by (symmetry; apply N.leb_le; lia). reflexivity.
  - destruct (upper_byte c) eqn:E'; destruct (digit_byte c) eqn:E''; rewrite ?E, ?E', ?E''; try reflexivity.
    exfalso. unfold upper_byte, digit_byte in *. apply andb_prop in E', E''. destruct E' as (E1 & _), E'' as (_ & E2). apply N.leb_le in E1, E2. lia.
  - unfold lower_byte in E. apply andb_prop in E. destruct E as (E1 & E2). apply N.leb_le in E1, E2. destruct (N.eqb_spec c 122); [reflexivity|]. unfold lower_byte.
    replace (97 <=? c + 1)%N with true by (symmetry; apply N.leb_le; lia). replace (c + 1 <=? 122)%N with true by (symmetry; apply N.leb_le; lia). reflexivity.
  - destruct (upper_byte c) eqn:E'; destruct (digit_byte c) eqn:E''; rewrite ?E'; try reflexivity.
    exfalso. unfold upper_byte, digit_byte in *. apply andb_prop in E', E''. destruct E' as (E1 & _), E'' as (_ & E2). apply N.leb_le in E1, E2. lia.
Qed.
Example C68_case : let d := [68; 111; 110; 39; 116; 32; 109; 99; 194; 178; 255; 32; 51; 46; 53; 195]%N in renames rot /\ renames_in_case rot
  /\ map rot d = [68; 112; 111; 39; 117; 32; 110; 100; 194; 178; 255; 32; 57; 46; 57; 195]%N
  /\ tokens words_api 20 (Words.FromBytes d) = Ok [[68; 111; 110; 39; 116]; [32]; [109; 99]; [194; 178]; [255]; [32]; [51; 46; 53; 195]]%N
  /\ tokens words_api 20 (Words.FromBytes (map rot d)) = Ok [[68; 112; 111; 39; 117]; [32]; [110; 100]; [194; 178]; [255]; [32]; [57; 46; 57; 195]]%N.
Proof. cbv zeta. split; [exact (proj1 rot_renames)|]. split; [exact (proj2 rot_renames)|]. split; [reflexivity|]. split; vm_compute; reflexivity. Qed.
