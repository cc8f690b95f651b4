(** C78: normalising to NFC and cutting can be done in either order. *)
From Verif Require Import Base ListFacts SpecUtf8 SpecIter SpecApi SpecRules SegFacts ApiInst ConformApi TextFacts SpecDecomp SpecCanon SpecNorm NormFacts PropCanon PropNorm SpecNfc NfcFacts.

(** The tokens of a text in NFC are the tokens of the text, each in NFC. *)
Definition composed_alike (A : api) (of : list N -> Prop) : Prop := forall t fuel, scalars t -> of t -> length (encode t) < fuel -> length (encode (nfc t)) < fuel ->
  exists segs, concat segs = t /\ tokens A fuel (a_new A (encode t)) = Ok (map encode segs) /\ tokens A fuel (a_new A (encode (nfc t))) = Ok (map (fun s => encode (nfc s)) segs).
(** The exception of C73 and C74: U+21AE, in the text or in its composed form. *)
Definition no_arrow_in_nfc (t : list N) : Prop := no_stroked_arrow t /\ no_stroked_arrow (nfc t).

Lemma pieces_nfc : forall segs t, nfc t = t -> concat segs = t -> Forall (fun s => nfc s = s) segs.
Proof.
  intros segs t H E. apply Forall_forall. intros s I. apply in_split in I. destruct I as (l1 & l2 & ->). rewrite concat_app in E. cbn [concat] in E. exact (nfc_part t _ s _ H (eq_sym E)).
Qed.
Section Nfc.
  Variables (A : api) (but : list N) (of : list N -> Prop).
  Hypothesis C : cut_alike A (canon but).
  Hypothesis AS : aside but.
  Hypothesis OF : forall t, of t -> Forall (fun c => ~ In c but) t /\ Forall (fun c => ~ In c but) (nfc t).
  Lemma alike_composed : composed_alike A of.
  Proof.
    intros t fuel S O L L'. destruct (OF t O) as (O1 & O2). pose proof (canon_to_nfd but AS t O1) as K1. pose proof (canon_to_nfd but AS (nfc t) O2) as K2. rewrite <- (canon_nfd _ _ _ (nfc_canon t)) in K2.
    assert (K : canon but t (nfc t)) by (apply (canon_trans _ _ (nfd t)); [exact K1|apply canon_sym; exact K2]).
    destruct (C t (nfc t) fuel S (proj1 (canon_scalars _ _ _ K) S) K L L') as (segs & segs' & T & T' & E & E' & F).
    exists segs. split; [exact E|]. split; [exact T|]. rewrite T'. f_equal. pose proof (pieces_nfc segs' _ (nfc_nfc t) E') as P. clear - F P. induction F as [|s s' l l' H F IH]; [reflexivity|]. cbn [map].
    rewrite (IH (Forall_inv_tail P)). assert (HH : nfc s = nfc s') by (unfold nfc; rewrite (canon_nfd _ _ _ H); reflexivity). rewrite HH, (Forall_inv P). reflexivity.
  Qed.
End Nfc.
Lemma of_arrow_nfc : forall t, no_arrow_in_nfc t -> Forall (fun c => ~ In c [stroked_arrow]) t /\ Forall (fun c => ~ In c [stroked_arrow]) (nfc t).
Proof. intros t (H & K). split; apply of_arrow; assumption. Qed.
Lemma of_any_nfc : forall t, any_text t -> Forall (fun c => ~ In c []) t /\ Forall (fun c => ~ In c []) (nfc t).
Proof. intros t H. split; apply of_any; exact I. Qed.

(** NFC as defined here is what it should be: equivalent to the text, stable, the same for equivalent texts only; and every part of a text in NFC is in NFC. *)
Theorem C78_form : forall t, canon [] t (nfc t) /\ nfc (nfc t) = nfc t /\ (forall t', canon [] t t' <-> nfc t = nfc t') /\ forall u s v, nfc t = u ++ s ++ v -> nfc s = s.
Proof. exact (fun t => conj (nfc_canon t) (conj (nfc_nfc t) (conj (fun t' => conj (canon_nfc t t') (nfc_eq_canon t t')) (fun u s v => nfc_part _ u s v (nfc_nfc t))))). Qed.
Print Assumptions C78_form.
Theorem C78_graphemes : composed_alike graphemes_api no_arrow_in_nfc. Proof. exact (alike_composed _ _ _ C73_graphemes aside_arrow of_arrow_nfc). Qed.
Print Assumptions C78_graphemes.
Theorem C78_words : composed_alike words_api no_arrow_in_nfc. Proof. exact (alike_composed _ _ _ C73_words aside_arrow of_arrow_nfc). Qed.
Print Assumptions C78_words.
Theorem C78_phrases : composed_alike phrases_api no_arrow_in_nfc. Proof. exact (alike_composed _ _ _ C73_phrases aside_arrow of_arrow_nfc). Qed.
Print Assumptions C78_phrases.
Theorem C78_sentences : composed_alike sentences_api any_text. Proof. exact (alike_composed _ _ _ C73_sentences aside_none of_any_nfc). Qed.
Print Assumptions C78_sentences.
(** The arrow is an exception here too, even in texts without it. *)
Theorem C78_arrow_refuted : ~ composed_alike graphemes_api no_stroked_arrow /\ ~ composed_alike words_api no_stroked_arrow /\ ~ composed_alike phrases_api no_stroked_arrow.
Proof.
  assert (K : forall A t n n', scalars t -> no_stroked_arrow t -> length (encode t) < 30 -> length (encode (nfc t)) < 30 -> (exists l, tokens A 30 (a_new A (encode t)) = Ok l /\ length l = n) -> (exists l, tokens A 30 (a_new A (encode (nfc t))) = Ok l /\ length l = n') -> n <> n' -> ~ composed_alike A no_stroked_arrow).
  { intros A t n n' S O L L' (l & T & E) (l' & T' & E') N H. destruct (H t 30 S O L L') as (segs & _ & U & U'). rewrite T in U. rewrite T' in U'. injection U as ->. injection U' as ->. apply N. subst n n'. rewrite !map_length. reflexivity. }
  assert (S1 : scalars [0x2194; 0x338; 0x200D; 0xA9]%N) by (repeat (first [apply Forall_nil|apply Forall_cons; [left; cbn; lia|]])).
  assert (S2 : scalars [0x200D; 0x2194; 0x338]%N) by (repeat (first [apply Forall_nil|apply Forall_cons; [left; cbn; lia|]])).
  assert (O1 : no_stroked_arrow [0x2194; 0x338; 0x200D; 0xA9]%N) by (intros H; repeat (destruct H as [H|H]; [discriminate H|]); destruct H).
  assert (O2 : no_stroked_arrow [0x200D; 0x2194; 0x338]%N) by (intros H; repeat (destruct H as [H|H]; [discriminate H|]); destruct H).
  split; [|split]; [apply (K _ _ 1 2 S1 O1)|apply (K _ _ 1 2 S2 O2)|apply (K _ _ 1 2 S2 O2)]; try discriminate; try (vm_compute; lia); eexists; (split; [vm_compute; reflexivity|reflexivity]).
Qed.
Print Assumptions C78_arrow_refuted.

(** o with a circumflex, a dot below and a cedilla, a comma, a Hangul syllable in three jamo, KA and nukta (whose composite is excluded), and i with a ring, for which there is no composite. *)
Example C78_case : let t := [111; 0x302; 0x323; 0x327; 44; 0x1112; 0x1161; 0x11AB; 0x915; 0x93C; 105; 0x30A]%N in
  scalars t /\ no_arrow_in_nfc t /\ nfc t = [0x1ED9; 0x327; 44; 0xD55C; 0x915; 0x93C; 105; 0x30A]%N
  /\ tokens graphemes_api 40 (a_new graphemes_api (encode t)) = Ok (map encode [[111; 0x302; 0x323; 0x327]; [44]; [0x1112; 0x1161; 0x11AB]; [0x915; 0x93C]; [105; 0x30A]]%N)
  /\ tokens graphemes_api 40 (a_new graphemes_api (encode (nfc t))) = Ok (map encode [[0x1ED9; 0x327]; [44]; [0xD55C]; [0x915; 0x93C]; [105; 0x30A]]%N).
Proof.
  cbv zeta. split; [repeat (first [apply Forall_nil|apply Forall_cons; [left; cbn; lia|]])|]. split; [split; unfold no_stroked_arrow; [|match goal with |- ~ In _ ?X => let Y := eval vm_compute in X in change X with Y end]; intros H; repeat (destruct H as [H|H]; [discriminate H|]); destruct H|]. split; [vm_compute; reflexivity|]. split; vm_compute; reflexivity.
Qed.
