(** C74: normalising to NFD and cutting can be done in either order. *)
From Verif Require Import Base ListFacts SpecUtf8 SpecIter SpecApi SpecRules SegFacts ApiInst ConformApi TextFacts SpecDecomp SpecCanon SpecNorm NormFacts PropCanon.

(** The tokens of a text in NFD are the tokens of the text, each in NFD. *)
Definition normalised_alike (A : api) (of : list N -> Prop) : Prop := forall t fuel, scalars t -> of t -> length (encode t) < fuel -> length (encode (nfd t)) < fuel ->
  exists segs, concat segs = t /\ tokens A fuel (a_new A (encode t)) = Ok (map encode segs) /\ tokens A fuel (a_new A (encode (nfd t))) = Ok (map (fun s => encode (nfd s)) segs).
(** Canonical equivalence as the standard defines it, equality of the full canonical decompositions: tokens in the same place are equivalent. *)
Definition same_form_alike (A : api) (of : list N -> Prop) : Prop := forall t t' fuel, scalars t -> scalars t' -> of t -> of t' -> nfd t = nfd t' -> length (encode t) < fuel -> length (encode t') < fuel ->
  exists segs segs', tokens A fuel (a_new A (encode t)) = Ok (map encode segs) /\ tokens A fuel (a_new A (encode t')) = Ok (map encode segs')
    /\ concat segs = t /\ concat segs' = t' /\ Forall2 (fun s s' => nfd s = nfd s') segs segs'.
Definition no_stroked_arrow (t : list N) : Prop := ~ In stroked_arrow t.
Definition any_text (t : list N) : Prop := True.

Lemma pieces_nfd : forall segs t, in_nfd t -> concat segs = t -> Forall (fun s => nfd s = s) segs.
Proof.
  intros segs t H E. apply Forall_forall. intros s I. apply in_split in I. destruct I as (l1 & l2 & ->). rewrite concat_app in E. cbn [concat] in E. apply in_nfd_nfd. subst t. exact (in_nfd_part _ _ _ H).
Qed.
Section Norm.
  Variables (A : api) (but : list N) (of : list N -> Prop).
  Hypothesis C : cut_alike A (canon but).
  Hypothesis AS : aside but.
  Hypothesis OF : forall t, of t -> Forall (fun c => ~ In c but) t.
  Lemma alike_normalised : normalised_alike A of.
  Proof.
    intros t fuel S O L L'. pose proof (canon_to_nfd but AS t (OF t O)) as K. destruct (C t (nfd t) fuel S (proj1 (canon_scalars _ _ _ K) S) K L L') as (segs & segs' & T & T' & E & E' & F).
    exists segs. split; [exact E|]. split; [exact T|]. rewrite T'. f_equal. pose proof (pieces_nfd segs' _ (nfd_in t) E') as P. clear - F P. induction F as [|s s' l l' H F IH]; [reflexivity|]. cbn [map].
    rewrite (IH (Forall_inv_tail P)), (canon_nfd _ _ _ H), (Forall_inv P). reflexivity.
  Qed.
  Lemma alike_form : same_form_alike A of.
  Proof.
    intros t t' fuel S S' O O' E L L'. assert (K : canon but t t') by (apply (canon_trans _ _ (nfd t)); [exact (canon_to_nfd but AS t (OF t O))|rewrite E; apply canon_sym; exact (canon_to_nfd but AS t' (OF t' O'))]).
    destruct (C t t' fuel S S' K L L') as (segs & segs' & T & T' & E1 & E2 & F). exists segs, segs'. split; [exact T|]. split; [exact T'|]. split; [exact E1|]. split; [exact E2|].
    clear - F. induction F as [|s s' l l' H F IH]; constructor; [exact (canon_nfd _ _ _ H)|exact IH].
  Qed.
End Norm.
Lemma of_arrow : forall t, no_stroked_arrow t -> Forall (fun c => ~ In c [stroked_arrow]) t.
Proof. intros t H. apply Forall_forall. intros c I [E|[]]. subst c. exact (H I). Qed.
Lemma of_any : forall t, any_text t -> Forall (fun c => ~ In c []) t.
Proof. intros t _. apply Forall_forall. intros c _ []. Qed.

(** NFD as defined here is what it should be: equivalent to the text, with nothing left to do, and the same for equivalent texts only. *)
Theorem C74_form : forall t, canon [] t (nfd t) /\ in_nfd (nfd t) /\ (in_nfd t -> nfd t = t) /\ forall t', canon [] t t' <-> nfd t = nfd t'.
Proof. exact (fun t => conj (canon_to_nfd [] aside_none t (of_any t I)) (conj (nfd_in t) (conj (in_nfd_nfd t) (fun t' => conj (canon_nfd [] t t') (nfd_canon t t'))))). Qed.
Print Assumptions C74_form.
Theorem C74_graphemes : normalised_alike graphemes_api no_stroked_arrow. Proof. exact (alike_normalised _ _ _ C73_graphemes aside_arrow of_arrow). Qed.
Print Assumptions C74_graphemes.
Theorem C74_words : normalised_alike words_api no_stroked_arrow. Proof. exact (alike_normalised _ _ _ C73_words aside_arrow of_arrow). Qed.
Print Assumptions C74_words.
Theorem C74_phrases : normalised_alike phrases_api no_stroked_arrow. Proof. exact (alike_normalised _ _ _ C73_phrases aside_arrow of_arrow). Qed.
Print Assumptions C74_phrases.
Theorem C74_sentences : normalised_alike sentences_api any_text. Proof. exact (alike_normalised _ _ _ C73_sentences aside_none of_any). Qed.
Print Assumptions C74_sentences.
Theorem C74_same_form : same_form_alike graphemes_api no_stroked_arrow /\ same_form_alike words_api no_stroked_arrow /\ same_form_alike phrases_api no_stroked_arrow /\ same_form_alike sentences_api any_text.
Proof.
  exact (conj (alike_form _ _ _ C73_graphemes aside_arrow of_arrow) (conj (alike_form _ _ _ C73_words aside_arrow of_arrow) (conj (alike_form _ _ _ C73_phrases aside_arrow of_arrow) (alike_form _ _ _ C73_sentences aside_none of_any)))).
Qed.
Print Assumptions C74_same_form.
(** The arrow is an exception here too. *)
Theorem C74_arrow_refuted : ~ normalised_alike graphemes_api any_text /\ ~ normalised_alike words_api any_text /\ ~ normalised_alike phrases_api any_text.
Proof.
  assert (K : forall A t n n', scalars t -> length (encode t) < 30 -> length (encode (nfd t)) < 30 -> (exists l, tokens A 30 (a_new A (encode t)) = Ok l /\ length l = n) -> (exists l, tokens A 30 (a_new A (encode (nfd t))) = Ok l /\ length l = n') -> n <> n' -> ~ normalised_alike A any_text).
  { intros A t n n' S L L' (l & T & E) (l' & T' & E') N H. destruct (H t 30 S I L L') as (segs & _ & U & U'). rewrite T in U. rewrite T' in U'. injection U as ->. injection U' as ->. apply N. subst n n'. rewrite !map_length. reflexivity. }
  assert (S1 : scalars [0x21AE; 0x200D; 0xA9]%N) by (repeat (first [apply Forall_nil|apply Forall_cons; [left; cbn; lia|]])).
  assert (S2 : scalars [0x200D; 0x21AE]%N) by (repeat (first [apply Forall_nil|apply Forall_cons; [left; cbn; lia|]])).
  split; [|split]; [apply (K _ _ 2 1 S1)|apply (K _ _ 2 1 S2)|apply (K _ _ 2 1 S2)]; try discriminate; try (vm_compute; lia); eexists; (split; [vm_compute; reflexivity|reflexivity]).
Qed.
Print Assumptions C74_arrow_refuted.

(** o with circumflex and dot below in one character, a cedilla, a comma, a space, a Hangul syllable: two marks come to light, and the third goes before them. *)
Example C74_case : let t := [0x1ED9; 0x327; 44; 32; 0xD55C]%N in
  scalars t /\ no_stroked_arrow t /\ nfd t = [111; 0x327; 0x323; 0x302; 44; 32; 0x1112; 0x1161; 0x11AB]%N
  /\ tokens graphemes_api 40 (a_new graphemes_api (encode t)) = Ok (map encode [[0x1ED9; 0x327]; [44]; [32]; [0xD55C]]%N)
  /\ tokens graphemes_api 40 (a_new graphemes_api (encode (nfd t))) = Ok (map encode [[111; 0x327; 0x323; 0x302]; [44]; [32]; [0x1112; 0x1161; 0x11AB]]%N).
Proof.
  cbv zeta. split; [repeat (first [apply Forall_nil|apply Forall_cons; [left; cbn; lia|]])|]. split; [intros H; repeat (destruct H as [H|H]; [discriminate H|]); destruct H|]. split; [vm_compute; reflexivity|]. split; vm_compute; reflexivity.
Qed.
