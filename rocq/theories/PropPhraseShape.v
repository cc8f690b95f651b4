(** C89: what phrases look like. *)
From Verif Require Import Base ListFacts SpecUtf8 SpecIter SpecApi SpecRules SpecUcd SpecWords SpecSpace SpecShape SpecPhraseShape SpecGreedy RuleFacts SegFacts Conform ApiInst PropConform PropPieces PropGreedy GenTestsFacts GreedyFacts ShapeFacts PhraseShapeFacts.
From Verif Require Graphemes Words Sentences Phrases.

(** A text is one phrase exactly when it has the shape of one. *)
Theorem C89_one : forall s fuel, scalars s -> s <> [] -> joined_well s -> length (encode s) < fuel ->
  (tokens phrases_api fuel (Phrases.FromBytes (encode s)) = Ok [encode s] <-> phrase_shape s).
Proof.
  intros s fuel Hs Ns Z Hf. rewrite <- (phrase_shape_single s Ns Z). destruct (C08_phrases_are_tailored_words s fuel Hs Hf) as (segs & E & G & U). split.
  - intros T. rewrite T in E. injection E as E. change [encode s] with (map encode [s]) in E. apply map_encode_inj in E; [subst segs; exact G|constructor; [exact Hs|constructor]|apply scalars_concat; rewrite (proj1 G); exact Hs].
  - intros S. rewrite E, <- (U _ S). reflexivity.
Qed.
Print Assumptions C89_one.

Lemma jw_prefix : forall s r, joined_well (s ++ r) -> joined_well s.
Proof. intros s r Z b x y a -> Zx Py. apply (Z b x y (a ++ r)); [rewrite <- app_assoc; reflexivity|exact Zx|exact Py]. Qed.
Lemma bases_mark : forall t m, word_mark m -> bases (t ++ [m]) = bases t.
Proof. intros t m Hm. unfold bases. rewrite filter_app. cbn [filter]. rewrite (proj2 (mark_iff m) Hm). apply app_nil_r. Qed.
Lemma shape_mark : forall s h m, phrase_shape s -> In h s -> phrase_char h -> word_mark m -> phrase_shape (s ++ [m]).
Proof.
  intros s h m H I Ph Hm. pose proof (p_lines h Ph) as Lh. destruct H as [x y Ex Ey|d L|x y u Ex Ey Eb|x u Wx C|d u L F].
  - exfalso. destruct I as [<-|[<-|[]]]; apply Lh; [left; exact Ex|right; left; exact Ey].
  - exfalso. destruct I as [<-|[]]. contradiction.
  - apply (PShape_flag x y (u ++ [m]) Ex Ey). rewrite bases_mark; assumption.
  - apply (PShape_phrase x (u ++ [m]) Wx). rewrite bases_mark; assumption.
  - apply (PShape_other d (u ++ [m]) L). apply Forall_app. split; [exact F|constructor; [exact Hm|constructor]].
Qed.
Lemma jw_suffix : forall s r, joined_well (s ++ r) -> phrase_shape s -> (forall m r', r = m :: r' -> ~ phrase_shape (s ++ [m])) -> joined_well r.
Proof.
  intros s r Z S L b x y a E Zx Py. destruct (Z (s ++ b) x y a) as (b' & h & ms & Eb & Fm & Hh); [rewrite E, <- app_assoc; reflexivity|exact Zx|exact Py|].
  rewrite <- app_assoc in Eb. destruct (prefix_cmp _ _ _ _ Eb) as [(z & Ez & Ea)|(z & Ez & Ea)].
  - exists z, h, ms. split; [exact Ea|]. split; assumption.
  - destruct z as [|h' ms1]; [cbn [app] in Ea; exists [], h, ms; cbn [app]; split; [symmetry; exact Ea|split; assumption]|]. injection Ea as <- Ea.
    exfalso. assert (M : exists m r', r = m :: r' /\ word_mark m).
    { rewrite Ea in Fm. apply Forall_app in Fm as [_ Fm]. destruct b as [|m b]; inversion Fm; subst; [exists x, (y :: a)|exists m, (b ++ x :: y :: a)]; split; auto. }
    destruct M as (m & r' & Er & Hm). apply (L m r' Er). apply (shape_mark s h m S); [rewrite Ez; apply in_or_app; right; left; reflexivity|unfold phrase_char; tauto|exact Hm].
Qed.
Lemma munch_phrase : forall cps segs, munch (alone phrases_api Phrases.FromBytes) cps segs -> scalars cps -> joined_well cps -> munch phrase_shape cps segs.
Proof.
  intros cps segs M. induction M as [|s r segs Ns A L M IH]; intros Hs Z; [constructor|]. apply Forall_app in Hs as HS. destruct HS as [H1 H2].
  assert (W : phrase_shape s) by (apply (C89_one s _ H1 Ns (jw_prefix _ _ Z) (le_n _)); exact A).
  assert (L' : forall s' r', s ++ r = s' ++ r' -> length s < length s' -> ~ phrase_shape s').
  { intros s' r' E Lt Q. pose proof Hs as Hs'. pose proof Z as Z'. rewrite E in Hs', Z'. apply Forall_app in Hs' as [H1' _]. apply (L s' r' E Lt). unfold alone. apply C89_one; [exact H1'|destruct s'; [cbn in Lt; lia|discriminate]|exact (jw_prefix _ _ Z')|lia|exact Q]. }
  constructor; [exact Ns|exact W|exact L'|]. apply IH; [exact H2|]. apply (jw_suffix s r Z W). intros m r' ->. apply (L' (s ++ [m]) r'); [rewrite <- app_assoc; reflexivity|rewrite app_length; cbn [length]; lia].
Qed.
(** The phrases of a text are, from the front, the longest pieces that have the shape of a phrase. *)
Theorem C89_phrases : forall cps fuel, scalars cps -> joined_well cps -> length (encode cps) < fuel ->
  exists segs, tokens phrases_api fuel (Phrases.FromBytes (encode cps)) = Ok (map encode segs) /\ munch phrase_shape cps segs /\ forall segs', munch phrase_shape cps segs' -> segs' = segs.
Proof.
  intros cps fuel Hs Z Hf. destruct (C85_phrases cps fuel Hs Hf) as (segs & E & M & _). exists segs. split; [exact E|]. pose proof (munch_phrase cps segs M Hs Z) as M'. split; [exact M'|]. exact (munch_unique _ _ _ M').
Qed.
Print Assumptions C89_phrases.

(** A phrase with a letter, digit or space in it has, apart from marks, only letters, digits, spaces, katakana, connectors and punctuation inside, and begins with one of these characters. *)
Theorem C89_letters : forall s c, phrase_shape s -> In c s -> phrase_char c ->
  (exists x t, s = x :: t /\ phrase_char x) /\ forall y, In y s -> phrase_char y \/ word_mark y \/ (WB y = WB_MidLetter \/ WB y = WB_MidNum \/ WB y = WB_MidNumLet \/ WB y = WB_Single_Quote \/ WB y = WB_Double_Quote).
Proof.
  intros s c H I Wc. assert (BI : forall t d, In d t -> word_mark d \/ In d (bases t)).
  { intros t d Hd. destruct (ignored d) eqn:E; [left; apply mark_iff; exact E|right]. apply filter_In. split; [exact Hd|]. rewrite E. reflexivity. }
  assert (RI : forall d, phrase_char d -> WB d <> WB_Regional_Indicator). { intros d Hd Q. apply pclass_wb in Q; [|discriminate|discriminate]. pclasses. intuition congruence. }
  destruct H as [x y Ex Ey|d L|x y u Ex Ey Eb|x u Wx C|d u L F].
  - exfalso. destruct I as [<-|[<-|[]]]; apply (p_lines _ Wc); [left; exact Ex|right; left; exact Ey].
  - exfalso. destruct I as [<-|[]]. exact (p_lines _ Wc L).
  - exfalso. destruct I as [<-|I]; [exact (RI _ Wc Ex)|]. destruct (BI u c I) as [Q|Q]; [exact (p_marks c Wc Q)|]. rewrite Eb in Q. destruct Q as [<-|[]]. exact (RI _ Wc Ey).
  - split; [exists x, u; auto|]. intros y [<-|Iy]; [left; exact Wx|]. destruct (BI u y Iy) as [Q|Q]; [right; left; exact Q|]. clear - C Q. revert Q. induction C as [x|x z r Hz G C IH|x m z r B C IH|x m Hx Hm]; intros Q.
    + destruct Q.
    + destruct Q as [<-|Q]; [left; exact Hz|exact (IH Q)].
    + destruct Q as [<-|[<-|Q]]; [|left; exact (proj1 (proj2 (p_between_chars _ _ _ B)))|exact (IH Q)]. right. right. rewrite !(pclass_wb _ m) by discriminate. pclasses. tauto.
    + destruct Q as [<-|[]]. right. right. rewrite !(pclass_wb _ m) by discriminate. pclasses. tauto.
  - destruct I as [<-|I]; [|rewrite Forall_forall in F; elim (p_marks c Wc (F c I))]. split; [exists d, u; auto|]. intros y [<-|Iy]; [left; exact Wc|]. rewrite Forall_forall in F. right. left. exact (F y Iy).
Qed.
Print Assumptions C89_letters.

(** "Hi 5", a family emoji with its joiners, "." *)
Ltac pcls := unfold phrase_char, phrasal, p_letter, p_hebrew, p_digit, p_space, p_katakana, p_connector; vm_compute; tauto.
Ltac ptog := unfold p_together, phrasal, p_katakana, p_letter, p_hebrew, p_digit, p_space, p_connector; vm_compute; intuition discriminate.
Example C89_case : let s := [72; 105; 32; 53; 0x1F468; 0x200D; 0x1F469]%N in scalars (s ++ [46]%N) /\ joined_well (s ++ [46]%N) /\ phrase_shape s /\ phrase_shape [46]%N
  /\ tokens phrases_api 60 (Phrases.FromBytes (encode (s ++ [46]%N))) = Ok [encode s; [46]%N].
Proof.
  cbv zeta. split; [repeat (constructor; [unfold scalar; lia|]); constructor|]. split; [|split; [|split]].
  - intros b x y a E Zx Py. do 8 (destruct b as [|? b]; [injection E; intros; subst; first [vm_compute in Zx; discriminate Zx|discriminate|
      exists [72; 105; 32; 53]%N, 0x1F468%N, [0x200D]%N; split; [reflexivity|]; split; [constructor; [unfold word_mark; vm_compute; tauto|constructor]|]; left; left; left; vm_compute; reflexivity]|injection E as <- E]);
    destruct b; discriminate E.
  - apply PShape_phrase; [pcls|]. change (bases [105; 32; 53; 0x1F468; 0x200D; 0x1F469]%N) with [105; 32; 53; 0x1F468; 0x1F469]%N. do 5 (apply PChain_next; [pcls|ptog|]). constructor.
  - apply PShape_other; [|constructor]. unfold line_char. vm_compute. intuition discriminate.
  - vm_compute. reflexivity.
Qed.

(** After other characters a joiner holds a pictograph too: "(", ZERO WIDTH JOINER, a face. *)
Theorem C89_joiner_refuted : exists s, scalars s /\ s <> [] /\ tokens phrases_api 20 (Phrases.FromBytes (encode s)) = Ok [encode s] /\ ~ phrase_shape s.
Proof.
  exists [40; 0x200D; 0x1F600]%N. split; [repeat (constructor; [unfold scalar; lia|]); constructor|]. split; [discriminate|]. split; [vm_compute; reflexivity|].
  intros H. remember [40; 0x200D; 0x1F600]%N as s eqn:E. destruct H as [x y Ex Ey|d L|x y u Ex Ey Eb|x u Wx C|d u L F]; try discriminate E.
  - injection E as -> _. vm_compute in Ex. discriminate Ex.
  - injection E as -> _. unfold phrase_char, phrasal, p_letter, p_hebrew, p_digit, p_space, p_katakana, p_connector in Wx. vm_compute in Wx. intuition discriminate.
  - injection E as -> ->. inversion F as [|? ? _ F']; subst. inversion F' as [|? ? Q _]; subst. unfold word_mark in Q. vm_compute in Q. intuition discriminate.
Qed.
Print Assumptions C89_joiner_refuted.
