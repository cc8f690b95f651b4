(** C88: what words look like. *)
From Verif Require Import Base ListFacts SpecUtf8 SpecIter SpecApi SpecRules SpecUcd SpecWords SpecSpace SpecShape SpecGreedy RuleFacts SegFacts Conform ApiInst PropConform PropPieces PropGreedy GenTestsFacts GreedyFacts ShapeFacts.
From Verif Require Graphemes Words Sentences Phrases.

(** A text is one word exactly when it has the shape of one. *)
Theorem C88_one : forall s fuel, scalars s -> s <> [] -> no_joined_pictograph s -> length (encode s) < fuel ->
  (tokens words_api fuel (Words.FromBytes (encode s)) = Ok [encode s] <-> word_shape s).
Proof.
  intros s fuel Hs Ns Z Hf. rewrite <- (shape_single s Ns Z). destruct (C06_words_are_uax29 s fuel Hs Hf) as (segs & E & G & U). split.
  - intros T. rewrite T in E. injection E as E. change [encode s] with (map encode [s]) in E. apply map_encode_inj in E; [subst segs; exact G|constructor; [exact Hs|constructor]|apply scalars_concat; rewrite (proj1 G); exact Hs].
  - intros S. rewrite E, <- (U _ S). reflexivity.
Qed.
Print Assumptions C88_one.

Lemma zf_part : forall b s a, no_joined_pictograph (b ++ s ++ a) -> no_joined_pictograph s.
Proof. intros b s a Z b' x y a' ->. apply (Z (b ++ b') x y (a' ++ a)). rewrite <- !app_assoc. reflexivity. Qed.
Lemma munch_shape : forall cps segs, munch (alone words_api Words.FromBytes) cps segs -> scalars cps -> no_joined_pictograph cps -> munch word_shape cps segs.
Proof.
  intros cps segs M. induction M as [|s r segs Ns A L M IH]; intros Hs Z; [constructor|]. apply Forall_app in Hs as HS. destruct HS as [H1 H2].
  constructor; [exact Ns| | |apply IH; [exact H2|]].
  - apply (C88_one s _ H1 Ns (zf_part [] s r Z) (le_n _)). exact A.
  - intros s' r' E Lt W. rewrite E in Hs, Z. apply Forall_app in Hs as [H1' _]. apply (L s' r' E Lt). unfold alone. apply C88_one; [exact H1'|destruct s'; [cbn in Lt; lia|discriminate]|exact (zf_part [] s' r' Z)|lia|exact W].
  - apply (zf_part s r []). rewrite app_nil_r. exact Z.
Qed.
(** The words of a text are, from the front, the longest pieces that have the shape of a word. *)
Theorem C88_words : forall cps fuel, scalars cps -> no_joined_pictograph cps -> length (encode cps) < fuel ->
  exists segs, tokens words_api fuel (Words.FromBytes (encode cps)) = Ok (map encode segs) /\ munch word_shape cps segs /\ forall segs', munch word_shape cps segs' -> segs' = segs.
Proof.
  intros cps fuel Hs Z Hf. destruct (C85_words cps fuel Hs Hf) as (segs & E & M & _). exists segs. split; [exact E|]. pose proof (munch_shape cps segs M Hs Z) as M'. split; [exact M'|]. exact (munch_unique _ _ _ M').
Qed.
Print Assumptions C88_words.

(** What a word shape rules out: a word with a letter, digit, katakana or connector in it has no space, line ending or regional indicator in it,
    and begins with one of these characters. *)
Theorem C88_letters : forall s c, word_shape s -> In c s -> word_char c ->
  (exists x t, s = x :: t /\ word_char x) /\ forall y, In y s -> word_char y \/ word_mark y \/ (WB y = WB_MidLetter \/ WB y = WB_MidNum \/ WB y = WB_MidNumLet \/ WB y = WB_Single_Quote \/ WB y = WB_Double_Quote).
Proof.
  intros s c H I Wc. assert (NM : forall d, word_mark d -> ~ word_char d) by (intros d; unfold word_mark; classes; intuition congruence).
  assert (BI : forall t d, In d t -> word_mark d \/ In d (bases t)).
  { intros t d Hd. destruct (ignored d) eqn:E; [left; apply mark_iff; exact E|right]. apply filter_In. split; [exact Hd|]. rewrite E. reflexivity. }
  destruct H as [x y Ex Ey|d L|sp ms Ns F1 F2|x y u Ex Ey Eb|x u Wx C|d u L F].
  - exfalso. destruct I as [<-|[<-|[]]]; classes; intuition congruence.
  - exfalso. destruct I as [<-|[]]. unfold line_char in L. classes. intuition congruence.
  - exfalso. apply in_app_or in I as [I|I].
    + rewrite Forall_forall in F1. apply F1, space_iff in I. classes. intuition congruence.
    + rewrite Forall_forall in F2. exact (NM c (F2 c I) Wc).
  - exfalso. destruct I as [<-|I]; [classes; intuition congruence|]. destruct (BI u c I) as [Q|Q]; [exact (NM c Q Wc)|]. rewrite Eb in Q. destruct Q as [<-|[]]. classes. intuition congruence.
  - split; [exists x, u; auto|]. intros y [<-|Iy]; [left; exact Wx|]. destruct (BI u y Iy) as [Q|Q]; [right; left; exact Q|]. clear - C Q. revert Q. induction C as [x|x z r Hz G C IH|x m z r B C IH|x m Hx Hm]; intros Q.
    + destruct Q.
    + destruct Q as [<-|Q]; [left; exact Hz|exact (IH Q)].
    + destruct Q as [<-|[<-|Q]]; [|left; exact (proj1 (proj2 (between_chars _ _ _ B)))|exact (IH Q)]. right. right. classes. tauto.
    + destruct Q as [<-|[]]. right. right. classes. tauto.
  - destruct I as [<-|I]; [|rewrite Forall_forall in F; elim (NM c (F c I) Wc)]. split; [exists d, u; auto|]. intros y [<-|Iy]; [left; exact Wc|]. rewrite Forall_forall in F. right. left. exact (F y Iy).
Qed.
Print Assumptions C88_letters.

(** Words of the standard's own kind: "can't", "3,456.78", "A_1", an accented letter, a flag, two spaces, CR LF, "(" *)
Definition texts88 : list text := [[99; 97; 110; 39; 116]; [51; 44; 52; 53; 54; 46; 55; 56]; [65; 95; 49]; [101; 0x301; 98]; [0x1F1EB; 0x1F1F7]; [32; 32]; [13; 10]; [40]]%N.
Ltac cls_ := unfold word_char, letter, hebrew, digit, katakana, connector, single_quote; vm_compute; tauto.
Ltac togetherc := split; unfold katakana, letter, hebrew, digit; vm_compute; intuition discriminate.
Example C88_case : Forall word_shape texts88 /\ Forall scalars texts88 /\ no_joined_pictograph (concat texts88)
  /\ tokens words_api 60 (Words.FromBytes (encode (concat [[99; 97; 110; 39; 116]; [40]; [51; 44; 52; 53; 54; 46; 55; 56]; [32; 32]; [65; 95; 49]])%N)) = Ok (map encode [[99; 97; 110; 39; 116]; [40]; [51; 44; 52; 53; 54; 46; 55; 56]; [32; 32]; [65; 95; 49]]%N).
Proof.
  split; [|split; [|split]].
  - repeat apply Forall_cons; [| | | | | | | |constructor].
    + apply Shape_word; [cls_|]. change (bases [97; 110; 39; 116]%N) with [97; 110; 39; 116]%N. apply Chain_next; [cls_|togetherc|]. apply Chain_next; [cls_|togetherc|]. apply Chain_inside; [left; repeat split; cls_|]. constructor.
    + apply Shape_word; [cls_|]. change (bases [44; 52; 53; 54; 46; 55; 56]%N) with [44; 52; 53; 54; 46; 55; 56]%N. apply Chain_inside; [right; left; repeat split; cls_|].
      apply Chain_next; [cls_|togetherc|]. apply Chain_next; [cls_|togetherc|]. apply Chain_inside; [right; left; repeat split; cls_|]. apply Chain_next; [cls_|togetherc|]. constructor.
    + apply Shape_word; [cls_|]. change (bases [95; 49]%N) with [95; 49]%N. apply Chain_next; [cls_|togetherc|]. apply Chain_next; [cls_|togetherc|]. constructor.
    + apply Shape_word; [cls_|]. change (bases [0x301; 98]%N) with [98]%N. apply Chain_next; [cls_|togetherc|]. constructor.
    + apply (Shape_flag _ 0x1F1F7%N); vm_compute; reflexivity.
    + apply (Shape_spaces [32; 32]%N []); [discriminate| |constructor]. repeat constructor.
    + apply Shape_crlf; vm_compute; reflexivity.
    + apply Shape_other; [|constructor]. unfold line_char. vm_compute. intuition discriminate.
  - repeat (constructor; [repeat (constructor; [unfold scalar; lia|]); constructor|]). constructor.
  - intros b x y a E [Q _]. assert (A : forallb (fun c => negb (wb_beq (WB c) WB_ZWJ)) (concat texts88) = true) by (vm_compute; reflexivity). rewrite forallb_forall in A. specialize (A x). rewrite E in A.
    specialize (A ltac:(apply in_or_app; right; left; reflexivity)). rewrite Q in A. discriminate A.
  - vm_compute. reflexivity.
Qed.

(** A joiner holds a pictograph to any word, so the condition is needed: "a", ZERO WIDTH JOINER, a face. *)
Theorem C88_joiner_refuted : exists s, scalars s /\ s <> [] /\ tokens words_api 20 (Words.FromBytes (encode s)) = Ok [encode s] /\ ~ word_shape s.
Proof.
  exists [97; 0x200D; 0x1F600]%N. split; [repeat (constructor; [unfold scalar; lia|]); constructor|]. split; [discriminate|]. split; [vm_compute; reflexivity|].
  intros H. remember [97; 0x200D; 0x1F600]%N as s eqn:E. destruct H as [x y Ex Ey|d L|sp ms Ns F1 F2|x y u Ex Ey Eb|x u Wx C|d u L F]; try discriminate E.
  - destruct sp as [|z sp]; [contradiction|]. injection E as -> _. inversion F1 as [|? ? Q _]; subst. apply space_iff in Q. vm_compute in Q. discriminate Q.
  - injection E as -> _. vm_compute in Ex. discriminate Ex.
  - injection E as -> ->. change (bases [0x200D; 0x1F600]%N) with [0x1F600]%N in C. inversion C as [|? ? ? Wy _ _| |? ? _ Q]; subst; [|vm_compute in Q; discriminate Q]. unfold word_char, letter, hebrew, digit, katakana, connector in Wy. vm_compute in Wy. intuition discriminate.
  - injection E as -> ->. inversion F as [|? ? _ F']; subst. inversion F' as [|? ? Q _]; subst. unfold word_mark in Q. vm_compute in Q. intuition discriminate.
Qed.
Print Assumptions C88_joiner_refuted.
