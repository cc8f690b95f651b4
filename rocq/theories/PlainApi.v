(** Plain text: from the decisions to the tokens. *)
From Verif Require Import Base ListFacts SpecUtf8 SpecIter SpecApi SpecUcd UcdNear SpecRules SpecWords SpecSentences SpecPlain SegFacts ConformApi ApiInst Conform ClusterAscii PlainFacts PlainWords PlainPhrases PlainSentences PropConform.
From Verif Require Words Phrases Sentences WordsConform PhrasesConform SentencesConform.

Lemma Forall_two : forall (Q : N -> Prop) b x y a, Forall Q (b ++ x :: y :: a) -> Forall Q (b ++ [x]) /\ Q x /\ Q y.
Proof.
  intros Q b x y a F. apply Forall_app in F. destruct F as (F1 & F2). pose proof (Forall_inv F2). pose proof (Forall_inv (Forall_inv_tail F2)).
  split; [apply Forall_app; auto|auto].
Qed.

Lemma words_plain : forall cps, Forall (fun c => plain_word c = true) cps -> segmentation word_decides cps (cut_where stays_word cps).
Proof.
  intros cps F. apply seg_where; [exact WordsConform.w_disjoint|]. intros b x y a ->. destruct (Forall_two _ _ _ _ _ F) as (_ & Fx & Fy). apply plain_word_dec; auto.
Qed.
Lemma phrases_plain : forall cps, scalars cps -> Forall (fun c => plain_word c = true) cps -> segmentation phrase_decides cps (cut_where stays_phrase cps).
Proof.
  intros cps Hs F. apply seg_where; [exact PhrasesConform.p_disjoint|]. intros b x y a ->. destruct (Forall_two _ _ _ _ _ F) as (_ & Fx & Fy).
  destruct (Forall_two _ _ _ _ _ Hs) as (_ & Sx & Sy). apply plain_phrase_dec; auto.
Qed.
Lemma sentences_plain : forall cps, Forall (fun c => no_term c = true) cps -> segmentation sentence_decides cps (cut_where stays_line cps).
Proof.
  intros cps F. apply seg_where; [exact SentencesConform.s_disjoint|]. intros b x y a ->. destruct (Forall_two _ _ _ _ _ F) as (Fb & _). apply plain_sentence_dec; auto.
Qed.

(** ** ASCII *)
Local Open Scope N_scope.
Lemma ascii1 : forall q, forallb q asciis = true -> forall c, c < 128 -> q c = true.
Proof. intros q H c Hc. exact (proj1 (forallb_forall _ _) H c (ascii_in c Hc)). Qed.
(** The classes of ASCII, one character at a time. *)
Definition alpha (c : N) : bool := between 65 c 90 || between 97 c 122.
Definition digit (c : N) : bool := between 48 c 57.
Definition word_class (c : N) : wb :=
  if alpha c then WB_ALetter else if digit c then WB_Numeric else if c =? 95 then WB_ExtendNumLet else if c =? 32 then WB_WSegSpace else if c =? 13 then WB_CR else if c =? 10 then WB_LF
  else if (c =? 11) || (c =? 12) then WB_Newline else if c =? 34 then WB_Double_Quote else if c =? 39 then WB_Single_Quote else if (c =? 44) || (c =? 59) then WB_MidNum
  else if c =? 46 then WB_MidNumLet else if c =? 58 then WB_MidLetter else WB_Other.
Lemma ascii_wb : forall c, c < 128 -> WB c = word_class c /\ ExtPict c = false.
Proof.
  intros c H. rewrite (WB_ascii c H), (ExtPict_ascii c H). assert (A : wb_beq (range_value WB_Other wb_ascii c) (word_class c) && negb (range_value false extpict_ascii c) = true).
  { revert c H. apply ascii1. vm_compute. reflexivity. }
  apply andb_prop in A. destruct A as (A & B). split; [apply internal_wb_dec_bl; exact A|apply negb_true_iff; exact B].
Qed.
Definition sent_class (c : N) : bool * bool * bool := (c =? 10, c =? 13, term_byte c).
Lemma ascii_sb : forall c, c < 128 -> sc SB_LF c = (c =? 10) /\ sc SB_CR c = (c =? 13) /\ sc SB_ATerm c || sc SB_STerm c = term_byte c /\ sc SB_Sep c = false.
Proof.
  intros c H. unfold sc. rewrite (SB_ascii c H).
  assert (A : let k := range_value SB_Other sb_ascii c in Bool.eqb (sb_beq k SB_LF) (c =? 10) && Bool.eqb (sb_beq k SB_CR) (c =? 13) && Bool.eqb (sb_beq k SB_ATerm || sb_beq k SB_STerm) (term_byte c) && negb (sb_beq k SB_Sep) = true).
  { revert c H. apply ascii1. vm_compute. reflexivity. }
  cbv zeta in A. apply andb_prop in A. destruct A as (A & A4). apply andb_prop in A. destruct A as (A & A3). apply andb_prop in A. destruct A as (A1 & A2).
  repeat split; [apply eqb_prop; exact A1|apply eqb_prop; exact A2|apply eqb_prop; exact A3|apply negb_true_iff; exact A4].
Qed.

Lemma ascii_plain : forall c, c < 128 -> plain_word c = negb (joint_byte c).
Proof.
  intros c Hc. unfold plain_word, ignored, wc. rewrite (proj1 (ascii_wb c Hc)). apply eqb_prop. revert c Hc. apply ascii1. vm_compute. reflexivity.
Qed.
Lemma ascii_no_term : forall c, c < 128 -> no_term c = negb (term_byte c).
Proof. intros c Hc. unfold no_term. destruct (ascii_sb c Hc) as (_ & _ & -> & _). reflexivity. Qed.
(** What the cuts look at. *)
Lemma ascii_classes : forall c, c < 128 -> letter c = alpha c /\ number c = digit c /\ katakana c = false /\ underscore c = (c =? 95) /\ space c = (c =? 32) /\ wc WB_CR c = (c =? 13) /\ wc WB_LF c = (c =? 10) /\ letter_p c = alpha c.
Proof.
  intros c H. unfold letter_p, letter, number, katakana, underscore, space, wc. destruct (ascii_wb c H) as (-> & ->).
  assert (A : let k := word_class c in Bool.eqb (wb_beq k WB_ALetter || wb_beq k WB_Hebrew_Letter) (alpha c) && Bool.eqb (wb_beq k WB_Numeric) (digit c) && negb (wb_beq k WB_Katakana) && Bool.eqb (wb_beq k WB_ExtendNumLet) (c =? 95)
    && Bool.eqb (wb_beq k WB_WSegSpace) (c =? 32) && Bool.eqb (wb_beq k WB_CR) (c =? 13) && Bool.eqb (wb_beq k WB_LF) (c =? 10) = true).
  { revert c H. apply ascii1. vm_compute. reflexivity. }
  cbv zeta in A. repeat match type of A with _ && _ = true => let X := fresh "X" in apply andb_prop in A; destruct A as (A & X) end. rewrite orb_false_r.
  repeat split; first [apply eqb_prop; assumption|apply negb_true_iff; assumption].
Qed.
Lemma under_alone : forall c, c =? 95 = true -> alpha c = false /\ digit c = false.
Proof. intros c H. apply N.eqb_eq in H. subst c. split; reflexivity. Qed.
Lemma ascii_stays_word : forall x y, x < 128 -> y < 128 -> stays_word x y = ascii_word x y.
Proof.
  intros x y Hx Hy. unfold stays_word, ascii_word, crlf, word_byte. destruct (ascii_classes x Hx) as (-> & -> & -> & -> & -> & -> & _ & _). destruct (ascii_classes y Hy) as (-> & -> & -> & -> & -> & _ & -> & _).
  fold (alpha x) (alpha y) (digit x) (digit y). destruct (x =? 13), (y =? 10), (x =? 32), (y =? 32), (alpha x), (alpha y), (digit x), (digit y), (x =? 95), (y =? 95); reflexivity.
Qed.
Lemma ascii_stays_phrase : forall x y, x < 128 -> y < 128 -> stays_phrase x y = ascii_phrase x y.
Proof.
  intros x y Hx Hy. unfold stays_phrase, ascii_phrase, crlf, word_byte. destruct (ascii_classes x Hx) as (_ & -> & -> & -> & -> & -> & _ & ->). destruct (ascii_classes y Hy) as (_ & -> & -> & -> & -> & _ & -> & ->).
  fold (alpha x) (alpha y) (digit x) (digit y). pose proof (under_alone x) as Ux. pose proof (under_alone y) as Uy.
  destruct (x =? 95); [destruct (Ux eq_refl) as (-> & ->)|]; (destruct (y =? 95); [destruct (Uy eq_refl) as (-> & ->)|]); clear Ux Uy;
    destruct (x =? 13), (y =? 10), (x =? 32), (y =? 32); try destruct (alpha x); try destruct (alpha y); try destruct (digit x); try destruct (digit y); reflexivity.
Qed.
Lemma ascii_stays_line : forall x y, x < 128 -> y < 128 -> stays_line x y = ascii_line x y.
Proof.
  intros x y Hx Hy. unfold stays_line, ascii_line, para_sep. destruct (ascii_sb x Hx) as (-> & -> & _ & ->). destruct (ascii_sb y Hy) as (-> & _). destruct (x =? 10), (x =? 13), (y =? 10); reflexivity.
Qed.

Lemma cut_ext : forall f g cps, (forall x y, x < 128 -> y < 128 -> f x y = g x y) -> Forall (fun c => c < 128) cps -> cut_where f cps = cut_where g cps.
Proof.
  intros f g cps E F. induction F as [|x r Hx F IH]; [reflexivity|]. destruct r as [|y r]; [reflexivity|].
  destruct (cut_head f y r) as (s & ss & Ef). rewrite (cut_two f x y r s ss Ef). rewrite IH in Ef. rewrite (cut_two g x y r s ss Ef), (E x y Hx (Forall_inv F)). reflexivity.
Qed.
Lemma ascii_map_encode : forall l, Forall ascii (concat l) -> map encode l = l.
Proof.
  intros l F. apply Forall_concat_inv in F. induction F as [|s l Hs F IH]; [reflexivity|]. cbn [map]. rewrite IH, (ascii_encode s Hs). reflexivity.
Qed.
