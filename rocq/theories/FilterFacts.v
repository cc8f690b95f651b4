(** Decoding runes: utf8.DecodeRune and the loop of filter.AlphaNumeric against their specification. *)
From Verif Require Import Base ListFacts Utf8 SpecUtf8 SpecRunes DecodeFacts Conform UcdFacts LookupOnly BleveFacts Filter.
Local Open Scope N_scope.

Lemma between_iff : forall lo hi b, between lo hi b = true <-> lo <= b <= hi.
Proof. intros. unfold between. rewrite andb_true_iff, !N.leb_le. reflexivity. Qed.
Ltac betw := repeat match goal with
  | H : _ && _ = true |- _ => apply andb_true_iff in H; destruct H
  | H : isCont _ = true |- _ => unfold isCont in H
  | H : between _ _ _ = true |- _ => apply between_iff in H
  end.
Lemma accept2_range : forall a b, accept2 a b = true -> 0x80 <= b <= 0xBF /\ (a = 0xE0 -> 0xA0 <= b) /\ (a = 0xED -> b < 0xA0) /\ (a = 0xF0 -> 0x90 <= b) /\ (a = 0xF4 -> b < 0x90).
Proof.
  intros a b H. unfold accept2 in H. destruct (N.eqb_spec a 0xE0), (N.eqb_spec a 0xED), (N.eqb_spec a 0xF0), (N.eqb_spec a 0xF4); subst; try congruence; betw; repeat split; intros; lia.
Qed.
(** Every answer with a width above 1, and every ASCII one, is a character; everything else is (U+FFFD, 1). *)
Lemma decode_cases : forall d r w, d <> [] -> DecodeRune d = (r, w) ->
  (exists rest, scalar r /\ d = utf8 r ++ rest /\ w = length (utf8 r)) \/ (r = RuneError /\ w = 1%nat /\ forall x z, scalar x -> d <> utf8 x ++ z).
Proof.
  intros d r w Hd H.
  assert (HC : forall x z, scalar x -> d = utf8 x ++ z -> exists rest, scalar r /\ d = utf8 r ++ rest /\ w = length (utf8 r)).
  { intros x z Sx E. rewrite E, (decode_utf8 x z Sx) in H. injection H as <- <-. exists z. auto. }
  assert (HE : r = RuneError -> w = 1%nat -> r = RuneError /\ w = 1%nat /\ forall x z, scalar x -> d <> utf8 x ++ z).
  { intros -> ->. split; [reflexivity|]. split; [reflexivity|]. intros x z Sx E. rewrite E, (decode_utf8 x z Sx) in H. injection H as -> H. cbv in H. discriminate. }
  destruct d as [|b0 s1]; [congruence|]. cbn [DecodeRune] in H. destruct (N.ltb_spec b0 0x80) as [L0|L0].
  { left. apply (HC b0 s1); [left; lia|]. unfold utf8. rewrite (proj2 (N.ltb_lt _ _) L0). reflexivity. }
  destruct (between 0xC2 0xDF b0) eqn:B2.
  { destruct s1 as [|b1 s2]; [right; apply HE; congruence|]. destruct (isCont b1) eqn:C1; [|right; apply HE; congruence]. left. betw.
    destruct (utf8_2 b0 b1 ltac:(lia) ltac:(lia)) as (cp & Sc & E). apply (HC cp s2 Sc). rewrite E. reflexivity. }
  destruct (between 0xE0 0xEF b0) eqn:B3.
  { destruct s1 as [|b1 [|b2 s3]]; try (right; apply HE; congruence). destruct (accept2 b0 b1 && isCont b2) eqn:C1; [|right; apply HE; congruence]. left.
    betw. apply accept2_range in H0. destruct (utf8_3 b0 b1 b2) as (cp & Sc & E); try lia; try tauto. apply (HC cp s3 Sc). rewrite E. reflexivity. }
  destruct (between 0xF0 0xF4 b0) eqn:B4; [|right; apply HE; congruence].
  destruct s1 as [|b1 [|b2 [|b3 s4]]]; try (right; apply HE; congruence). destruct (accept2 b0 b1 && isCont b2 && isCont b3) eqn:C1; [|right; apply HE; congruence]. left.
  betw. apply accept2_range in H0. destruct (utf8_4 b0 b1 b2 b3) as (cp & Sc & E); try lia; try tauto. apply (HC cp s4 Sc). rewrite E. reflexivity.
Qed.

Lemma runes_ex : forall d, exists l, runes d l.
Proof.
  intros d. remember (length d) as n eqn:Hn. revert d Hn. induction n as [n IH] using lt_wf_ind. intros d Hn. destruct d as [|b s]; [exists []; constructor|].
  destruct (DecodeRune (b :: s)) as [r w] eqn:E. destruct (decode_cases (b :: s) r w ltac:(discriminate) E) as [(rest & Sr & Ed & _)|(_ & _ & HB)].
  - assert (HL : (length rest < n)%nat). { rewrite Hn, Ed, app_length. pose proof (utf8_len r). lia. } destruct (IH _ HL rest eq_refl) as (l & Hl). exists (r :: l). rewrite Ed. constructor; assumption.
  - destruct (IH (length s) ltac:(cbn in Hn; lia) s eq_refl) as (l & Hl). exists (0xFFFD :: l). constructor; assumption.
Qed.
Lemma runes_fun : forall d l, runes d l -> forall l', runes d l' -> l = l'.
Proof.
  intros d l H. induction H as [|x rest l Sx H IH|b rest l HB H IH]; intros l' H'.
  - inversion H' as [|x rest l0 Sx H0 E|]; [reflexivity|]. destruct (utf8_nonnil x) as (b0 & s0 & Eu). rewrite Eu in E. discriminate E.
  - inversion H' as [E|y rest' l0 Sy H0 E|b rest' l0 HB H0 E].
    + destruct (utf8_nonnil x) as (b0 & s0 & Eu). rewrite Eu in E. discriminate E.
    + destruct (utf8_head y x _ _ Sy Sx E) as [-> ->]. f_equal. apply IH. assumption.
    + destruct (HB x rest Sx). exact E.
  - inversion H' as [|y rest' l0 Sy H0 E|? ? l0 HB' H0]; subst.
    + destruct (HB y rest' Sy). symmetry. exact E.
    + f_equal. apply IH. assumption.
Qed.
Lemma runes_encode : forall cps, scalars cps -> runes (encode cps) cps.
Proof. intros cps S. induction S as [|x l Sx S IH]; [constructor|]. rewrite encode_cons. constructor; assumption. Qed.

Section Filter.
  Variable IsLetter IsNumber : N -> bool.
  Lemma an_runes : forall fuel token pos, (pos <= length token)%nat -> (length token - pos < fuel)%nat ->
    exists b l, an_loop IsLetter IsNumber fuel token pos = Ok b /\ runes (skipn pos token) l /\ (b = true <-> exists r, In r l /\ (IsLetter r = true \/ IsNumber r = true)).
  Proof.
    induction fuel as [|fuel IH]; intros token pos Hp Hf; [lia|]. cbn [an_loop]. destruct (Nat.ltb_spec pos (length token)) as [Hlt|Hge].
    2:{ exists false, []. split; [reflexivity|]. rewrite skipn_all2 by lia. split; [constructor|]. split; [discriminate|]. intros (r & [] & _). }
    rewrite slice_from_ok by lia. cbn [bind]. destruct (DecodeRune (skipn pos token)) as [r w] eqn:E.
    assert (HN : skipn pos token <> []) by (apply skipn_nonnil; lia).
    assert (HQ : exists d', (forall l, runes d' l -> runes (skipn pos token) (r :: l)) /\ skipn (pos + w) token = d' /\ (0 < w <= length token - pos)%nat).
    { destruct (decode_cases _ r w HN E) as [(rest & Sr & Ed & ->)|(-> & -> & HB)].
      - exists rest. split; [intros l Hl; rewrite Ed; constructor; assumption|]. split; [rewrite skipn_skipn', Ed; apply skipn_pre|].
        rewrite <- skipn_length, Ed, app_length. pose proof (utf8_len r). lia.
      - rewrite skipn_skipn'. destruct (skipn pos token) as [|b s] eqn:Es; [congruence|]. exists s. split; [intros l Hl; constructor; assumption|]. split; [reflexivity|]. lia. }
    destruct HQ as (d' & HR & Hd' & Hw). destruct (IsLetter r || IsNumber r) eqn:EQ.
    - destruct (runes_ex d') as (l & Hl). exists true, (r :: l). split; [reflexivity|]. split; [apply HR; exact Hl|]. split; [|reflexivity]. intros _. exists r. split; [left; reflexivity|]. apply orb_true_iff. exact EQ.
    - destruct (IH token (pos + w)%nat ltac:(lia) ltac:(lia)) as (b & l & Hb & Hl & HB). rewrite Hd' in Hl. exists b, (r :: l). split; [exact Hb|]. split; [apply HR; exact Hl|]. rewrite HB.
      apply orb_false_iff in EQ. destruct EQ as [E1 E2]. split; intros (x & Hx & HX).
      + exists x. split; [right; exact Hx|exact HX].
      + destruct Hx as [<-|Hx]; [destruct HX; congruence|]. exists x. auto.
  Qed.
  Lemma alphanumeric_runes : forall token l, runes token l -> exists b, AlphaNumeric IsLetter IsNumber token = Ok b /\ (b = true <-> exists r, In r l /\ (IsLetter r = true \/ IsNumber r = true)).
  Proof.
    intros token l Hl. destruct (an_runes (S (length token)) token 0 ltac:(lia) ltac:(lia)) as (b & l' & Hb & Hl' & HB). rewrite (runes_fun _ _ Hl _ Hl'). exists b. auto.
  Qed.
End Filter.
