(** The loops of words/bleve_compat.go against their specification. *)
From Verif Require Import Base ListFacts Trie LookupFacts TableFacts Engine Lk Seek SeekText Trunc SpecUtf8 SpecUcd SpecLookup SpecRules SpecWords SpecBleve
  BitFacts Conform UcdFacts UcdWords TableWords LookupOnly DecodeFacts WordsEngine WordsConform.
From Verif Require Words Utf8.
Import Words.
Local Open Scope N_scope.

Lemma utf8_head : forall x y a b, scalar x -> scalar y -> utf8 x ++ a = utf8 y ++ b -> x = y /\ a = b.
Proof.
  intros x y a b Hx Hy E. pose proof (decode_utf8 x a Hx) as D. rewrite E, (decode_utf8 y b Hy) in D. injection D as -> _. split; [reflexivity|]. apply app_inv_head in E. exact E.
Qed.
Lemma w_lookup_char : forall d v w, words_lookup d = Ok (v, w) -> v <> 0 -> exists cp rest, scalar cp /\ d = utf8 cp ++ rest /\ v = P cp /\ w = length (utf8 cp).
Proof.
  intros d v w H Hv. destruct (lookup_only _ _ w_only d v w H Hv) as (cp & rest & S & E & W). exists cp, rest. split; [exact S|]. split; [exact E|]. split; [|exact W].
  pose proof (w_lookup_cp cp rest S) as HL. rewrite <- E, H in HL. injection HL as -> _. reflexivity.
Qed.
Lemma is_nz : forall v p, is v p = true -> v <> 0.
Proof. intros v p H ->. discriminate. Qed.

Lemma b_num : forall c, is (P c) _Numeric = true <-> is_numeric c.
Proof. intros c. unfold is_numeric, words_property. generalize (WB c) (ExtPict c) (SpecUcd.BleveIdeographic c). intros [] [] []; split; intros H; try reflexivity; discriminate H. Qed.
Lemma b_enl : forall c, is (P c) _ExtendNumLet = true <-> is_extendnumlet c.
Proof. intros c. unfold is_extendnumlet, words_property. generalize (WB c) (ExtPict c) (SpecUcd.BleveIdeographic c). intros [] [] []; split; intros H; try reflexivity; discriminate H. Qed.
Lemma b_mid : forall c, is (P c) (N.lor _MidNum _MidNumLetQ) = true <-> is_mid c.
Proof. intros c. unfold is_mid, words_property. generalize (WB c) (ExtPict c) (SpecUcd.BleveIdeographic c). intros [] [] []; split; intros H; try reflexivity; try discriminate H; auto; destruct H as [H|[H|H]]; discriminate H. Qed.
Lemma b_ideo : forall c, is (P c) _BleveIdeographic = SpecUcd.BleveIdeographic c.
Proof. intros c. unfold words_property. generalize (WB c) (ExtPict c) (SpecUcd.BleveIdeographic c). intros [] [] []; reflexivity. Qed.
Lemma b_excl : forall c, (is_numeric c -> is (P c) _Ignore = false /\ ~ is_extendnumlet c /\ ~ is_mid c /\ is (P c) (N.lor _MidNum _MidNumLetQ) = false /\ is (P c) _ExtendNumLet = false)
  /\ (is_extendnumlet c -> is (P c) _Ignore = false /\ ~ is_mid c /\ is (P c) (N.lor _MidNum _MidNumLetQ) = false /\ is (P c) _Numeric = false)
  /\ (is_mid c -> is (P c) _Ignore = false /\ is (P c) _ExtendNumLet = false /\ is (P c) _Numeric = false).
Proof.
  intros c. unfold is_numeric, is_extendnumlet, is_mid, words_property. generalize (WB c) (ExtPict c) (SpecUcd.BleveIdeographic c).
  intros [] [] []; (split; [|split]); intros H; try discriminate H; try (destruct H as [H|[H|H]]; discriminate H); repeat split; try reflexivity; try discriminate; intros [X|[X|X]]; discriminate.
Qed.

(** ** The lookahead *)
Lemma sub_sound : forall fuel d b a m, rsub words_lookup _Ignore _Numeric fuel d b = Ok (Some a, m) -> exists i c rest, scalars i /\ scalar c /\ Forall (fun x => ignored x = true) i /\ is_numeric c
  /\ d = encode i ++ utf8 c ++ rest /\ a = length (encode i).
Proof.
  induction fuel as [|fuel IH]; intros d b a m H; [discriminate|]. cbn [rsub] in H. destruct d as [|c0 d]; [discriminate|]. cbn [is_nil] in H.
  destruct (w_lk (c0 :: d) ltac:(discriminate)) as (v & w & Hl & Hw & _). rewrite Hl in H. cbn [bind] in H.
  destruct (Nat.eqb_spec w 0) as [_|E0]; [discriminate|]. destruct (is v _Ignore) eqn:EI.
  - rewrite slice_from_ok in H by exact Hw. cbn [bind] in H. destruct (rsub words_lookup _Ignore _Numeric fuel (skipn w (c0 :: d)) b) as [[[a'|] m']| |] eqn:E; try discriminate.
    cbn [bind option_map] in H. injection H as <- _. destruct (IH _ _ _ _ E) as (i & c & rest & Si & Sc & Fi & Nc & Ed & ->).
    destruct (w_lookup_char _ _ _ Hl (is_nz _ _ EI)) as (x & r & Sx & Ex & -> & ->). exists (x :: i), c, rest. rewrite encode_cons, app_length.
    split; [constructor; assumption|]. split; [exact Sc|]. split; [constructor; [rewrite c_IG; exact EI|exact Fi]|]. split; [exact Nc|]. split; [|reflexivity].
    rewrite Ex. rewrite Ex, skipn_app, skipn_all, Nat.sub_diag in Ed. cbn [app skipn] in Ed. rewrite Ed. rewrite <- app_assoc. reflexivity.
  - destruct (is v _Numeric) eqn:EP; [injection H as <- _|discriminate]. destruct (w_lookup_char _ _ _ Hl (is_nz _ _ EP)) as (x & r & Sx & Ex & -> & ->).
    exists [], x, r. split; [constructor|]. split; [exact Sx|]. split; [constructor|]. split; [apply b_num; exact EP|]. split; [exact Ex|reflexivity].
Qed.
Lemma sub_complete : forall i c rest b, scalars i -> scalar c -> Forall (fun x => ignored x = true) i -> is_numeric c ->
  gsubsequent words_lookup _Ignore _Numeric (encode i ++ utf8 c ++ rest) b = Ok (Some (length (encode i)), false).
Proof.
  intros i c rest b Si Sc Fi Nc. rewrite gsubsequent_rsub by exact w_lk.
  enough (HR : forall fuel, (length (encode i ++ utf8 c ++ rest) < fuel)%nat -> rsub words_lookup _Ignore _Numeric fuel (encode i ++ utf8 c ++ rest) b = Ok (Some (length (encode i)), false)) by (apply HR; lia).
  induction i as [|x i IH]; intros fuel Hf; (destruct fuel as [|fuel]; [lia|]); cbn [rsub].
  - cbn [encode map concat app length] in *. destruct (utf8_nonnil c) as (b0 & s0 & Eu). assert (is_nil (utf8 c ++ rest) = false) as -> by (rewrite Eu; reflexivity).
    rewrite (w_lookup_cp c rest Sc). cbn [bind]. rewrite (proj2 (Nat.eqb_neq _ _) (utf8_len c)). destruct (proj1 (b_excl c) Nc) as (-> & _). rewrite (proj2 (b_num c) Nc). reflexivity.
  - inversion Si as [|? ? Sx Si']; subst. inversion Fi as [|? ? Fx Fi']; subst. rewrite encode_cons, <- app_assoc in *.
    destruct (utf8_nonnil x) as (b0 & s0 & Eu). assert (is_nil (utf8 x ++ encode i ++ utf8 c ++ rest) = false) as -> by (rewrite Eu; reflexivity).
    rewrite (w_lookup_cp x _ Sx). cbn [bind]. rewrite (proj2 (Nat.eqb_neq _ _) (utf8_len x)). rewrite <- c_IG, Fx. rewrite slice_from_ok by (rewrite app_length; lia). cbn [bind].
    rewrite skipn_app, skipn_all, Nat.sub_diag. cbn [skipn app]. rewrite (IH Si' Fi' fuel). { cbn [bind option_map]. rewrite app_length. reflexivity. }
    rewrite app_length in Hf. pose proof (utf8_len x). lia.
Qed.

(** ** BleveNumeric *)
Definition accepts (d : bytes) (p : list N -> Prop) : Prop := exists cps, scalars cps /\ d = encode cps /\ p cps.
Lemma accepts_cons : forall c rest (p q : list N -> Prop), scalar c -> (forall l, p (c :: l) <-> q l) -> accepts (utf8 c ++ rest) p <-> accepts rest q.
Proof.
  intros c rest p q Sc H. split; intros (cps & S & E & X).
  - destruct cps as [|x l]. { destruct (utf8_nonnil c) as (b0 & s0 & Eu). rewrite Eu in E. discriminate E. }
    inversion S as [|? ? Sx Sl]; subst. rewrite encode_cons in E. destruct (utf8_head c x _ _ Sc Sx E) as [<- ->]. exists l. split; [exact Sl|]. split; [reflexivity|apply H; exact X].
  - exists (c :: cps). split; [constructor; assumption|]. rewrite encode_cons, E. split; [reflexivity|apply H; exact X].
Qed.
Lemma skipn_pre : forall i (z : bytes), skipn (length i) (i ++ z) = z.
Proof. intros i z. rewrite skipn_app, skipn_all, Nat.sub_diag. reflexivity. Qed.
Lemma split_text : forall i c i' c' rest l, scalars i -> scalar c -> Forall (fun x => ignored x = true) i -> is_numeric c -> scalars i' -> scalar c' -> Forall (fun x => ignored x = true) i' -> is_numeric c' ->
  encode i ++ utf8 c ++ rest = encode i' ++ utf8 c' ++ l -> rest = l.
Proof.
  intros i c i' c' rest l Si Sc Fi Nc Si' Sc' Fi' Nc' E. pose proof (sub_complete i c rest true Si Sc Fi Nc) as H. rewrite E, (sub_complete i' c' l true Si' Sc' Fi' Nc') in H. injection H as H.
  assert (E2 : utf8 c ++ rest = utf8 c' ++ l). { apply (f_equal (skipn (length (encode i)))) in E. rewrite skipn_pre, <- H, skipn_pre in E. exact E. }
  destruct (utf8_head _ _ _ _ Sc Sc' E2) as [_ ->]. reflexivity.
Qed.


Ltac kinds x := repeat match goal with
  | H : is_numeric x |- _ => apply b_num in H
  | H : is_extendnumlet x |- _ => apply b_enl in H
  | H : is_mid x |- _ => apply b_mid in H
  end.
(** No character of another kind can start what may follow. *)
Lemma rest_head : forall a d v w, d <> [] -> words_lookup d = Ok (v, w) -> is v _Numeric = false -> is v _ExtendNumLet = false -> is v (N.lor _MidNum _MidNumLetQ) = false -> ~ accepts d (numeric_rest a).
Proof.
  intros a d v w Hd Hl H1 H2 H3 (cps & S & -> & X). destruct cps as [|x l]; [destruct (Hd eq_refl)|]. inversion S as [|? ? Sx Sl]; subst.
  rewrite encode_cons, (w_lookup_cp x _ Sx) in Hl. injection Hl as <- _.
  inversion X; subst; kinds x; congruence.
Qed.

Lemma skipn_skipn' : forall a b (l : bytes), skipn (a + b) l = skipn b (skipn a l).
Proof. intros a b l. rewrite skipn_skipn. f_equal. lia. Qed.

Lemma bn_rest : forall fuel token pos c lx ll a, (0 < pos <= length token)%nat -> (length token - pos < fuel)%nat ->
  (is_numeric c /\ a = true \/ is_extendnumlet c /\ a = false) ->
  exists b, bn_loop fuel token pos (P c) lx ll = Ok b /\ (b = true <-> accepts (skipn pos token) (numeric_rest a)).
Proof.
  intros fuel. induction fuel as [fuel IH0] using lt_wf_ind. intros token pos c lx ll a Hp Hf Ha. destruct fuel as [|fuel]; [lia|].
  assert (IH : forall m pos c lx ll a, (m <= fuel)%nat -> (0 < pos <= length token)%nat -> (length token - pos < m)%nat -> (is_numeric c /\ a = true \/ is_extendnumlet c /\ a = false) ->
     exists b, bn_loop m token pos (P c) lx ll = Ok b /\ (b = true <-> accepts (skipn pos token) (numeric_rest a))) by (intros; apply IH0; auto; lia). clear IH0.
  cbn [bn_loop].
  destruct (Nat.ltb_spec pos (length token)) as [Hlt|Hge].
  2:{ exists true. split; [reflexivity|]. rewrite skipn_all2 by lia. split; [|reflexivity]. intros _. exists []. split; [constructor|]. split; [reflexivity|constructor]. }
  assert (HI : is (P c) _Ignore = false). { destruct Ha as [[Ha _]|[Ha _]]; apply (b_excl c) in Ha; apply Ha. }
  rewrite slice_from_ok by lia. cbn [bind]. destruct (w_lk (skipn pos token)) as (v & w & Hl & Hw & _); [apply skipn_nonnil; lia|]. rewrite Hl. cbn [bind]. rewrite HI. cbn [negb].
  replace (Nat.eqb pos 0) with false by (symmetry; apply Nat.eqb_neq; lia). rewrite skipn_length in Hw.
  destruct (is v _Numeric) eqn:EN.
  { destruct (w_lookup_char _ _ _ Hl (is_nz _ _ EN)) as (x & r & Sx & Ex & -> & ->). apply b_num in EN. destruct (proj1 (b_excl x) EN) as (XI & XE & XM & XB & XE').
    assert (HS : skipn (pos + length (utf8 x)) token = r). { rewrite skipn_skipn', Ex. apply skipn_pre. }
    destruct (IH fuel (pos + length (utf8 x))%nat x (P c) lx true ltac:(lia)) as (b & Hb & HB); [pose proof (utf8_len x); lia|pose proof (utf8_len x); lia|left; auto|].
    rewrite HS in HB. exists b. split.
    - rewrite andb_true_r. cbn [andb]. destruct Ha as [[Ha _]|[Ha _]].
      + apply b_num in Ha. rewrite Ha. exact Hb.
      + destruct (proj1 (proj2 (b_excl c)) Ha) as (_ & _ & YB & YN). rewrite YN, YB, XB, XE'. cbn [andb]. apply b_enl in Ha. rewrite Ha. exact Hb.
    - rewrite HB, Ex. symmetry. apply accepts_cons; auto.
      intros l. split; [|intros H; apply nr_numeric; assumption]. intros H. inversion H; subst; auto; contradiction. }
  rewrite andb_false_r. cbn [andb].
  destruct (is v _ExtendNumLet) eqn:EE.
  { destruct (w_lookup_char _ _ _ Hl (is_nz _ _ EE)) as (x & r & Sx & Ex & -> & ->). apply b_enl in EE. destruct (proj1 (proj2 (b_excl x)) EE) as (XI & XM & XB & XN).
    assert (HS : skipn (pos + length (utf8 x)) token = r). { rewrite skipn_skipn', Ex. apply skipn_pre. }
    destruct (IH fuel (pos + length (utf8 x))%nat x (P c) lx false ltac:(lia)) as (b & Hb & HB); [pose proof (utf8_len x); lia|pose proof (utf8_len x); lia|right; auto|].
    rewrite HS in HB. exists b. split.
    - rewrite XB. cbn [andb]. destruct Ha as [[Ha _]|[Ha _]]; [apply b_num in Ha; rewrite is_lor_r, Ha; cbn [orb]|apply b_enl in Ha; rewrite is_lor_r, Ha, orb_true_r]; exact Hb.
    - rewrite HB, Ex. symmetry. apply accepts_cons; auto.
      intros l. split; [|intros H; apply nr_extendnumlet; assumption]. intros H. inversion H; subst; auto; [|contradiction].
      exfalso; kinds x; congruence. }
  cbn [andb]. destruct (is v (N.lor _MidNum _MidNumLetQ)) eqn:EM.
  2:{ cbn [andb]. exists false. split; [reflexivity|]. split; [discriminate|]. intros H. exfalso. revert H. apply (rest_head a _ v w); auto. apply skipn_nonnil; lia. }
  cbn [andb]. destruct (w_lookup_char _ _ _ Hl (is_nz _ _ EM)) as (x & r & Sx & Ex & -> & ->). apply b_mid in EM. destruct (proj2 (proj2 (b_excl x)) EM) as (XI & XE & XN).
  assert (HS : skipn (pos + length (utf8 x)) token = r). { rewrite skipn_skipn', Ex. apply skipn_pre. }
  assert (HL : (length token - pos)%nat = (length (utf8 x) + length r)%nat). { rewrite <- skipn_length, Ex, app_length. reflexivity. }
  pose proof (utf8_len x) as Hx0.
  destruct Ha as [[Ha Hat]|[Ha Hat]]; subst a.
  2:{ destruct (proj1 (proj2 (b_excl c)) Ha) as (_ & _ & _ & YN). rewrite YN. exists false. split; [reflexivity|]. split; [discriminate|]. intros (cps & S & E & X). rewrite Ex in E.
      destruct cps as [|y l]. { destruct (utf8_nonnil x) as (b0 & s0 & Eu). rewrite Eu in E. discriminate E. }
      inversion S as [|? ? Sy Sl]; subst. rewrite encode_cons in E. destruct (utf8_head x y _ _ Sx Sy E) as [<- _].
      inversion X; subst; kinds x; congruence. }
  assert (Ha' := proj2 (b_num c) Ha). rewrite Ha'. rewrite slice_from_ok by lia. cbn [bind]. rewrite HS.
  rewrite subsequent_gsub. destruct (gsubsequent_total words_lookup _Ignore _Numeric w_lk r true) as (o & m & Ho & _). rewrite Ho. cbn [bind]. destruct o as [adv|].
  - rewrite gsubsequent_rsub in Ho by exact w_lk. destruct (sub_sound _ _ _ _ _ Ho) as (i & n & rest & Si & Sn & Fi & Nn & Er & ->).
    assert (HS2 : skipn (pos + (length (utf8 x) + length (encode i))) token = utf8 n ++ rest). { rewrite Nat.add_assoc, skipn_skipn', HS, Er. apply skipn_pre. }
    assert (HL2 : length r = (length (encode i) + (length (utf8 n) + length rest))%nat) by (rewrite Er, !app_length; reflexivity).
    pose proof (utf8_len n) as Hn0. destruct fuel as [|fuel]; [lia|]. cbn [bn_loop].
    rewrite (proj2 (Nat.ltb_lt _ _)) by lia. rewrite slice_from_ok by lia. cbn [bind]. rewrite HS2, (w_lookup_cp n rest Sn). cbn [bind]. rewrite XI. cbn [negb].
    replace (Nat.eqb (pos + (length (utf8 x) + length (encode i))) 0) with false by (symmetry; apply Nat.eqb_neq; lia).
    rewrite XN. cbn [andb]. rewrite (proj2 (b_num n) Nn), (proj2 (b_mid x) EM), Ha'. cbn [andb].
    destruct (IH fuel (pos + (length (utf8 x) + length (encode i)) + length (utf8 n))%nat n (P x) (P c) true ltac:(lia)) as (b & Hb & HB); [lia|lia|left; auto|].
    exists b. split; [exact Hb|]. rewrite HB. rewrite skipn_skipn', HS2, skipn_pre, Ex, Er. split; intros (cps & S & E & X).
    + exists (x :: i ++ n :: cps). split; [constructor; [exact Sx|apply Forall_app; split; [exact Si|constructor; assumption]]|]. split; [|apply nr_mid; assumption].
      rewrite encode_cons, encode_app, encode_cons, E. reflexivity.
    + destruct cps as [|y l]. { destruct (utf8_nonnil x) as (b0 & s0 & Eu). rewrite Eu in E. discriminate E. }
      inversion S as [|? ? Sy Sl]; subst. rewrite encode_cons in E. destruct (utf8_head x y _ _ Sx Sy E) as [<- E']. clear E.
      inversion X as [ |? ? ? Q1 Q2|? ? ? Q1 Q2|m0 i0 c0 l0 Q1 Q2 Q3 Q4]; subst; [apply b_num in Q1; congruence|apply b_enl in Q1; congruence|].
      apply Forall_app in Sl. destruct Sl as [Si1 Sl]. inversion Sl as [|? ? Sc1 Sl1]; subst.
      exists l0. split; [exact Sl1|]. split; [|exact Q4]. apply (split_text i n i0 c0); auto. rewrite E', encode_app, encode_cons. reflexivity.
  - exists false. split; [reflexivity|]. split; [discriminate|]. intros (cps & S & E & X). rewrite Ex in E.
    destruct cps as [|y l]. { destruct (utf8_nonnil x) as (b0 & s0 & Eu). rewrite Eu in E. discriminate E. }
    inversion S as [|? ? Sy Sl]; subst. rewrite encode_cons in E. destruct (utf8_head x y _ _ Sx Sy E) as [<- E']. clear E.
    inversion X as [ |? ? ? Q1 Q2|? ? ? Q1 Q2|m0 i0 c0 l0 Q1 Q2 Q3 Q4]; subst; [apply b_num in Q1; congruence|apply b_enl in Q1; congruence|].
    apply Forall_app in Sl. destruct Sl as [Si1 Sl]. inversion Sl as [|? ? Sc1 Sl1]; subst.
    rewrite E', encode_app, encode_cons in Ho. pose proof (sub_complete i0 c0 (encode l0) true Si1 Sc1 Q2 Q3) as Q. congruence.
Qed.

Lemma accepts_nonnil : forall d (p q : list N -> Prop), d <> [] -> (forall c l, p (c :: l) <-> q (c :: l)) -> accepts d p <-> accepts d q.
Proof.
  intros d p q Hd H. split; intros (cps & S & E & X); (destruct cps as [|c l]; [destruct (Hd E)|]); exists (c :: l); (split; [exact S|]); (split; [exact E|]); apply H; exact X.
Qed.

Lemma numeric_correct : forall token, exists b, BleveNumeric token = Ok b /\ (b = true <-> accepts token bleve_numeric).
Proof.
  intros token. unfold BleveNumeric. cbn [bn_loop]. destruct token as [|b0 t0].
  { exists true. split; [reflexivity|]. split; [|reflexivity]. intros _. exists []. split; [constructor|]. split; [reflexivity|exact I]. }
  set (token := b0 :: t0). assert (Hd : token <> []) by discriminate. assert (Hl0 : (0 < length token)%nat) by (cbn; lia). clearbody token.
  rewrite (proj2 (Nat.ltb_lt _ _) Hl0). rewrite slice_from_ok by lia. cbn [bind skipn]. destruct (w_lk token Hd) as (v & w & Hl & Hw & _). rewrite Hl. cbn [bind Nat.eqb].
  change (is 0 _Ignore) with false. cbn [negb]. rewrite is_lor_r.
  destruct (is v _Numeric || is v _ExtendNumLet) eqn:EV.
  - assert (HV : v <> 0) by (intros ->; discriminate EV). destruct (w_lookup_char _ _ _ Hl HV) as (x & r & Sx & Ex & -> & ->). cbn [Nat.add].
    assert (HX : exists a, is_numeric x /\ a = true \/ is_extendnumlet x /\ a = false).
    { apply orb_true_iff in EV. destruct EV as [EV|EV]; [exists true; left|exists false; right]; (split; [|reflexivity]); [apply b_num|apply b_enl]; exact EV. }
    destruct HX as (a & HX). pose proof (utf8_len x). rewrite Ex, app_length in *.
    destruct (bn_rest (length (utf8 x) + length r) (utf8 x ++ r) (length (utf8 x)) x 0 0 a) as (b & Hb & HB); [rewrite app_length; lia|rewrite app_length; lia|exact HX|].
    exists b. split; [exact Hb|]. rewrite HB, skipn_pre. symmetry. apply accepts_cons; [exact Sx|]. intros l. cbn [bleve_numeric]. destruct HX as [[HX ->]|[HX ->]].
    + split; [intros [[_ Q]|[Q _]]; [exact Q|]|intros Q; left; auto]. exfalso. kinds x. destruct (b_excl x) as (B1 & B2 & _). apply b_enl in Q. apply b_num in HX. destruct (B1 HX) as (_ & _ & _ & _ & B). congruence.
    + split; [intros [[Q _]|[_ Q]]; [|exact Q]|intros Q; right; auto]. exfalso. destruct (b_excl x) as (B1 & B2 & _). destruct (B1 Q) as (_ & B & _). contradiction.
  - exists false. split; [reflexivity|]. split; [discriminate|]. intros (cps & S & -> & X). destruct cps as [|x l]; [destruct (Hd eq_refl)|]. inversion S as [|? ? Sx Sl]; subst.
    rewrite encode_cons, (w_lookup_cp x _ Sx) in Hl. injection Hl as <- _. apply orb_false_iff in EV. destruct EV as [E1 E2].
    destruct X as [[X _]|[X _]]; kinds x; congruence.
Qed.

(** ** BleveIdeographic *)
Definition ideo_more (x : N) : Prop := SpecUcd.BleveIdeographic x = true \/ is_extendnumlet x \/ ignored x = true.
Lemma b_more : forall c, is (P c) (N.lor _BleveIdeographic (N.lor _ExtendNumLet _Ignore)) = true <-> ideo_more c.
Proof.
  intros c. rewrite !is_lor_r, b_ideo, <- c_IG, !orb_true_iff. unfold ideo_more. rewrite b_enl. reflexivity.
Qed.
Lemma bi_rest : forall fuel token pos, (0 < pos <= length token)%nat -> (length token - pos < fuel)%nat ->
  exists b, bi_loop fuel token pos = Ok b /\ (b = true <-> accepts (skipn pos token) (Forall ideo_more)).
Proof.
  induction fuel as [|fuel IH]; intros token pos Hp Hf; [lia|]. cbn [bi_loop]. destruct (Nat.ltb_spec pos (length token)) as [Hlt|Hge].
  2:{ exists true. split; [reflexivity|]. rewrite skipn_all2 by lia. split; [|reflexivity]. intros _. exists []. split; [constructor|]. split; [reflexivity|constructor]. }
  rewrite slice_from_ok by lia. cbn [bind]. destruct (w_lk (skipn pos token)) as (v & w & Hl & Hw & _); [apply skipn_nonnil; lia|]. rewrite Hl. cbn [bind].
  replace (Nat.eqb pos 0) with false by (symmetry; apply Nat.eqb_neq; lia). rewrite skipn_length in Hw.
  destruct (is v _) eqn:EV.
  - destruct (w_lookup_char _ _ _ Hl (is_nz _ _ EV)) as (x & r & Sx & Ex & -> & ->). apply b_more in EV. pose proof (utf8_len x).
    destruct (IH token (pos + length (utf8 x))%nat ltac:(lia) ltac:(lia)) as (b & Hb & HB). exists b. split; [exact Hb|]. rewrite HB, skipn_skipn', Ex, skipn_pre. symmetry. apply accepts_cons; [exact Sx|].
    intros l. split; [intros Q; inversion Q; assumption|intros Q; constructor; assumption].
  - exists false. split; [reflexivity|]. split; [discriminate|]. intros (cps & S & E & X). destruct cps as [|x l]. { apply (f_equal (@length N)) in E. rewrite skipn_length in E. cbn in E. lia. }
    inversion S as [|? ? Sx Sl]; subst. rewrite E, encode_cons, (w_lookup_cp x _ Sx) in Hl. injection Hl as <- _. inversion X as [|? ? Q _]; subst. apply b_more in Q. congruence.
Qed.
Lemma ideographic_correct : forall token, exists b, Words.BleveIdeographic token = Ok b /\ (b = true <-> accepts token bleve_ideographic).
Proof.
  intros token. unfold Words.BleveIdeographic. cbn [bi_loop]. destruct token as [|b0 t0].
  { exists true. split; [reflexivity|]. split; [|reflexivity]. intros _. exists []. split; [constructor|]. split; [reflexivity|exact I]. }
  set (token := b0 :: t0). assert (Hd : token <> []) by discriminate. assert (Hl0 : (0 < length token)%nat) by (cbn; lia). clearbody token.
  rewrite (proj2 (Nat.ltb_lt _ _) Hl0). rewrite slice_from_ok by lia. cbn [bind skipn]. destruct (w_lk token Hd) as (v & w & Hl & Hw & _). rewrite Hl. cbn [bind Nat.eqb].
  destruct (is v _) eqn:EV.
  - destruct (w_lookup_char _ _ _ Hl (is_nz _ _ EV)) as (x & r & Sx & Ex & -> & ->). rewrite b_ideo in EV. cbn [Nat.add]. pose proof (utf8_len x). rewrite Ex, app_length in *.
    destruct (bi_rest (length (utf8 x) + length r) (utf8 x ++ r) (length (utf8 x))) as (b & Hb & HB); [rewrite app_length; lia|rewrite app_length; lia|].
    exists b. split; [exact Hb|]. rewrite HB, skipn_pre. symmetry. apply accepts_cons; [exact Sx|]. intros l. cbn [bleve_ideographic]. fold ideo_more. unfold ideo_more. tauto.
  - exists false. split; [reflexivity|]. split; [discriminate|]. intros (cps & S & -> & X). destruct cps as [|x l]; [destruct (Hd eq_refl)|]. inversion S as [|? ? Sx Sl]; subst.
    rewrite encode_cons, (w_lookup_cp x _ Sx) in Hl. injection Hl as <- _. rewrite b_ideo in EV. destruct X as [X _]. congruence.
Qed.
