(** sentences, graphemes: text cut at the end of a token. *)
From Verif Require Import Base ListFacts Trie LookupFacts TableFacts Engine EngineMore Lk Seek SeekText SpecUtf8 SpecRules UcdFacts UcdSentences Conform Trunc Pieces BitFacts TableSentences SentencesEngine SentencesCut SentencesConform.
From Verif Require Sentences.
Import Sentences.
Local Open Scope N_scope.

Lemma scan_enc : forall a, scalars a -> exists a1 a2, a = a1 ++ a2 /\ forall fuel, (length (encode a) < fuel)%nat -> rscan fuel (encode a) true = Ok (ScanAt (length (encode a1))).
Proof. intros a Hs. destruct (scan_text a Hs) as (a1 & a2 & H1 & _ & _ & H4). eauto. Qed.

(** What SB8 finds in a text it finds in the text with something behind it. *)
Lemma sb8_none : forall a b p p1 a1, rscan (S (length (encode a ++ b))) (encode a ++ b) true = Ok (ScanAt p) -> gsubsequent sentences_lookup _Ignore _Lower (skipn p (encode a ++ b)) true = Ok (None, false) ->
  rscan (S (length (encode a))) (encode a) true = Ok (ScanAt p1) -> (p1 <= length (encode a))%nat -> gsubsequent sentences_lookup _Ignore _Lower (skipn p1 (encode a)) true = Ok (Some a1, false) -> False.
Proof.
  intros a b p p1 a1 Hs Hsub Hs1 K1 Hsub1. destruct (sub_found _ _ _ s_lk _ _ _ _ Hsub1) as (_ & _ & _ & _ & _ & _ & Ha1). rewrite skipn_length in Ha1.
  pose proof (rscan_stable _ _ _ (rscan_false _ _ _ Hs1) ltac:(lia) (S (length (encode a ++ b))) b true) as HS. rewrite HS in Hs by lia. injection Hs as <-.
  rewrite gsubsequent_rsub in Hsub1, Hsub by exact s_lk. apply rsub_found_any in Hsub1.
  pose proof (rsub_stable sentences_lookup _Ignore _Lower s_lk _ _ _ Hsub1 (S (length (skipn p1 (encode a ++ b)))) b true) as HQ. rewrite <- skipn_app_le in HQ by lia.
  rewrite HQ in Hsub by lia. discriminate.
Qed.

Lemma enc_firstn : forall a b, firstn (length (encode a)) (encode a ++ b) = encode a.
Proof. intros. rewrite firstn_app, firstn_all, Nat.sub_diag. apply app_nil_r. Qed.
Lemma one_char : forall x a, exists a1 a2, x :: a = a1 ++ a2 /\ length (utf8 x) = length (encode a1).
Proof. intros x a. exists [x], a. split; [reflexivity|]. cbn. rewrite app_nil_r. reflexivity. Qed.

Lemma s_RB : forall st x a b, scalars (x :: a) -> e_rules SE st (P x) (encode (x :: a) ++ b) (length (utf8 x)) true = Ok EBreak ->
  e_rules SE st (P x) (encode (x :: a)) (length (utf8 x)) true = Ok EBreak.
Proof.
  intros [last h0] x a b HS Hr. change (e_rules SE) with s_erules in *. unfold s_erules in *. cbv zeta in *. cbn [ss_current ss_hist] in *. unfold s_rules in *. set (d := encode (x :: a)) in *. set (w := length (utf8 x)) in *.
  destruct (N.lor (P x) last =? 0); [discriminate|]. destruct (is (P x) _LF && is last _CR); [discriminate|]. destruct (is last _ParaSep); [reflexivity|].
  destruct (is (P x) (N.lor _Extend _Format)); [discriminate|]. destruct (_ && _); [discriminate|]. destruct (_ && _); [discriminate|].
  destruct (is (h_lastExSpClose (s_update last h0)) _ATerm).
  2:{ destruct (s_rules_tail_total (P x) (s_update last h0) w) as (dt & Hdt & [-> | ->]); rewrite Hdt in *; cbn [bind] in *; [discriminate|reflexivity]. }
  rewrite scan_rscan in Hr |- * by lia. cbn [skipn] in *. destruct (rscan_total (S (length (d ++ b))) (d ++ b) true ltac:(lia)) as (sc & Hs & H1 & H2 & H3). rewrite Hs in Hr. cbn [bind] in Hr.
  destruct sc as [p| |]; cbn [shift_scan Nat.add] in Hr.
  3:{ specialize (H3 eq_refl). discriminate. }
  2:{ cbn [bind] in Hr. destruct (d ++ b) as [|c d'] eqn:ED; [|discriminate]. apply app_eq_nil in ED. destruct ED as [ED _]. unfold d in ED. apply encode_nil_inv in ED. discriminate. }
  specialize (H1 _ eq_refl). rewrite slice_from_ok in Hr by lia. cbn [bind] in Hr. rewrite subsequent_gsub in Hr.
  destruct (gsubsequent_total sentences_lookup _Ignore _Lower s_lk (skipn p (d ++ b)) true) as (r & m & Hsub & G1 & _). specialize (G1 eq_refl). subst m. rewrite Hsub in Hr. cbn [bind] in Hr.
  destruct r as [q|]; [discriminate|].
  destruct (scan_enc (x :: a) HS) as (a1 & a2 & Ea & HSC). fold d in HSC. rewrite HSC by lia. cbn [bind shift_scan Nat.add].
  assert (L1 : (length (encode a1) <= length d)%nat) by (unfold d; rewrite Ea, encode_app, app_length; lia).
  rewrite slice_from_ok by exact L1. cbn [bind]. rewrite subsequent_gsub.
  destruct (gsubsequent_total sentences_lookup _Ignore _Lower s_lk (skipn (length (encode a1)) d) true) as (r1 & m1 & Hsub1 & G1 & _). specialize (G1 eq_refl). subst m1. rewrite Hsub1. cbn [bind].
  destruct r1 as [q1|]; [|destruct (s_rules_tail_total (P x) (s_update last h0) w) as (dt & Hdt & [-> | ->]); rewrite Hdt in *; cbn [bind] in *; [discriminate|reflexivity]].
  exfalso. exact (sb8_none (x :: a) b p _ q1 Hs Hsub (HSC _ (Nat.lt_succ_diag_r _)) L1 Hsub1).
Qed.

Lemma s_RJ : forall st x a b adv st' n k, scalars (x :: a) -> e_rules SE st (P x) (encode (x :: a) ++ b) (length (utf8 x)) true = Ok (EJoin adv st') ->
  (s_mu st' (skipn adv (encode (x :: a) ++ b)) < n)%nat -> eloop SE n (skipn adv (encode (x :: a) ++ b)) true st' = Ok (Some k) -> (adv + k <= length (encode (x :: a)))%nat ->
  e_rules SE st (P x) (encode (x :: a)) (length (utf8 x)) true = Ok (EJoin adv st') /\ exists a1 a2, x :: a = a1 ++ a2 /\ adv = length (encode a1).
Proof.
  intros [last h0] x a b adv st' n k HS Hr Hmu HL Hk. change (e_rules SE) with s_erules in *. unfold s_erules in *. cbv zeta in *. cbn [ss_current ss_hist] in *. unfold s_rules in *.
  pose proof (Forall_inv HS) as Hx. assert (Hl : sentences_lookup (encode (x :: a) ++ b) = Ok (P x, length (utf8 x))) by (rewrite encode_cons, <- app_assoc; apply lk_cp; exact Hx).
  pose proof (s_lookup_in _ _ _ Hl) as HV. pose proof (utf8_len x) as Hw0.
  set (d := encode (x :: a)) in *. set (w := length (utf8 x)) in *.
  destruct (N.lor (P x) last =? 0). { cbn [bind Nat.add] in Hr |- *. injection Hr as <- <-. split; [reflexivity|apply one_char]. }
  destruct (is (P x) _LF && is last _CR). { cbn [bind Nat.add] in Hr |- *. injection Hr as <- <-. split; [reflexivity|apply one_char]. }
  destruct (is last _ParaSep). { discriminate. }
  fold _Ignore in Hr |- *. destruct (is (P x) _Ignore) eqn:EI. { cbn [bind Nat.add] in Hr |- *. injection Hr as <- <-. split; [reflexivity|apply one_char]. }
  destruct (_ && _). { cbn [bind Nat.add] in Hr |- *. injection Hr as <- <-. split; [reflexivity|apply one_char]. }
  destruct (_ && _). { cbn [bind Nat.add] in Hr |- *. injection Hr as <- <-. split; [reflexivity|apply one_char]. }
  destruct (is (h_lastExSpClose (s_update last h0)) _ATerm) eqn:EA.
  2:{ destruct (s_rules_tail_total (P x) (s_update last h0) w) as (dt & Hdt & [-> | ->]); rewrite Hdt in *; cbn [bind] in *; [|discriminate]. injection Hr as <- <-. split; [reflexivity|apply one_char]. }
  rewrite scan_rscan in Hr |- * by lia. cbn [skipn] in *. destruct (rscan_total (S (length (d ++ b))) (d ++ b) true ltac:(lia)) as (sc & Hs & H1 & H2 & H3). rewrite Hs in Hr. cbn [bind] in Hr.
  destruct sc as [p| |]; cbn [shift_scan Nat.add] in Hr.
  3:{ specialize (H3 eq_refl). discriminate. }
  2:{ cbn [bind] in Hr. destruct (d ++ b) as [|c d'] eqn:ED; discriminate. }
  specialize (H1 _ eq_refl). rewrite slice_from_ok in Hr by lia. cbn [bind] in Hr. rewrite subsequent_gsub in Hr.
  destruct (gsubsequent_total sentences_lookup _Ignore _Lower s_lk (skipn p (d ++ b)) true) as (r & m & Hsub & G1 & _). specialize (G1 eq_refl). subst m. rewrite Hsub in Hr. cbn [bind] in Hr.
  destruct (scan_enc (x :: a) HS) as (a1 & a2 & Ea & HSC). fold d in HSC. rewrite HSC by lia. cbn [bind shift_scan Nat.add].
  assert (L1 : (length (encode a1) <= length d)%nat) by (unfold d; rewrite Ea, encode_app, app_length; lia).
  rewrite slice_from_ok by exact L1. cbn [bind]. rewrite subsequent_gsub.
  destruct r as [q|].
  - cbn [bind] in Hr. injection Hr as <- <-. destruct (sub_found _ _ _ s_lk _ _ _ _ Hsub) as (_ & _ & _ & _ & _ & _ & Ha). rewrite skipn_length in Ha.
    destruct (rscan_at _ _ _ _ Hs ltac:(lia)) as (v1 & w1 & Hl1 & Hw1 & HS1). pose proof (s_lookup_in _ _ _ Hl1) as HV1.
    destruct (sub_head _ _ _ _ _ _ Hl1 Hw1 (stop_not_ignore _ HV1 HS1) Hsub) as [-> HL1]. pose proof (lower_exact _ HV1 HL1) as ->. rewrite Nat.add_0_r in *.
    assert (Hv : P x = _Lower \/ is (P x) stopProps = false).
    { destruct (is (P x) stopProps) eqn:ES; [left|right; reflexivity]. assert (Hd : d ++ b <> []) by (intros Z; rewrite Z in Hl; discriminate). cbn [rscan] in Hs. rewrite (is_nil_false _ Hd), Hl in Hs. cbn [bind] in Hs.
      rewrite (proj2 (Nat.eqb_neq _ _) Hw0), ES in Hs. injection Hs as <-. cbn [skipn] in Hl1. rewrite Hl in Hl1. injection Hl1 as -> _. reflexivity. }
    assert (Hk' : (w1 <= k)%nat) by (apply (lower_joined n (skipn p (d ++ b)) w1 (P x) last h0 k Hl1 Hw1 HV EI Hv EA); exact HL).
    destruct (rscan_cut _ _ _ _ _ (length d) (S (length (firstn (length d) (d ++ b)))) Hs ltac:(lia) Hl1 ltac:(lia) ltac:(lia)) as [HR|HR].
    2:{ exfalso. unfold d in HR. rewrite enc_firstn in HR. fold d in HR. rewrite HSC in HR by lia. discriminate. }
    unfold d in HR. rewrite enc_firstn in HR. fold d in HR. rewrite HSC in HR by lia. injection HR as HR. subst p.
    pose proof (sub_cut _ _ _ s_lk s_cut _ _ _ _ _ _ (length d - length (encode a1))%nat true Hsub Hl1 ltac:(lia)) as HC. rewrite <- skipn_firstn_comm in HC. unfold d at 1 2 in HC. rewrite enc_firstn in HC. fold d in HC.
    rewrite HC. cbn [bind]. rewrite Nat.add_0_r. split; [reflexivity|]. exists a1, a2. auto.
  - destruct (s_rules_tail_total (P x) (s_update last h0) w) as (dt & Hdt & [-> | ->]); rewrite Hdt in *; cbn [bind] in *; [|discriminate]. injection Hr as <- <-. split; [|apply one_char].
    destruct (gsubsequent_total sentences_lookup _Ignore _Lower s_lk (skipn (length (encode a1)) d) true) as (r1 & m1 & Hsub1 & G1 & _). specialize (G1 eq_refl). subst m1. rewrite Hsub1. cbn [bind].
    destruct r1 as [q1|]; [|rewrite ?Hdt; reflexivity]. exfalso. exact (sb8_none (x :: a) b p _ q1 Hs Hsub (HSC _ (Nat.lt_succ_diag_r _)) L1 Hsub1).
Qed.

Lemma s_pieces : forall a b n, scalars a -> a <> [] -> (n <= length (encode a))%nat ->
  splitFunc (encode a ++ b) true = Ok (e_done n (firstn n (encode a ++ b))) -> splitFunc (encode a) true = Ok (e_done n (firstn n (encode a))).
Proof.
  intros a b n Hs Ha Hn H. rewrite <- s_split_engine in H |- *.
  exact (pieces_split SE s_mu s_lk s_rules_ok s_fuel s_FU P P lk_cp lk_cp s_RB s_RJ a b n Hs Ha Hn H).
Qed.
