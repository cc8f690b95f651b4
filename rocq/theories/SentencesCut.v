(** sentences: a token cut out of its text is a token. *)
From Verif Require Import Base ListFacts Trie LookupFacts TableFacts Engine EngineMore Lk Seek Trunc BitFacts TableSentences SentencesEngine.
From Verif Require Sentences.
Import Sentences.
Local Open Scope N_scope.

Lemma s_cut : lk_cut (fun v => v = 0) sentences_lookup.
Proof. exact (lk_cut_tables _ _ _ s_tables_ok). Qed.

Lemma rscan_false : forall fuel d p, rscan fuel d true = Ok (ScanAt p) -> rscan fuel d false = Ok (ScanAt p).
Proof.
  induction fuel as [|fuel IH]; intros d p H; [discriminate|]. cbn [rscan] in *. destruct (is_nil d); [exact H|]. destruct (sentences_lookup d) as [[v w]| |]; try discriminate. cbn [bind] in *.
  destruct (Nat.eqb w 0); [discriminate|]. destruct (is v stopProps); [exact H|]. destruct (slice_from d w) as [d'| |]; try discriminate. cbn [bind] in *.
  destruct (rscan fuel d' true) as [[q| |]| |] eqn:E; try discriminate. rewrite (IH _ _ E). exact H.
Qed.
(** Where the scan stops inside the data there is a character with a stop property. *)
Lemma rscan_at : forall fuel d b p, rscan fuel d b = Ok (ScanAt p) -> (p < length d)%nat -> exists v w, sentences_lookup (skipn p d) = Ok (v, w) /\ w <> 0%nat /\ is v stopProps = true.
Proof.
  induction fuel as [|fuel IH]; intros d b p H Hp; [discriminate|]. cbn [rscan] in H. destruct d as [|c d]; [cbn in Hp; lia|]. cbn [is_nil] in H.
  destruct (s_lk (c :: d) ltac:(discriminate)) as (v & w & Hl & Hw & _). rewrite Hl in H. cbn [bind] in H. destruct (Nat.eqb_spec w 0) as [_|E0]; [destruct b; discriminate|].
  destruct (is v stopProps) eqn:ES. { injection H as <-. exists v, w. auto. }
  rewrite slice_from_ok in H by exact Hw. cbn [bind] in H. destruct (rscan fuel (skipn w (c :: d)) b) as [[q| |]| |] eqn:E; try discriminate. cbn [bind] in H. injection H as <-.
  destruct (IH _ _ _ E) as (v1 & w1 & H1 & H2 & H3). { rewrite skipn_length. lia. } rewrite skipn_skipn, (Nat.add_comm q w) in H1. eauto.
Qed.
Lemma rscan_cut : forall fuel d p v w m fuel', rscan fuel d true = Ok (ScanAt p) -> (p < length d)%nat -> sentences_lookup (skipn p d) = Ok (v, w) -> (p + w <= m)%nat -> (length (firstn m d) < fuel')%nat ->
  rscan fuel' (firstn m d) true = Ok (ScanAt p) \/ rscan fuel' (firstn m d) true = Ok ScanEOF.
Proof.
  induction fuel as [|fuel IH]; intros d p v w m fuel' H Hp Hv Hm Hf; [discriminate|]. cbn [rscan] in H. destruct d as [|c d]; [cbn in Hp; lia|]. cbn [is_nil] in H.
  destruct (s_lk (c :: d) ltac:(discriminate)) as (v0 & w0 & Hl & Hw & _). rewrite Hl in H. cbn [bind] in H. destruct (Nat.eqb_spec w0 0) as [_|E0]; [discriminate|].
  destruct fuel' as [|fuel']; [lia|]. cbn [rscan]. destruct (is v0 stopProps) eqn:ES.
  - injection H as <-. cbn [skipn] in Hv. rewrite Hl in Hv. injection Hv as <- <-. rewrite is_nil_false by (apply firstn_nonnil; [discriminate|lia]).
    destruct (s_cut (c :: d) v0 w0 m ltac:(discriminate) Hl E0 ltac:(lia)) as [HL|(-> & _)]; [|discriminate ES]. rewrite HL. cbn [bind]. rewrite (proj2 (Nat.eqb_neq _ _) E0), ES. left; reflexivity.
  - rewrite slice_from_ok in H by exact Hw. cbn [bind] in H. destruct (rscan fuel (skipn w0 (c :: d)) true) as [[q| |]| |] eqn:E; try discriminate. cbn [bind] in H. injection H as <-.
    rewrite is_nil_false by (apply firstn_nonnil; [discriminate|lia]).
    destruct (s_cut (c :: d) v0 w0 m ltac:(discriminate) Hl E0 ltac:(lia)) as [HL|(_ & v' & HL)]; rewrite HL; cbn [bind]; [|right; reflexivity].
    rewrite (proj2 (Nat.eqb_neq _ _) E0), ES. rewrite slice_from_ok by (rewrite firstn_length; lia). cbn [bind]. rewrite skipn_firstn_comm.
    destruct (IH (skipn w0 (c :: d)) q v w (m - w0)%nat fuel' E) as [HI|HI].
    + rewrite skipn_length. lia.
    + rewrite skipn_skipn, (Nat.add_comm q w0). exact Hv.
    + lia.
    + rewrite firstn_length, skipn_length. rewrite firstn_length in Hf. lia.
    + rewrite HI. left; reflexivity.
    + rewrite HI. right; reflexivity.
Qed.

Lemma stop_not_ignore : forall v, In v sV -> is v stopProps = true -> is v _Ignore = false.
Proof.
  intros v Hv H. assert (A : forallb (fun v => negb (is v stopProps) || negb (is v _Ignore)) sV = true) by (vm_compute; reflexivity).
  rewrite forallb_forall in A. specialize (A v Hv). rewrite H in A. destruct (is v _Ignore); [discriminate|reflexivity].
Qed.
Lemma sub_head : forall d v w b a m, sentences_lookup d = Ok (v, w) -> w <> 0%nat -> is v _Ignore = false -> gsubsequent sentences_lookup _Ignore _Lower d b = Ok (Some a, m) -> a = 0%nat /\ is v _Lower = true.
Proof.
  intros d v w b a m Hl Hw HI H. rewrite gsubsequent_rsub in H by exact s_lk. cbn [rsub] in H. destruct d as [|c d]; [discriminate|]. cbn [is_nil] in H. rewrite Hl in H. cbn [bind] in H.
  rewrite (proj2 (Nat.eqb_neq _ _) Hw), HI in H. destruct (is v _Lower); [|discriminate]. injection H as <- _. auto.
Qed.
Lemma sub_at_lower : forall d w b, sentences_lookup d = Ok (_Lower, w) -> w <> 0%nat -> gsubsequent sentences_lookup _Ignore _Lower d b = Ok (Some 0%nat, false).
Proof.
  intros d w b Hl Hw. rewrite gsubsequent_rsub by exact s_lk. cbn [rsub]. destruct d as [|c d]; [discriminate|]. cbn [is_nil]. rewrite Hl. cbn [bind]. rewrite (proj2 (Nat.eqb_neq _ _) Hw). reflexivity.
Qed.
Lemma rscan_at_lower : forall d w b, sentences_lookup d = Ok (_Lower, w) -> w <> 0%nat -> rscan (S (length d)) d b = Ok (ScanAt 0).
Proof. intros d w b Hl Hw. cbn [rscan]. destruct d as [|c d]; [discriminate|]. cbn [is_nil]. rewrite Hl. cbn [bind]. rewrite (proj2 (Nat.eqb_neq _ _) Hw). reflexivity. Qed.

(** A Lower after a character that is not a paragraph separator and does not end a sentence is joined, at the latest in the second pass. *)
Lemma update_spclose : forall v last h0, is v _Ignore = false -> (is v _Close = true \/ is v _Sp = true) -> is v _Close && is v _Sp = false ->
  h_lastExSpClose (s_update v (s_update last h0)) = h_lastExSpClose (s_update last h0).
Proof.
  intros v last h0 HI HC HX. unfold s_update at 1. cbv zeta. cbn [h_lastExSpClose]. rewrite HI. cbn [negb]. destruct HC as [HC|HC].
  - rewrite HC in HX. cbn [andb] in HX. rewrite HX. cbn [negb]. rewrite HC. reflexivity.
  - rewrite HC. cbn [negb]. unfold s_update. cbv zeta. cbn [h_lastExSp h_lastExSpClose].
    match goal with |- context [is (if ?b then ?x else ?y) _Close] => destruct (is (if b then x else y) _Close) end; reflexivity.
Qed.

Lemma lower_joined : forall fuel d w v last h0 k, sentences_lookup d = Ok (_Lower, w) -> w <> 0%nat -> In v sV -> is v _Ignore = false ->
  v = _Lower \/ is v stopProps = false -> is (h_lastExSpClose (s_update last h0)) _ATerm = true ->
  eloop SE fuel d true {| ss_current := v; ss_hist := s_update last h0 |} = Ok (Some k) -> (w <= k)%nat.
Proof.
  intros fuel d w v last h0 k Hl Hw HV HI Hv HA H. destruct d as [|c d]; [discriminate|].
  assert (Tail : forall fuel v h k, s_erules {| ss_current := v; ss_hist := h |} _Lower (c :: d) w true = Ok (EJoin w {| ss_current := _Lower; ss_hist := s_update v h |}) ->
    eloop SE fuel (c :: d) true {| ss_current := v; ss_hist := h |} = Ok (Some k) -> (w <= k)%nat).
  { intros fuel1 v1 h1 k1 HE H1. destruct fuel1 as [|fuel1]; [discriminate|]. cbn [eloop is_nil] in H1. change (e_lk SE) with sentences_lookup in H1. rewrite Hl in H1. cbn [bind] in H1.
    rewrite (proj2 (Nat.eqb_neq _ _) Hw) in H1. change (e_rules SE) with s_erules in H1. rewrite HE in H1. cbn [bind] in H1. destruct (slice_from (c :: d) w); try discriminate. cbn [bind] in H1.
    match type of H1 with context [eloop ?x ?y ?z ?t ?q] => destruct (eloop x y z t q) as [[n|]| |] end; try discriminate. cbn [bind option_map] in H1. injection H1 as <-. lia. }
  assert (NL : N.lor _Lower v =? 0 = false). { apply N.eqb_neq. intros E. apply N.lor_eq_0_iff in E. destruct E; discriminate. }
  assert (NP : is v _ParaSep = false). { destruct Hv as [->|Hv]; [reflexivity|]. unfold stopProps in Hv. rewrite !is_lor_r in Hv. apply orb_false_iff in Hv. destruct Hv as [_ Hv].
    apply orb_false_iff in Hv. destruct Hv as [_ Hv]. apply orb_false_iff in Hv. destruct Hv as [_ Hv]. apply orb_false_iff in Hv. tauto. }
  assert (NS : is v _SATerm = false). { destruct Hv as [->|Hv]; [reflexivity|]. unfold stopProps in Hv. rewrite !is_lor_r in Hv. apply orb_false_iff in Hv. destruct Hv as [_ Hv].
    apply orb_false_iff in Hv. destruct Hv as [_ Hv]. apply orb_false_iff in Hv. destruct Hv as [_ Hv]. apply orb_false_iff in Hv. tauto. }
  destruct (is (h_lastExSpClose (s_update v (s_update last h0))) _ATerm) eqn:EA.
  - (* SB8 hits without moving; then the last character is the Lower itself *)
    destruct fuel as [|fuel]; [discriminate|]. cbn [eloop is_nil] in H. change (e_lk SE) with sentences_lookup in H. rewrite Hl in H. cbn [bind] in H.
    rewrite (proj2 (Nat.eqb_neq _ _) Hw) in H. change (e_rules SE) with s_erules in H. unfold s_erules in H. cbv zeta in H. cbn [ss_current ss_hist] in H. unfold s_rules in H.
    rewrite NL, NP, EA in H. change (is _Lower _LF) with false in H. change (is _Lower (N.lor _Extend _Format)) with false in H. change (is _Lower _Numeric) with false in H. change (is _Lower _Upper) with false in H.
    cbn [andb] in H. rewrite scan_rscan in H by lia. cbn [skipn] in H. rewrite (rscan_at_lower _ _ _ Hl Hw) in H. cbn [bind shift_scan Nat.add] in H. rewrite slice_from_ok in H by lia. cbn [bind skipn] in H.
    rewrite subsequent_gsub, (sub_at_lower _ _ _ Hl Hw) in H. cbn [bind Nat.add] in H. rewrite slice_from_ok in H by lia. cbn [bind skipn] in H.
    destruct (eloop SE fuel (c :: d) true _) as [[n|]| |] eqn:EL; try discriminate. cbn [bind option_map] in H. injection H as <-. cbn [Nat.add]. apply (Tail _ _ _ _) in EL; [exact EL|].
    reflexivity.
  - apply (Tail _ _ _ _) in H; [exact H|]. unfold s_erules. cbv zeta. cbn [ss_current ss_hist]. unfold s_rules.
    rewrite NL, NP, EA. change (is _Lower _LF) with false. change (is _Lower (N.lor _Extend _Format)) with false. change (is _Lower _Numeric) with false. change (is _Lower _Upper) with false. cbn [andb].
    unfold s_rules_tail. change (is _Lower (N.lor _SContinue _SATerm)) with false. change (is _Lower (N.lor _Close (N.lor _Sp _ParaSep))) with false. change (is _Lower (N.lor _Sp _ParaSep)) with false. cbn [andb].
    assert (EX : h_lastEx (s_update v (s_update last h0)) = v). { unfold s_update at 1. cbv zeta. cbn [h_lastEx]. rewrite HI. reflexivity. }
    rewrite !EX, NS, NP. cbn [andb orb]. assert (XX : is v _Close && is v _Sp = false).
    { assert (A : forallb (fun v => negb (is v _Close && is v _Sp)) sV = true) by (vm_compute; reflexivity). rewrite forallb_forall in A. specialize (A v HV). destruct (is v _Close && is v _Sp); [discriminate|reflexivity]. }
    destruct (is v _Close) eqn:EC. { rewrite (update_spclose v last h0 HI (or_introl EC)) in EA by (rewrite EC; exact XX). congruence. }
    destruct (is v _Sp) eqn:ES. { rewrite (update_spclose v last h0 HI (or_intror ES)) in EA by (rewrite EC; exact XX). congruence. }
    cbn [andb orb bind Nat.add]. reflexivity.
Qed.

Lemma s_rules_cut : rules_cut SE s_mu.
Proof.
  intros st v d w adv st' fuel k Hd Hl Hw Hr Hmu HL. change (e_lk SE) with sentences_lookup in *. change (e_rules SE) with s_erules in *.
  destruct (s_lk d Hd) as (v0 & w0 & Hl0 & Hle & _). rewrite Hl in Hl0. injection Hl0 as <- <-.
  destruct st as [last h0]. unfold s_erules in *. cbv zeta in *. cbn [ss_current ss_hist] in *. unfold s_rules in *.
  destruct (N.lor v last =? 0). { cbn [bind Nat.add] in Hr |- *. injection Hr as <- <-. split; [lia|]. auto. }
  destruct (is v _LF && is last _CR). { cbn [bind Nat.add] in Hr |- *. injection Hr as <- <-. split; [lia|]. auto. }
  destruct (is last _ParaSep). { discriminate. }
  fold _Ignore in Hr |- *. destruct (is v _Ignore) eqn:EI. { cbn [bind Nat.add] in Hr |- *. injection Hr as <- <-. split; [lia|]. auto. }
  destruct (_ && _). { cbn [bind Nat.add] in Hr |- *. injection Hr as <- <-. split; [lia|]. auto. }
  destruct (_ && _). { cbn [bind Nat.add] in Hr |- *. injection Hr as <- <-. split; [lia|]. auto. }
  destruct (is (h_lastExSpClose (s_update last h0)) _ATerm) eqn:EA.
  2:{ destruct (s_rules_tail_total v (s_update last h0) w) as (dt & Hdt & [-> | ->]); rewrite Hdt in *; cbn [bind] in *; [|discriminate]. injection Hr as <- <-. split; [lia|]. auto. }
  rewrite scan_rscan in Hr by lia. cbn [skipn] in Hr. destruct (rscan_total (S (length d)) d true ltac:(lia)) as (sc & Hs & H1 & H2 & H3). rewrite Hs in Hr. cbn [bind] in Hr.
  destruct sc as [p| |]; cbn [shift_scan Nat.add] in Hr.
  3:{ specialize (H3 eq_refl). discriminate. }
  2:{ cbn [bind] in Hr. destruct d as [|c d]; [congruence|]. cbn [length] in Hr. discriminate. }
  specialize (H1 _ eq_refl). rewrite slice_from_ok in Hr by lia. cbn [bind] in Hr. rewrite subsequent_gsub in Hr.
  destruct (gsubsequent_total sentences_lookup _Ignore _Lower s_lk (skipn p d) true) as (r & m & Hsub & G1 & _). specialize (G1 eq_refl). subst m. rewrite Hsub in Hr. cbn [bind] in Hr.
  destruct r as [a|].
  - cbn [bind] in Hr. injection Hr as <- <-. destruct (sub_found _ _ _ s_lk _ _ _ _ Hsub) as (_ & _ & _ & _ & _ & _ & Ha). rewrite skipn_length in Ha.
    destruct (rscan_at _ _ _ _ Hs ltac:(lia)) as (v1 & w1 & Hl1 & Hw1 & HS1). pose proof (s_lookup_in _ _ _ Hl1) as HV1.
    destruct (sub_head _ _ _ _ _ _ Hl1 Hw1 (stop_not_ignore _ HV1 HS1) Hsub) as [-> HL1]. pose proof (lower_exact _ HV1 HL1) as ->. rewrite Nat.add_0_r in *.
    assert (Hv : v = _Lower \/ is v stopProps = false).
    { destruct (is v stopProps) eqn:ES; [left|right; reflexivity]. destruct d as [|c d]; [congruence|]. cbn [rscan is_nil] in Hs. rewrite Hl in Hs. cbn [bind] in Hs.
      rewrite (proj2 (Nat.eqb_neq _ _) Hw), ES in Hs. injection Hs as <-. cbn [skipn] in Hl1. rewrite Hl in Hl1. injection Hl1 as -> _. reflexivity. }
    assert (Hk : (w1 <= k)%nat) by (apply (lower_joined fuel (skipn p d) w1 v last h0 k Hl1 Hw1 (s_lookup_in _ _ _ Hl) EI Hv EA); exact HL).
    split.
    { destruct d as [|c d]; [congruence|]. cbn [rscan is_nil] in Hs. rewrite Hl in Hs. cbn [bind] in Hs. rewrite (proj2 (Nat.eqb_neq _ _) Hw) in Hs. destruct (is v stopProps).
      - injection Hs as <-. cbn [skipn] in Hl1. rewrite Hl in Hl1. injection Hl1 as _ ->. lia.
      - rewrite slice_from_ok in Hs by exact Hle. cbn [bind] in Hs. destruct (rscan _ (skipn w (c :: d)) true) as [[q| |]| |]; try discriminate. cbn [bind] in Hs. injection Hs as <-. lia. }
    intros _. rewrite scan_rscan by lia. cbn [skipn].
    destruct (rscan_cut _ _ _ _ _ (p + k)%nat (S (length (firstn (p + k) d))) Hs ltac:(lia) Hl1 ltac:(lia) ltac:(lia)) as [HR|HR]; rewrite HR; cbn [bind shift_scan Nat.add].
    + left. rewrite slice_from_ok by (rewrite firstn_length; lia). cbn [bind]. rewrite subsequent_gsub, skipn_firstn_comm.
      rewrite (sub_cut _ _ _ s_lk s_cut _ _ _ _ _ _ (p + k - p)%nat true Hsub Hl1) by lia. cbn [bind]. rewrite Nat.add_0_r. reflexivity.
    + right. rewrite firstn_length. assert (Hn : exists q, Nat.min (p + k) (length d) = S q). { exists (Nat.min (p + k) (length d) - 1)%nat. lia. } destruct Hn as [q ->]. reflexivity.
  - destruct (s_rules_tail_total v (s_update last h0) w) as (dt & Hdt & [-> | ->]); rewrite Hdt in *; cbn [bind] in *; [|discriminate]. injection Hr as <- <-. split; [lia|]. intros _.
    rewrite scan_rscan by lia. cbn [skipn]. set (d1 := firstn (w + k) d). assert (Hd1 : d1 <> []) by (apply firstn_nonnil; [exact Hd|lia]).
    destruct (rscan_total (S (length d1)) d1 true ltac:(lia)) as (sc & Hs1 & K1 & K2 & K3). rewrite Hs1. cbn [bind]. destruct sc as [p1| |]; cbn [shift_scan Nat.add].
    3:{ specialize (K3 eq_refl). discriminate. }
    2:{ right. cbn [bind]. destruct d1 as [|c d1]; [congruence|]. reflexivity. }
    left. specialize (K1 _ eq_refl). rewrite slice_from_ok by lia. cbn [bind]. rewrite subsequent_gsub.
    destruct (gsubsequent_total sentences_lookup _Ignore _Lower s_lk (skipn p1 d1) true) as (r1 & m1 & Hsub1 & G1 & _). specialize (G1 eq_refl). subst m1. rewrite Hsub1. cbn [bind].
    destruct r1 as [a1|]; [|reflexivity]. exfalso. destruct (sub_found _ _ _ s_lk _ _ _ _ Hsub1) as (_ & _ & _ & _ & _ & _ & Ha1). rewrite skipn_length in Ha1.
    pose proof (rscan_stable _ _ _ (rscan_false _ _ _ Hs1) ltac:(lia) (S (length d)) (skipn (w + k) d) true) as HS. unfold d1 in HS. rewrite firstn_skipn in HS. rewrite HS in Hs by lia. injection Hs as <-.
    rewrite gsubsequent_rsub in Hsub1, Hsub by exact s_lk. apply rsub_found_any in Hsub1.
    pose proof (rsub_stable sentences_lookup _Ignore _Lower s_lk _ _ _ Hsub1 (S (length (skipn p1 d))) (skipn (w + k) d) true) as HQ. rewrite <- skipn_app_le in HQ by lia. unfold d1 in HQ. rewrite firstn_skipn in HQ.
    rewrite HQ in Hsub by lia. discriminate.
Qed.

Theorem s_cut_split : forall d n, d <> [] -> splitFunc d true = Ok (e_done n (firstn n d)) -> splitFunc (firstn n d) true = Ok (e_done n (firstn n d)).
Proof.
  intros d n Hd H. rewrite <- s_split_engine in H |- *. apply (cut_split SE s_mu s_lk s_lk s_rules_ok s_rules_cut s_fuel); auto.
  intros data v w _ Hw Hle. unfold s_mu, s_fuel. rewrite skipn_length. destruct (ss_current (e_init SE v) =? _Lower); lia.
Qed.
