(** phrases: text is segmented line by line. *)
From Verif Require Import Base ListFacts Trie TableFacts Engine Lk Seek SeekText SpecUtf8 SpecIter SpecRules SpecLookup
  RuleFacts BitFacts WordFacts Conform UcdFacts UcdPhrases Lines TablePhrases PhrasesEngine PhrasesConform.
From Verif Require Phrases.
Import Phrases.
Local Open Scope N_scope.
Definition atLF (st : pst) : Prop := ps_current st = P 10.
Lemma P_LF : P 10 = _LF. Proof. vm_compute. reflexivity. Qed.
Lemma land_LF : forall v m, N.land _LF m = 0 -> is (N.land v _LF) m = false.
Proof. intros v m H. unfold is. rewrite <- N.land_assoc, H, N.land_0_r. reflexivity. Qed.
Lemma BRK : forall st v d w, atLF st -> e_lk PE d = Ok (v, w) -> w <> O -> e_rules PE st v d w true = Ok EBreak.
Proof.
  intros st v d w H Hl Hw. change (e_rules PE) with p_erules. unfold p_erules. rewrite H, P_LF. cbv zeta.
  assert (Hd : d <> []) by (intros ->; vm_compute in Hl; congruence).
  rewrite slice_from_ok by (destruct (p_lk d Hd) as (v' & w' & Hl' & Hw' & _); change (e_lk PE d) with (phrases_lookup d) in Hl; rewrite Hl in Hl'; injection Hl' as <- <-; exact Hw'). cbn [bind].
  change (is _LF _Ignore) with false. cbn [negb].
  unfold p_rules. change (is _LF _CR) with false. rewrite andb_false_r.
  assert (N.lor v _LF =? 0 = false) as ->. { apply N.eqb_neq. intros E. apply N.lor_eq_0_iff in E. destruct E; discriminate. }
  rewrite is_lor_l. change (is _LF (N.lor _Newline (N.lor _CR _LF))) with true. reflexivity.
Qed.
Lemma RL : forall st x a, scalars (x :: a) -> last_char (x :: a) = Some 10 ->
    exists dec, e_rules PE st (P x) (encode (x :: a)) (length (utf8 x)) false = Ok dec
      /\ match dec with
         | EBreak => True
         | EJoin adv st' => exists a1 a2, x :: a = a1 ++ a2 /\ adv = length (encode a1) /\ (a2 = [] -> atLF st')
         | _ => False
         end.
Proof.
  intros st x a Hs Ha. change (e_rules PE) with p_erules. unfold p_erules. cbv zeta.
  rewrite slice_from_ok by (rewrite encode_cons, app_length; lia). cbn [bind].
  replace (skipn (length (utf8 x)) (encode (x :: a))) with (encode a) by (rewrite encode_cons, skipn_app, skipn_all, Nat.sub_diag; reflexivity).
  generalize (if negb (is (ps_current st) _Ignore) then ps_lastEx st else ps_lastLastEx st) (if negb (is (ps_current st) _Ignore) then ps_current st else ps_lastEx st).
  intros ll lx.
  assert (HD : exists dec, p_rules (P x) (ps_current st) lx ll (ps_ri st) (length (utf8 x)) (encode a) false = Ok dec
    /\ (dec = PBreak \/ exists adv ri, dec = PJoin adv ri /\ (adv = length (utf8 x) \/ exists a1 c a2, a = a1 ++ c :: a2 /\ adv = (length (utf8 x) + length (encode a1))%nat))).
  { assert (HJ : forall ri, exists dec, Ok (PJoin (length (utf8 x)) ri) = Ok dec
    /\ (dec = PBreak \/ exists adv ri, dec = PJoin adv ri /\ (adv = length (utf8 x) \/ exists a1 c a2, a = a1 ++ c :: a2 /\ adv = (length (utf8 x) + length (encode a1))%nat)))
      by (intros ri; eexists; split; [reflexivity|]; right; exists (length (utf8 x)), ri; auto).
    assert (HB : exists dec, Ok PBreak = Ok dec
    /\ (dec = PBreak \/ exists adv ri, dec = PJoin adv ri /\ (adv = length (utf8 x) \/ exists a1 c a2, a = a1 ++ c :: a2 /\ adv = (length (utf8 x) + length (encode a1))%nat)))
      by (eexists; split; [reflexivity|]; auto).
    unfold p_rules.
    destruct (N.lor (P x) (ps_current st) =? 0); [apply HB|].
    destruct (is (P x) _LF && is (ps_current st) _CR); [apply HJ|].
    destruct (is (N.lor (ps_current st) (P x)) (N.lor _Newline (N.lor _CR _LF))) eqn:EN; [apply HB|].
    destruct a as [|y a].
    { exfalso. cbn in Ha. injection Ha as ->. rewrite is_lor_l, P_LF in EN. change (is _LF (N.lor _Newline (N.lor _CR _LF))) with true in EN. rewrite orb_true_r in EN. discriminate. }
    destruct (seek_stop phrases_lookup _Ignore P p_lk p_lookup_cp (y :: a) (Forall_inv_tail Hs)) as (a1 & c & a2 & Ea & HS).
    { apply last_exists; [exact Ha|]. rewrite P_LF. reflexivity. }
    assert (HA : forall cond props ri next, (exists dec, next = Ok dec
    /\ (dec = PBreak \/ exists adv ri, dec = PJoin adv ri /\ (adv = length (utf8 x) \/ exists a1 c a2, y :: a = a1 ++ c :: a2 /\ adv = (length (utf8 x) + length (encode a1))%nat))) ->
      exists dec, lookahead cond props (encode (y :: a)) false (length (utf8 x)) ri next = Ok dec
    /\ (dec = PBreak \/ exists adv ri, dec = PJoin adv ri /\ (adv = length (utf8 x) \/ exists a1 c a2, y :: a = a1 ++ c :: a2 /\ adv = (length (utf8 x) + length (encode a1))%nat))).
    { intros cond props ri next HN. unfold lookahead. destruct cond; [|exact HN]. rewrite subsequent_gsub, HS. cbn [bind].
      destruct (is (P c) props); [|exact HN]. eexists; split; [reflexivity|]. right. eexists _, ri. split; [reflexivity|]. right. exists a1, c, a2. auto. }
    repeat match goal with
    | |- exists dec, (if ?c then _ else _) = Ok dec /\ _ => destruct c
    | |- exists dec, lookahead _ _ _ _ _ _ _ = Ok dec /\ _ => apply HA
    | |- exists dec, Ok (PJoin (length (utf8 x)) _) = Ok dec /\ _ => apply HJ
    | |- exists dec, Ok PBreak = Ok dec /\ _ => apply HB
    end. }
  destruct HD as (dec & -> & [->|(adv & ri & -> & HV)]); cbn [bind].
  { eexists; split; [reflexivity|exact I]. }
  eexists; split; [reflexivity|]. destruct HV as [->|(a1 & c & a2 & Ea & ->)].
  - destruct (one_adv x a) as (a1 & a2 & E1 & E2 & _ & E4). exists a1, a2. repeat split; auto. intros ->. subst a. cbn in Ha. injection Ha as ->. reflexivity.
  - exists (x :: a1), (c :: a2). split; [rewrite Ea; reflexivity|]. split; [rewrite encode_cons, app_length; reflexivity|discriminate].
Qed.

Theorem p_lines : forall a b la lb n, scalars a -> last_char a = Some 10 -> starts_whole PE b ->
  chop splitFunc (S (length (encode a))) (encode a) = Ok la -> chop splitFunc (S (length b)) b = Ok lb -> (length (encode a ++ b) < n)%nat ->
  chop splitFunc n (encode a ++ b) = Ok (la ++ lb).
Proof.
  intros a b la lb n Hs Ha. apply (lines_chop PE p_mu p_rules_ok p_fuel p_FU splitFunc p_split_engine p_split_ok P P p_lookup_cp p_lookup_cp
    atLF eq_refl BRK RL (length a)); auto.
Qed.
