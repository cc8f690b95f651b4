(** words: text is segmented line by line. *)
From Verif Require Import Base ListFacts Trie TableFacts Engine Lk Seek SeekText SpecUtf8 SpecIter SpecRules SpecLookup
  RuleFacts BitFacts WordFacts Conform UcdFacts UcdWords Lines TableWords WordsEngine WordsConform.
From Verif Require Words.
Import Words.
Local Open Scope N_scope.
Definition atLF (st : wst) : Prop := ws_current st = P 10.
Lemma P_LF : P 10 = _LF. Proof. vm_compute. reflexivity. Qed.
Lemma land_LF : forall v m, N.land _LF m = 0 -> is (N.land v _LF) m = false.
Proof. intros v m H. unfold is. rewrite <- N.land_assoc, H, N.land_0_r. reflexivity. Qed.
Lemma BRK : forall st v d w, atLF st -> e_lk (WE J0) d = Ok (v, w) -> w <> O -> e_rules (WE J0) st v d w true = Ok EBreak.
Proof.
  intros st v d w H Hl Hw. change (e_rules (WE J0)) with w_erules. unfold w_erules. rewrite H, P_LF. cbv zeta.
  assert (Hd : d <> []) by (intros ->; vm_compute in Hl; congruence).
  rewrite slice_from_ok by exact (lkM_le J0 d v w Hd Hl). cbn [bind].
  change (is _LF _Ignore) with false. cbn [negb].
  unfold w_rules. change (is _LF (N.lor _Numeric _AHLetter)) with false. rewrite andb_false_r.
  rewrite land_LF by reflexivity. change (is _LF _CR) with false. rewrite andb_false_r.
  rewrite is_lor_l. change (is _LF (N.lor _Newline (N.lor _CR _LF))) with true. reflexivity.
Qed.
Lemma RL : forall st x a, scalars (x :: a) -> last_char (x :: a) = Some 10 ->
    exists dec, e_rules (WE J0) st (P x) (encode (x :: a)) (length (utf8 x)) false = Ok dec
      /\ match dec with
         | EBreak => True
         | EJoin adv st' => exists a1 a2, x :: a = a1 ++ a2 /\ adv = length (encode a1) /\ (a2 = [] -> atLF st')
         | _ => False
         end.
Proof.
  intros st x a Hs Ha. change (e_rules (WE J0)) with w_erules. unfold w_erules. cbv zeta.
  rewrite slice_from_ok by (rewrite encode_cons, app_length; lia). cbn [bind].
  replace (skipn (length (utf8 x)) (encode (x :: a))) with (encode a) by (rewrite encode_cons, skipn_app, skipn_all, Nat.sub_diag; reflexivity).
  generalize (if negb (is (ws_current st) _Ignore) then ws_lastEx st else ws_lastLastEx st) (if negb (is (ws_current st) _Ignore) then ws_current st else ws_lastEx st).
  intros ll lx.
  assert (HD : exists dec, w_rules (P x) (ws_current st) lx ll (ws_ri st) (length (utf8 x)) (encode a) false = Ok dec
    /\ (dec = WBreak \/ exists adv ri, dec = WJoin adv ri /\ (adv = length (utf8 x) \/ exists a1 c a2, a = a1 ++ c :: a2 /\ adv = (length (utf8 x) + length (encode a1))%nat))).
  { assert (HJ : forall ri, exists dec, Ok (WJoin (length (utf8 x)) ri) = Ok dec
    /\ (dec = WBreak \/ exists adv ri, dec = WJoin adv ri /\ (adv = length (utf8 x) \/ exists a1 c a2, a = a1 ++ c :: a2 /\ adv = (length (utf8 x) + length (encode a1))%nat)))
      by (intros ri; eexists; split; [reflexivity|]; right; exists (length (utf8 x)), ri; auto).
    assert (HB : exists dec, Ok WBreak = Ok dec
    /\ (dec = WBreak \/ exists adv ri, dec = WJoin adv ri /\ (adv = length (utf8 x) \/ exists a1 c a2, a = a1 ++ c :: a2 /\ adv = (length (utf8 x) + length (encode a1))%nat)))
      by (eexists; split; [reflexivity|]; auto).
    unfold w_rules.
    destruct (is (P x) (N.lor _Numeric _AHLetter) && is lx (N.lor _Numeric _AHLetter)); [apply HJ|].
    destruct (is (N.land (P x) (ws_current st)) _WSegSpace); [apply HJ|].
    destruct (is (P x) _LF && is (ws_current st) _CR); [apply HJ|].
    destruct (is (N.lor (ws_current st) (P x)) (N.lor _Newline (N.lor _CR _LF))) eqn:EN; [apply HB|].
    destruct a as [|y a].
    { exfalso. cbn in Ha. injection Ha as ->. rewrite is_lor_l, P_LF in EN. change (is _LF (N.lor _Newline (N.lor _CR _LF))) with true in EN. rewrite orb_true_r in EN. discriminate. }
    destruct (seek_stop words_lookup _Ignore P w_lk w_lookup_cp (y :: a) (Forall_inv_tail Hs)) as (a1 & c & a2 & Ea & HS).
    { apply last_exists; [exact Ha|]. rewrite P_LF. reflexivity. }
    assert (HA : forall cond props ri next, (exists dec, next = Ok dec
    /\ (dec = WBreak \/ exists adv ri, dec = WJoin adv ri /\ (adv = length (utf8 x) \/ exists a1 c a2, y :: a = a1 ++ c :: a2 /\ adv = (length (utf8 x) + length (encode a1))%nat))) ->
      exists dec, lookahead cond props (encode (y :: a)) false (length (utf8 x)) ri next = Ok dec
    /\ (dec = WBreak \/ exists adv ri, dec = WJoin adv ri /\ (adv = length (utf8 x) \/ exists a1 c a2, y :: a = a1 ++ c :: a2 /\ adv = (length (utf8 x) + length (encode a1))%nat))).
    { intros cond props ri next HN. unfold lookahead. destruct cond; [|exact HN]. rewrite subsequent_gsub, HS. cbn [bind].
      destruct (is (P c) props); [|exact HN]. eexists; split; [reflexivity|]. right. eexists _, ri. split; [reflexivity|]. right. exists a1, c, a2. auto. }
    repeat match goal with
    | |- exists dec, (if ?c then _ else _) = Ok dec /\ _ => destruct c
    | |- exists dec, lookahead _ _ _ _ _ _ _ = Ok dec /\ _ => apply HA
    | |- exists dec, Ok (WJoin (length (utf8 x)) _) = Ok dec /\ _ => apply HJ
    | |- exists dec, Ok WBreak = Ok dec /\ _ => apply HB
    end. }
  destruct HD as (dec & -> & [->|(adv & ri & -> & HV)]); cbn [bind].
  { eexists; split; [reflexivity|exact I]. }
  eexists; split; [reflexivity|]. destruct HV as [->|(a1 & c & a2 & Ea & ->)].
  - destruct (one_adv x a) as (a1 & a2 & E1 & E2 & _ & E4). exists a1, a2. repeat split; auto. intros ->. subst a. cbn in Ha. injection Ha as ->. reflexivity.
  - exists (x :: a1), (c :: a2). split; [rewrite Ea; reflexivity|]. split; [rewrite encode_cons, app_length; reflexivity|discriminate].
Qed.

Theorem w_lines : forall a b la lb n, scalars a -> last_char a = Some 10 -> starts_whole (WE J0) b ->
  chop (joinersSplitFunc J0) (S (length (encode a))) (encode a) = Ok la -> chop (joinersSplitFunc J0) (S (length b)) b = Ok lb -> (length (encode a ++ b) < n)%nat ->
  chop (joinersSplitFunc J0) n (encode a ++ b) = Ok (la ++ lb).
Proof.
  intros a b la lb n Hs Ha. apply (lines_chop (WE J0) w_mu (w_rules_ok J0) w_fuel w_FU (joinersSplitFunc J0) (w_split_engine J0) (w_split_ok J0) P P w_lk0_cp w_lkM_cp
    atLF eq_refl BRK RL (length a)); auto.
Qed.
