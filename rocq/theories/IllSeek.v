(** Ill-formed text: the lookahead and the rules of the four packages. *)
From Verif Require Import Base ListFacts Trie Lk Engine EngineMore Seek SpecUtf8 SpecIter SpecRules UcdFacts UcdGraphemes UcdWords UcdSentences UcdPhrases SpecLookup DecodeFacts Utf8 Conform SpecIll IllFacts IllSim.
From Verif Require TableGraphemes TableWords TablePhrases TableSentences Graphemes GraphemesEngine GraphemesConform Words WordsEngine Phrases PhrasesEngine Sentences SentencesEngine.

Section Sub.
  Variable lk : bytes -> res (N * nat).
  Variable P : N -> N.
  Hypothesis LK : lk_ok lk.
  Hypothesis U1 : forall u d, first_unit (u ++ d) = Some u -> lk (u ++ d) = Ok (P (character u), length u).
  Hypothesis N1 : forall d, d <> [] -> first_unit d = None -> exists v, lk d = Ok (v, 0).
  Variables ign props : N.

  Lemma lk_std : forall (u : bytes) (us : list bytes), lk (stand (u :: us)) = Ok (P (character u), length (utf8 (character u))).
  Proof.
    intros u us. cbn [map]. rewrite encode_cons. pose proof (first_unit_utf8 (character u) (stand us) (character_scalar u)) as F.
    rewrite (U1 _ _ F), (character_utf8 _ (character_scalar u)). reflexivity.
  Qed.

  Lemma sim_rsub : forall n m d us tail, units d us tail -> length d < n -> length (stand us) < m ->
    (rsub lk ign props n d true = Ok (None, false) /\ rsub lk ign props m (stand us) true = Ok (None, false))
    \/ exists us1 us2 : list bytes, us = us1 ++ us2 /\ rsub lk ign props n d true = Ok (Some (length (concat us1)), false)
       /\ rsub lk ign props m (stand us) true = Ok (Some (length (stand us1)), false).
  Proof.
    induction n as [|n IH]; intros m d us tail HU Hn Hm; [lia|]. destruct m as [|m]; [lia|]. destruct us as [|u us].
    { destruct (units_nil _ _ HU) as (-> & Fn). left. split; [|reflexivity]. destruct tail as [|c tail]; [reflexivity|].
      destruct (N1 (c :: tail) ltac:(discriminate) Fn) as (v & Hl). cbn [rsub is_nil]. rewrite Hl. reflexivity. }
    pose proof (concat_nonnil _ _ _ _ HU) as Hd. assert (Hd' : stand (u :: us) <> []) by (intros H; apply encode_nil_inv in H; discriminate).
    destruct (units_head _ _ _ _ HU) as (d' & -> & Hu & HU'). pose proof (U1 _ _ Hu) as Hl. pose proof (lk_std u us) as Hl'.
    pose proof (first_unit_nonnil _ _ Hu) as Nu. assert (Wu : length u <> 0) by (destruct u; [congruence|discriminate]). pose proof (utf8_len (character u)) as Wx.
    cbn [rsub]. rewrite (is_nil_false _ Hd), (is_nil_false _ Hd'), Hl, Hl'. cbn [bind].
    destruct (Nat.eqb_spec (length u) 0) as [|_]; [contradiction|]. destruct (Nat.eqb_spec (length (utf8 (character u))) 0) as [|_]; [contradiction|].
    destruct (is (P (character u)) ign).
    - rewrite !slice_from_ok by (cbn [map]; rewrite ?encode_cons, app_length; lia). cbn [bind].
      assert (Sx : skipn (length u) (u ++ d') = d') by (rewrite skipn_app, skipn_all, Nat.sub_diag; reflexivity).
      assert (Sy : skipn (length (utf8 (character u))) (stand (u :: us)) = stand us) by (cbn [map]; rewrite encode_cons, skipn_app, skipn_all, Nat.sub_diag; reflexivity).
      rewrite Sx, Sy. destruct (IH m d' us tail HU') as [(A & B)|(us1 & us2 & Eu & A & B)].
      { rewrite app_length in Hn. lia. } { cbn [map] in Hm. rewrite encode_cons, app_length in Hm. lia. }
      + rewrite A, B. left. split; reflexivity.
      + rewrite A, B. right. exists (u :: us1), us2. rewrite Eu. cbn [bind option_map concat map]. rewrite encode_cons, !app_length. repeat split; reflexivity.
    - destruct (is (P (character u)) props); [right; exists [], (u :: us); repeat split; reflexivity|left; split; reflexivity].
  Qed.
  Lemma sim_gsub : forall d us tail, units d us tail ->
    (gsubsequent lk ign props d true = Ok (None, false) /\ gsubsequent lk ign props (stand us) true = Ok (None, false))
    \/ exists us1 us2 : list bytes, us = us1 ++ us2 /\ gsubsequent lk ign props d true = Ok (Some (length (concat us1)), false)
       /\ gsubsequent lk ign props (stand us) true = Ok (Some (length (stand us1)), false).
  Proof. intros d us tail HU. rewrite !(gsubsequent_rsub lk ign props LK). eapply sim_rsub; [exact HU|lia|lia]. Qed.
End Sub.

(** What a unit is skipped over with. *)
Lemma after_unit : forall (u d : bytes), slice_from (u ++ d) (length u) = Ok d.
Proof. intros u d. rewrite slice_from_ok by (rewrite app_length; lia). rewrite skipn_app, skipn_all, Nat.sub_diag. reflexivity. Qed.
Lemma after_stand : forall (u : bytes) (us : list bytes), slice_from (stand (u :: us)) (length (utf8 (character u))) = Ok (stand us).
Proof. intros u us. cbn [map]. rewrite encode_cons. apply after_unit. Qed.
Lemma stand_one : forall (u : bytes), length (utf8 (character u)) = length (stand [u]).
Proof. intros u. cbn [map]. rewrite encode_cons, app_length. cbn. lia. Qed.

Section G.
  Import Graphemes GraphemesEngine.
  Lemma g_sim : forall st (u d : bytes) (us : list bytes) (tail : bytes), True -> units (u ++ d) (u :: us) tail -> exists dec,
    e_rules GE st (graphemes_property (character u)) (u ++ d) (length u) true = Ok dec
    /\ match dec with
       | EBreak => e_rules GE st (graphemes_property (character u)) (stand (u :: us)) (length (utf8 (character u))) true = Ok EBreak
       | EJoin adv st' => exists us1 us2 : list bytes, u :: us = us1 ++ us2 /\ adv = length (concat us1)
           /\ e_rules GE st (graphemes_property (character u)) (stand (u :: us)) (length (utf8 (character u))) true = Ok (EJoin (length (stand us1)) st')
       | _ => False
       end.
  Proof.
    intros st u d us tail _ HU. change (e_rules GE) with g_erules. unfold g_erules. destruct (g_rules _ _ _ _ _) as [ri i|].
    - eexists. split; [reflexivity|]. exists [u], us. split; [reflexivity|]. split; [cbn [concat]; rewrite app_nil_r; reflexivity|]. rewrite <- stand_one. reflexivity.
    - eexists. split; reflexivity.
  Qed.
End G.

Section W.
  Import TableWords Words WordsEngine.
  (** The rules on the units and on the characters. *)
  Definition w_same (u : bytes) (us : list bytes) (x y : res wdecision) : Prop :=
    (x = Ok WBreak /\ y = Ok WBreak) \/ exists (us1 us2 : list bytes) ri, u :: us = us1 ++ us2 /\ x = Ok (WJoin (length (concat us1)) ri) /\ y = Ok (WJoin (length (stand us1)) ri).
  Lemma w_same_break : forall u us, w_same u us (Ok WBreak) (Ok WBreak).
  Proof. left. split; reflexivity. Qed.
  Lemma w_same_join : forall u us ri, w_same u us (Ok (WJoin (length u) ri)) (Ok (WJoin (length (utf8 (character u))) ri)).
  Proof. intros u us ri. right. exists [u], us, ri. cbn [concat]. rewrite app_nil_r, <- stand_one. repeat split; reflexivity. Qed.
  Lemma w_same_look : forall c props (d u : bytes) (us : list bytes) (tail : bytes) ri n n', units d us tail -> w_same u us n n' ->
    w_same u us (lookahead c props d true (length u) ri n) (lookahead c props (stand us) true (length (utf8 (character u))) ri n').
  Proof.
    intros c props d u us tail ri n n' HU Hn. unfold lookahead. destruct c; [|exact Hn]. rewrite (subsequent_gsub props d), (subsequent_gsub props (stand us)).
    destruct (sim_gsub words_lookup words_property w_lk w_unit w_none _Ignore props d us tail HU) as [(A & B)|(us1 & us2 & E & A & B)]; rewrite A, B; cbn [bind]; [exact Hn|].
    right. exists (u :: us1), us2, ri. rewrite E. cbn [concat map]. rewrite encode_cons, !app_length. repeat split; reflexivity.
  Qed.
  Lemma w_rules_same : forall c l lx ll ri (u d : bytes) (us : list bytes) (tail : bytes), units d us tail ->
    w_same u us (w_rules c l lx ll ri (length u) d true) (w_rules c l lx ll ri (length (utf8 (character u))) (stand us) true).
  Proof.
    intros c l lx ll ri u d us tail HU. unfold w_rules.
    repeat match goal with
    | |- w_same _ _ (if ?b then _ else _) (if ?b then _ else _) => destruct b
    | |- w_same _ _ (lookahead _ _ _ _ _ _ _) _ => eapply w_same_look; [exact HU|]
    | |- w_same _ _ (Ok (WJoin _ _)) _ => apply w_same_join
    | |- w_same _ _ (Ok WBreak) _ => apply w_same_break
    end.
  Qed.

  (** Joiners look at the character, U+FFFD for an ill-formed unit. *)
  Lemma decode_unit : forall u d, first_unit (u ++ d) = Some u -> fst (DecodeRune (u ++ d)) = character u.
  Proof.
    intros u d Hu. destruct (character_cases u) as [(Hs & E)|(E & Hn)].
    - rewrite <- E at 1. rewrite (decode_utf8 _ _ Hs). reflexivity.
    - rewrite E. pose proof (w_unit u d Hu) as Hl. destruct (u ++ d) as [|b0 s1] eqn:Ed; [reflexivity|].
      pose proof (first_unit_nonnil _ _ Hu) as Nu. cbn [first_unit] in Hu. destruct (announced b0 <=? length (b0 :: s1))%nat eqn:EA; [|discriminate]. injection Hu as Eu.
      assert (CN : forall c, continuation c = true -> (0x80 <= c <= 0xBF)%N) by (intros c H; unfold continuation in H; apply andb_prop in H; rewrite !N.leb_le in H; exact H).
      assert (IC : forall c, isCont c = continuation c) by reflexivity.
      unfold DecodeRune. unfold announced in Eu.
      destruct (N.ltb_spec b0 0x80). { exfalso. apply (Hn b0); [unfold scalar; lia|]. rewrite <- Eu. destruct (N.ltb_spec b0 0xC2); [|lia]. cbn. unfold utf8. destruct (N.ltb_spec b0 0x80); [reflexivity|lia]. }
      unfold between. destruct (N.ltb_spec b0 0xC2). { destruct (N.leb_spec 0xC2 b0); [lia|]. destruct (N.leb_spec 0xE0 b0); [lia|]. destruct (N.leb_spec 0xF0 b0); [lia|]. reflexivity. }
      destruct (N.leb_spec 0xC2 b0); [|lia]. destruct (N.ltb_spec b0 0xE0).
      { destruct (N.leb_spec b0 0xDF); [|lia]. cbn [andb]. destruct s1 as [|b1 s1]; [reflexivity|]. destruct (isCont b1) eqn:E1; [|reflexivity]. exfalso.
        rewrite IC in E1. cbn [Nat.sub continuations] in Eu. rewrite E1 in Eu. destruct (LookupOnly.utf8_2 b0 b1) as (c & Hc & Ec); [lia|apply CN; exact E1|]. apply (Hn c Hc). rewrite Ec, <- Eu. destruct s1; reflexivity. }
      destruct (N.leb_spec b0 0xDF); [lia|]. cbn [andb]. destruct (N.leb_spec 0xE0 b0); [|lia]. destruct (N.ltb_spec b0 0xF0).
      { destruct (N.leb_spec b0 0xEF); [|lia]. cbn [andb]. destruct s1 as [|b1 [|b2 s1]]; [reflexivity|reflexivity|]. destruct (accept2 b0 b1 && isCont b2) eqn:E1; [|reflexivity]. exfalso.
        apply andb_prop in E1. destruct E1 as (E1 & E2). rewrite IC in E2.
        assert (A : (0x80 <= b1 <= 0xBF)%N /\ (b0 = 0xE0 -> 0xA0 <= b1)%N /\ (b0 = 0xED -> b1 < 0xA0)%N).
        { unfold accept2, isCont, between in E1. destruct (N.eqb_spec b0 0xE0); [|destruct (N.eqb_spec b0 0xED); [|destruct (N.eqb_spec b0 0xF0); [lia|destruct (N.eqb_spec b0 0xF4); [lia|]]]];
          apply andb_prop in E1; rewrite !N.leb_le in E1; lia. }
        destruct A as (A1 & A2 & A3). destruct (LookupOnly.utf8_3 b0 b1 b2) as (c & Hc & Ec); [lia|exact A1|apply CN; exact E2|exact A2|exact A3|].
        apply (Hn c Hc). rewrite Ec, <- Eu. cbn [Nat.sub continuations]. assert (C1 : continuation b1 = true) by (unfold continuation; apply andb_true_intro; rewrite !N.leb_le; exact A1).
        rewrite C1, E2. destruct s1; reflexivity. }
      destruct (N.leb_spec b0 0xEF); [lia|]. cbn [andb]. destruct (N.leb_spec 0xF0 b0); [|lia]. destruct (N.leb_spec b0 0xF4); [|reflexivity]. cbn [andb].
      destruct (N.ltb_spec b0 0xF8); [|lia]. destruct s1 as [|b1 [|b2 [|b3 s1]]]; try reflexivity. destruct (accept2 b0 b1 && isCont b2 && isCont b3) eqn:E1; [|reflexivity]. exfalso.
      apply andb_prop in E1. destruct E1 as (E1 & E3). apply andb_prop in E1. destruct E1 as (E1 & E2). rewrite IC in E2, E3.
      assert (A : (0x80 <= b1 <= 0xBF)%N /\ (b0 = 0xF0 -> 0x90 <= b1)%N /\ (b0 = 0xF4 -> b1 < 0x90)%N).
      { unfold accept2, isCont, between in E1. destruct (N.eqb_spec b0 0xE0); [lia|]. destruct (N.eqb_spec b0 0xED); [lia|].
        destruct (N.eqb_spec b0 0xF0); [|destruct (N.eqb_spec b0 0xF4)]; apply andb_prop in E1; rewrite !N.leb_le in E1; lia. }
      destruct A as (A1 & A2 & A3). destruct (LookupOnly.utf8_4 b0 b1 b2 b3) as (c & Hc & Ec); [lia|exact A1|apply CN; exact E2|apply CN; exact E3|exact A2|exact A3|].
      apply (Hn c Hc). rewrite Ec, <- Eu. cbn [Nat.sub continuations]. assert (C1 : continuation b1 = true) by (unfold continuation; apply andb_true_intro; rewrite !N.leb_le; exact A1).
      rewrite C1, E2, E3. destruct s1; reflexivity.
  Qed.
End W.
