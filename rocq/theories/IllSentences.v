(** Ill-formed text: sentences, where a character cut off at the end ends the search of SB8. *)
From Verif Require Import Base ListFacts Trie Lk Engine EngineMore Seek SpecUtf8 SpecIter SpecRules SpecUcd UcdFacts UcdSentences SpecLookup SpecSentences SegFacts Conform Drive SpecIll IllFacts IllSim IllSeek IllRules.
From Verif Require Import TableSentences.
From Verif Require SentencesConform.
From Verif Require Import Sentences SentencesEngine.

(** Characters that do not stop the search of SB8. *)
Definition quiet (u : bytes) : Prop := is (sentences_property (character u)) stopProps = false.

(** The search of SB8. *)
Lemma sim_scan : forall n m d us tail, units d us tail -> length d < n -> length (stand us) < m ->
  (exists us1 us2 : list bytes, us = us1 ++ us2 /\ rscan n d true = Ok (ScanAt (length (concat us1))) /\ rscan m (stand us) true = Ok (ScanAt (length (stand us1))))
  \/ (tail <> [] /\ Forall quiet us /\ rscan n d true = Ok ScanEOF).
Proof.
  induction n as [|n IH]; intros m d us tail HU Hn Hm; [lia|]. destruct m as [|m]; [lia|]. destruct us as [|u us].
  { destruct (units_nil _ _ HU) as (-> & Fn). destruct tail as [|c tail]; [left; exists [], []; repeat split; reflexivity|].
    destruct (s_none (c :: tail) ltac:(discriminate) Fn) as (v & Hl). right. split; [discriminate|]. split; [constructor|]. cbn [rscan is_nil]. rewrite Hl. reflexivity. }
  pose proof (concat_nonnil _ _ _ _ HU) as Hd. assert (Hd' : stand (u :: us) <> []) by (intros H; apply encode_nil_inv in H; discriminate).
  destruct (units_head _ _ _ _ HU) as (d' & -> & Hu & HU'). pose proof (s_unit _ _ Hu) as Hl. pose proof (lk_std _ _ s_unit u us) as Hl'.
  pose proof (first_unit_nonnil _ _ Hu) as Nu. assert (Wu : length u <> 0) by (destruct u; [congruence|discriminate]). pose proof (utf8_len (character u)) as Wx.
  cbn [rscan]. rewrite (is_nil_false _ Hd), (is_nil_false _ Hd'), Hl, Hl'. cbn [bind].
  destruct (Nat.eqb_spec (length u) 0) as [|_]; [contradiction|]. destruct (Nat.eqb_spec (length (utf8 (character u))) 0) as [|_]; [contradiction|].
  destruct (is (sentences_property (character u)) stopProps) eqn:EQ.
  - left. exists [], (u :: us). repeat split; reflexivity.
  - rewrite after_unit, after_stand. cbn [bind]. destruct (IH m d' us tail HU') as [(us1 & us2 & Eu & A & B)|(A & B & C)].
    { rewrite app_length in Hn. lia. } { cbn [map] in Hm. rewrite encode_cons, app_length in Hm. lia. }
    + left. rewrite A, B. exists (u :: us1), us2. rewrite Eu. cbn [bind concat map]. rewrite encode_cons, !app_length. repeat split; reflexivity.
    + right. rewrite C. split; [exact A|]. split; [constructor; [exact EQ|exact B]|reflexivity].
Qed.

Lemma tail_alike : forall c h k k', (s_rules_tail c h 0 k = SBreak 0 /\ s_rules_tail c h 0 k' = SBreak 0) \/ (s_rules_tail c h 0 k = SJoin k /\ s_rules_tail c h 0 k' = SJoin k').
Proof. intros c h k k'. unfold s_rules_tail. cbn [Nat.add]. repeat match goal with |- context [if ?b then _ else _] => destruct b end; auto. Qed.

Definition s_same (u : bytes) (us : list bytes) (x y : res sdecision) : Prop :=
  (x = Ok (SBreak 0) /\ y = Ok (SBreak 0)) \/ exists us1 us2 : list bytes, u :: us = us1 ++ us2 /\ x = Ok (SJoin (length (concat us1))) /\ y = Ok (SJoin (length (stand us1))).
Lemma s_rules_same : forall c l h (u d : bytes) (us : list bytes) (tail : bytes), units (u ++ d) (u :: us) tail ->
  s_same u us (s_rules (u ++ d) true c l h 0 (length u)) (s_rules (stand (u :: us)) true c l h 0 (length (utf8 (character u))))
  \/ (tail <> [] /\ Forall quiet (u :: us) /\ s_rules (u ++ d) true c l h 0 (length u) = Ok (SBreak (length (u ++ d)))).
Proof.
  intros c l h u d us tail HU.
  assert (ONE : s_same u us (Ok (SJoin (length u))) (Ok (SJoin (length (utf8 (character u)))))).
  { right. exists [u], us. cbn [concat]. rewrite app_nil_r, <- stand_one. repeat split; reflexivity. }
  assert (TAIL : s_same u us (Ok (s_rules_tail c h 0 (length u))) (Ok (s_rules_tail c h 0 (length (utf8 (character u)))))).
  { destruct (tail_alike c h (length u) (length (utf8 (character u)))) as [(A & B)|(A & B)]; rewrite A, B; [left; split; reflexivity|exact ONE]. }
  unfold s_rules. cbn [Nat.add]. repeat match goal with |- s_same _ _ (if ?b then _ else _) (if ?b then _ else _) \/ _ => destruct b; [left; first [exact ONE|left; split; reflexivity]|] end.
  destruct (is (h_lastExSpClose h) _ATerm).
  2:{ left. exact TAIL. }
  rewrite !scan_rscan by lia. cbn [skipn].
  destruct (sim_scan (S (length (u ++ d))) (S (length (stand (u :: us)))) _ _ _ HU) as [(us1 & us2 & Eu & A & B)|(A & B & C)]; [lia|lia| |].
  - left. rewrite A, B. cbn [bind shift_scan Nat.add]. rewrite Eu in HU. destruct (units_drop _ _ _ _ HU) as (HU2 & Ed).
    assert (Es : stand (u :: us) = stand us1 ++ stand us2) by (rewrite Eu, map_app, encode_app; reflexivity).
    rewrite Ed, after_unit. replace (slice_from (stand (u :: us)) (length (stand us1))) with (Ok (stand us2)) by (rewrite Es, after_unit; reflexivity). cbn [bind].
    rewrite (subsequent_gsub _Lower (concat us2 ++ tail)), (subsequent_gsub _Lower (stand us2)).
    destruct (sim_gsub sentences_lookup sentences_property s_lk s_unit s_none _Ignore _Lower _ us2 tail HU2) as [(G1 & G2)|(v1 & v2 & E & G1 & G2)]; rewrite G1, G2; cbn [bind]; [exact TAIL|].
    right. exists (us1 ++ v1), v2. rewrite Eu, E, app_assoc, concat_app, map_app, encode_app, !app_length. repeat split; reflexivity.
  - right. split; [exact A|]. split; [exact B|]. rewrite C. reflexivity.
Qed.

Lemma s_step : forall st (u d : bytes) (us : list bytes) (tail : bytes), units (u ++ d) (u :: us) tail -> exists dec,
  e_rules SE st (sentences_property (character u)) (u ++ d) (length u) true = Ok dec
  /\ match dec with
     | EBreak => e_rules SE st (sentences_property (character u)) (stand (u :: us)) (length (utf8 (character u))) true = Ok EBreak
     | EJoin adv st' => exists us1 us2 : list bytes, u :: us = us1 ++ us2 /\ adv = length (concat us1)
         /\ e_rules SE st (sentences_property (character u)) (stand (u :: us)) (length (utf8 (character u))) true = Ok (EJoin (length (stand us1)) st')
     | EEnd => tail <> [] /\ Forall quiet (u :: us)
     | EMore => False
     end.
Proof.
  intros st u d us tail HU. change (e_rules SE) with s_erules. unfold s_erules.
  destruct (s_rules_same (sentences_property (character u)) (ss_current st) (s_update (ss_current st) (ss_hist st)) u d us tail HU) as [[(A & B)|(us1 & us2 & E & A & B)]|(A & B & C)].
  - cbv zeta. rewrite A, B. cbn [bind]. eexists. split; reflexivity.
  - cbv zeta. rewrite A, B. cbn [bind]. eexists. split; [reflexivity|]. exists us1, us2. repeat split; auto.
  - cbv zeta. rewrite C. cbn [bind]. pose proof (concat_nonnil _ _ _ _ HU) as Hd. destruct (u ++ d) as [|b x]; [congruence|]. cbn [length]. eexists. split; [reflexivity|]. split; assumption.
Qed.

Lemma s_sim : forall st (u d : bytes) (us : list bytes) (tail : bytes), tail = [] -> units (u ++ d) (u :: us) tail -> exists dec,
  e_rules SE st (sentences_property (character u)) (u ++ d) (length u) true = Ok dec
  /\ match dec with
     | EBreak => e_rules SE st (sentences_property (character u)) (stand (u :: us)) (length (utf8 (character u))) true = Ok EBreak
     | EJoin adv st' => exists us1 us2 : list bytes, u :: us = us1 ++ us2 /\ adv = length (concat us1)
         /\ e_rules SE st (sentences_property (character u)) (stand (u :: us)) (length (utf8 (character u))) true = Ok (EJoin (length (stand us1)) st')
     | _ => False
     end.
Proof.
  intros st u d us tail -> HU. destruct (s_step st u d us [] HU) as (dec & H1 & H2). exists dec. split; [exact H1|]. destruct dec; auto. destruct H2 as [H2 _]. congruence.
Qed.
Theorem s_alike : forall d us, units d us [] -> cut_alike splitFunc d us [].
Proof.
  intros d us HU. exact (sim_chop SE s_mu s_rules_ok s_fuel SentencesConform.s_FU splitFunc s_split_engine sentences_property sentences_property s_unit s_unit s_none s_none
    (fun t => t = []) s_sim _ _ d us [] eq_refl HU (Nat.lt_succ_diag_r _) (Nat.lt_succ_diag_r _)).
Qed.

(** ** With a character cut off at the end *)
Lemma stand_self : forall us : list bytes, units (stand us) (map utf8 (map character us)) [] /\ stand (map utf8 (map character us)) = stand us.
Proof.
  intros us. split; [apply units_encode, chars_scalars|]. f_equal. rewrite map_map. induction us as [|u us IH]; [reflexivity|]. cbn [map]. rewrite IH, (character_utf8 _ (character_scalar u)). reflexivity.
Qed.
(** The loop on characters alone stops after some of them. *)
Lemma stand_loop : forall m st (us : list bytes), s_mu st (stand us) < m -> exists us1 us2 : list bytes, us = us1 ++ us2 /\ eloop SE m (stand us) true st = Ok (Some (length (stand us1))).
Proof.
  intros m st us Hm. destruct (stand_self us) as (HU & ES).
  destruct (sim_loop SE s_mu s_rules_ok sentences_property s_unit s_none (fun t => t = []) s_sim m m st (stand us) _ [] eq_refl HU Hm) as (v1 & v2 & Ev & H1 & H2).
  { rewrite ES. exact Hm. }
  rewrite ES in H2. rewrite map_map in Ev. apply map_eq_app in Ev. destruct Ev as (us1 & us2 & -> & E1 & E2). exists us1, us2. split; [reflexivity|]. rewrite H2. do 3 f_equal.
  rewrite <- E1, <- (map_map character utf8). exact (proj2 (stand_self us1)).
Qed.

(** A letter after the text: the search of SB8 finds it where the cut-off character ends the search. *)
Notation letter := ([97%N] : bytes).
Lemma stop_or_end : forall n m d us tail, units d us tail -> tail <> [] -> length d < n -> length (stand (us ++ [letter])) < m ->
  (exists (us1 us2 : list bytes) (z : bytes), us = us1 ++ z :: us2 /\ is (sentences_property (character z)) stopProps = true
     /\ rscan n d true = Ok (ScanAt (length (concat us1))) /\ rscan m (stand (us ++ [letter])) true = Ok (ScanAt (length (stand us1))))
  \/ (rscan n d true = Ok ScanEOF /\ rscan m (stand (us ++ [letter])) true = Ok (ScanAt (length (stand us)))).
Proof.
  induction n as [|n IH]; intros m d us tail HU Nt Hn Hm; [lia|]. destruct m as [|m]; [lia|]. destruct us as [|u us].
  { destruct (units_nil _ _ HU) as (-> & Fn). destruct (s_none tail Nt Fn) as (v & Hl). right. split.
    - cbn [rscan]. rewrite (is_nil_false _ Nt), Hl. reflexivity.
    - vm_compute. reflexivity. }
  pose proof (concat_nonnil _ _ _ _ HU) as Hd. assert (Hd' : stand (u :: us ++ [letter]) <> []) by (intros H; apply encode_nil_inv in H; discriminate).
  destruct (units_head _ _ _ _ HU) as (d' & -> & Hu & HU'). pose proof (s_unit _ _ Hu) as Hl. pose proof (lk_std _ _ s_unit u (us ++ [letter])) as Hl'.
  pose proof (first_unit_nonnil _ _ Hu) as Nu. assert (Wu : length u <> 0) by (destruct u; [congruence|discriminate]). pose proof (utf8_len (character u)) as Wx.
  cbn [rscan app]. rewrite (is_nil_false _ Hd), (is_nil_false _ Hd'), Hl, Hl'. cbn [bind].
  destruct (Nat.eqb_spec (length u) 0) as [|_]; [contradiction|]. destruct (Nat.eqb_spec (length (utf8 (character u))) 0) as [|_]; [contradiction|].
  destruct (is (sentences_property (character u)) stopProps) eqn:EQ.
  - left. exists [], us, u. repeat split; auto.
  - rewrite after_unit, after_stand. cbn [bind]. destruct (IH m d' us tail HU' Nt) as [(us1 & us2 & z & Eu & Z & A & B)|(A & B)].
    { rewrite app_length in Hn. lia. } { cbn [map app] in Hm. rewrite encode_cons, app_length in Hm. lia. }
    + left. rewrite A, B. exists (u :: us1), us2, z. rewrite Eu. cbn [bind concat map app]. rewrite encode_cons, !app_length. repeat split; auto.
    + right. rewrite A, B. cbn [bind map]. rewrite encode_cons, app_length. split; reflexivity.
Qed.

Lemma letter_step : forall st (u d : bytes) (us : list bytes) (tail : bytes), units (u ++ d) (u :: us) tail -> tail <> [] -> exists dec,
  e_rules SE st (sentences_property (character u)) (u ++ d) (length u) true = Ok dec
  /\ match dec with
     | EBreak => e_rules SE st (sentences_property (character u)) (stand (u :: us ++ [letter])) (length (utf8 (character u))) true = Ok EBreak
     | EJoin adv st' => exists us1 us2 : list bytes, u :: us = us1 ++ us2 /\ adv = length (concat us1)
         /\ e_rules SE st (sentences_property (character u)) (stand (u :: us ++ [letter])) (length (utf8 (character u))) true = Ok (EJoin (length (stand us1)) st')
     | EEnd => exists st', e_rules SE st (sentences_property (character u)) (stand (u :: us ++ [letter])) (length (utf8 (character u))) true = Ok (EJoin (length (stand (u :: us))) st')
     | EMore => False
     end.
Proof.
  intros st u d us tail HU Nt. change (e_rules SE) with s_erules. unfold s_erules. cbv zeta.
  generalize (sentences_property (character u)) as c, (ss_current st) as l, (s_update (ss_current st) (ss_hist st)) as h. clear st. intros c l h.
  assert (G : (exists us1 us2 : list bytes, u :: us = us1 ++ us2 /\ s_rules (u ++ d) true c l h 0 (length u) = Ok (SJoin (length (concat us1)))
       /\ s_rules (stand (u :: us ++ [letter])) true c l h 0 (length (utf8 (character u))) = Ok (SJoin (length (stand us1))))
    \/ (s_rules (u ++ d) true c l h 0 (length u) = Ok (SBreak 0) /\ s_rules (stand (u :: us ++ [letter])) true c l h 0 (length (utf8 (character u))) = Ok (SBreak 0))
    \/ (s_rules (u ++ d) true c l h 0 (length u) = Ok (SBreak (length (u ++ d)))
       /\ s_rules (stand (u :: us ++ [letter])) true c l h 0 (length (utf8 (character u))) = Ok (SJoin (length (stand (u :: us)))))).
  2:{ destruct G as [(us1 & us2 & E & A & B)|[(A & B)|(A & B)]]; rewrite A, B; cbn [bind].
      - eexists. split; [reflexivity|]. exists us1, us2. repeat split; auto.
      - eexists. split; reflexivity.
      - pose proof (concat_nonnil _ _ _ _ HU) as Hd. destruct (u ++ d) as [|b x]; [congruence|]. cbn [length]. eexists. split; [reflexivity|]. eexists. reflexivity. }
  assert (ONE : exists us1 us2 : list bytes, u :: us = us1 ++ us2 /\ Ok (SJoin (length u)) = Ok (SJoin (length (concat us1)))
       /\ Ok (SJoin (length (utf8 (character u)))) = Ok (SJoin (length (stand us1)))).
  { exists [u], us. cbn [concat]. rewrite app_nil_r, <- stand_one. repeat split; reflexivity. }
  unfold s_rules. cbn [Nat.add].
  do 6 (match goal with |- (exists _ _, _ /\ (if ?b then _ else _) = _ /\ _) \/ _ => destruct b; [first [left; exact ONE|right; left; split; reflexivity]|] end).
  assert (TAIL : (exists us1 us2 : list bytes, u :: us = us1 ++ us2 /\ Ok (s_rules_tail c h 0 (length u)) = Ok (SJoin (length (concat us1)))
       /\ Ok (s_rules_tail c h 0 (length (utf8 (character u)))) = Ok (SJoin (length (stand us1))))
    \/ (Ok (s_rules_tail c h 0 (length u)) = Ok (SBreak 0) /\ Ok (s_rules_tail c h 0 (length (utf8 (character u)))) = Ok (SBreak 0))).
  { destruct (tail_alike c h (length u) (length (utf8 (character u)))) as [(A & B)|(A & B)]; rewrite A, B; [right; split; reflexivity|left; exact ONE]. }
  destruct (is (h_lastExSpClose h) _ATerm); [|destruct TAIL; auto].
  rewrite !scan_rscan by lia. cbn [skipn].
  destruct (stop_or_end (S (length (u ++ d))) (S (length (stand ((u :: us) ++ [letter])))) _ _ _ HU Nt) as [(us1 & us2 & z & Eu & Z & A & B)|(A & B)]; [lia|lia| |].
  - change (u :: us ++ [letter]) with ((u :: us) ++ [letter]). rewrite A, B. cbn [bind shift_scan Nat.add]. rewrite Eu in HU. destruct (units_drop _ _ _ _ HU) as (HU2 & Ed).
    assert (Es : stand ((u :: us) ++ [letter]) = stand us1 ++ stand (z :: us2 ++ [letter])) by (rewrite Eu, <- app_assoc, map_app, encode_app; reflexivity).
    rewrite Ed, after_unit. replace (slice_from (stand ((u :: us) ++ [letter])) (length (stand us1))) with (Ok (stand (z :: us2 ++ [letter]))) by (rewrite Es, after_unit; reflexivity). cbn [bind].
    rewrite (subsequent_gsub _Lower (concat (z :: us2) ++ tail)), (subsequent_gsub _Lower (stand (z :: us2 ++ [letter]))).
    assert (G2 : gsubsequent sentences_lookup _Ignore _Lower (stand (z :: us2 ++ [letter])) true = Ok (if is (sentences_property (character z)) _Lower then Some 0%nat else None, false)).
    { cbn [map]. apply SentencesConform.stop_sub; [|exact Z]. apply (chars_scalars (z :: us2 ++ [letter])). }
    assert (G1 : gsubsequent sentences_lookup _Ignore _Lower (concat (z :: us2) ++ tail) true = Ok (if is (sentences_property (character z)) _Lower then Some 0%nat else None, false)).
    { pose proof (SentencesConform.stop_sub (character z) (map character us2) (chars_scalars (z :: us2)) Z) as G3.
      destruct (sim_gsub sentences_lookup sentences_property s_lk s_unit s_none _Ignore _Lower _ (z :: us2) tail HU2) as [(K1 & K2)|(v1 & v2 & E & K1 & K2)]; cbn [map] in K2; rewrite K2 in G3; rewrite K1.
      - exact G3.
      - destruct (is (sentences_property (character z)) _Lower); [|discriminate]. injection G3 as G3. destruct v1 as [|q v1]; [reflexivity|]. exfalso. cbn [map] in G3. rewrite encode_cons, app_length in G3. pose proof (utf8_len (character q)). lia. }
    rewrite G1, G2. cbn [bind]. destruct (is (sentences_property (character z)) _Lower).
    + left. exists us1, (z :: us2). split; [exact Eu|]. rewrite !Nat.add_0_r. split; reflexivity.
    + destruct TAIL as [T|T]; auto.
  - right. right. change (u :: us ++ [letter]) with ((u :: us) ++ [letter]). rewrite A, B. cbn [bind shift_scan Nat.add]. split; [reflexivity|].
    rewrite map_app, encode_app, after_unit. cbn [bind]. rewrite subsequent_gsub.
    replace (gsubsequent sentences_lookup _Ignore _Lower (stand [letter]) true) with (Ok (Some 0, false) : res (option nat * bool)) by (vm_compute; reflexivity). cbn [bind]. rewrite Nat.add_0_r. reflexivity.
Qed.

Lemma letter_loop : forall n m st d us tail, units d us tail -> tail <> [] -> s_mu st d < n -> s_mu st (stand (us ++ [letter])) < m ->
  exists us1 us2 v : list bytes, us = us1 ++ us2 /\ (v = [] \/ us2 = [] /\ v = [letter])
    /\ eloop SE n d true st = Ok (Some (length (concat us1 ++ end_of us2 tail))) /\ eloop SE m (stand (us ++ [letter])) true st = Ok (Some (length (stand (us1 ++ v)))).
Proof.
  assert (END : forall m st (us : list bytes), s_mu st (stand [letter]) < m -> exists v : list bytes, (v = [] \/ v = [letter]) /\ eloop SE m (stand [letter]) true st = Ok (Some (length (stand v)))).
  { intros m st _ Hm. destruct (stand_loop m st [letter] Hm) as (v1 & v2 & E & H). exists v1. split; [|exact H]. destruct v1 as [|x v1]; [auto|]. right. injection E as <- E. destruct v1; [reflexivity|discriminate]. }
  induction n as [|n IH]; intros m st d us tail HU Nt Hn Hm; [lia|]. destruct us as [|u us].
  { destruct (units_nil _ _ HU) as (-> & Fn). destruct (s_none tail Nt Fn) as (w & Hl). destruct (END m st [] Hm) as (v & Hv & H). exists [], [], v. split; [reflexivity|].
    split; [destruct Hv; auto|]. split; [|exact H]. cbn [concat app end_of eloop e_lk SE]. rewrite (is_nil_false _ Nt), Hl. reflexivity. }
  destruct m as [|m]; [lia|].
  pose proof (concat_nonnil _ _ _ _ HU) as Hd. destruct (units_head _ _ _ _ HU) as (d' & -> & Hu & HU').
  destruct (letter_step st u d' us tail HU Nt) as (dec & Hr & Hdec). pose proof (s_unit _ _ Hu : e_lk SE _ = _) as Hl. pose proof (lk_std _ _ s_unit u (us ++ [letter]) : e_lk SE _ = _) as Hl'.
  pose proof (first_unit_nonnil _ _ Hu) as Nu. assert (Wu : length u <> 0) by (destruct u; [congruence|discriminate]).
  pose proof (utf8_len (character u)) as Wx. assert (Hd' : stand (u :: us ++ [letter]) <> []) by (intros H; apply encode_nil_inv in H; discriminate).
  destruct (s_rules_ok st _ _ _ Hd Hl Wu) as (Tt & _). destruct (Tt true) as (dec1 & Hr1 & Hj1 & _). rewrite Hr in Hr1. injection Hr1 as <-.
  destruct (s_rules_ok st _ _ _ Hd' Hl' Wx) as (Tt' & _). destruct (Tt' true) as (dec2 & Hr2 & Hj2 & _). cbn [app] in *.
  assert (E2 : forall (us1 us2 : list bytes) st', u :: us = us1 ++ us2 -> e_rules SE st (sentences_property (character u)) (stand (u :: us ++ [letter])) (length (utf8 (character u))) true = Ok (EJoin (length (stand us1)) st') ->
    eloop SE (S m) (stand (u :: us ++ [letter])) true st = (r <- eloop SE m (stand (us2 ++ [letter])) true st' ;; Ok (option_map (fun k => length (stand us1) + k) r)) /\ s_mu st' (stand (us2 ++ [letter])) < m).
  { intros us1 us2 st' Eus Hr'. rewrite Hr' in Hr2. injection Hr2 as <-. destruct (Hj2 _ _ eq_refl) as (Hle' & Hmu').
    assert (Sy : skipn (length (stand us1)) (stand (u :: us ++ [letter])) = stand (us2 ++ [letter])).
    { change (u :: us ++ [letter]) with ((u :: us) ++ [letter]). rewrite Eus, <- app_assoc, (map_app character us1). apply skipn_encode. }
    rewrite Sy in Hmu'. split; [|lia]. cbn [eloop]. rewrite (is_nil_false _ Hd'), Hl'. cbn [bind]. destruct (Nat.eqb_spec (length (utf8 (character u))) 0) as [|_]; [contradiction|]. rewrite Hr'. cbn [bind].
    rewrite slice_from_ok by exact Hle'. cbn [bind]. rewrite Sy. reflexivity. }
  destruct dec as [adv st'| | |]; try contradiction.
  - destruct Hdec as (us1 & us2 & Eus & -> & Hr'). destruct (Hj1 _ _ eq_refl) as (Hle & Hmu). destruct (E2 _ _ _ Eus Hr') as (E2' & Hmu').
    assert (Sx : skipn (length (concat us1)) (u ++ d') = concat us2 ++ tail /\ units (concat us2 ++ tail) us2 tail).
    { rewrite Eus in HU. destruct (units_drop _ _ _ _ HU) as (HU2 & ->). split; [rewrite skipn_app, skipn_all, Nat.sub_diag; reflexivity|exact HU2]. }
    destruct Sx as (Sx & HU2).
    assert (E1 : eloop SE (S n) (u ++ d') true st = (r <- eloop SE n (concat us2 ++ tail) true st' ;; Ok (option_map (fun k => length (concat us1) + k) r))).
    { cbn [eloop]. rewrite (is_nil_false _ Hd), Hl. cbn [bind]. destruct (Nat.eqb_spec (length u) 0) as [|_]; [contradiction|]. rewrite Hr. cbn [bind].
      rewrite slice_from_ok by exact Hle. cbn [bind]. rewrite Sx. reflexivity. }
    rewrite Sx in Hmu. rewrite E1, E2'.
    destruct (IH m st' _ us2 tail HU2 Nt) as (v1 & v2 & v & Ev & Hv & A & B); [lia|exact Hmu'|]. rewrite A, B. cbn [bind option_map].
    exists (us1 ++ v1), v2, v. split; [rewrite Eus, Ev, app_assoc; reflexivity|]. split; [exact Hv|]. split; do 2 f_equal; [rewrite concat_app, !app_length; lia|rewrite <- (app_assoc us1), (map_app character us1), encode_app, app_length; reflexivity].
  - exists [], (u :: us), []. split; [reflexivity|]. split; [auto|]. cbn [eloop]. rewrite (is_nil_false _ Hd), (is_nil_false _ Hd'), Hl, Hl'. cbn [bind].
    destruct (Nat.eqb_spec (length u) 0) as [|_]; [contradiction|]. destruct (Nat.eqb_spec (length (utf8 (character u))) 0) as [|_]; [contradiction|]. rewrite Hr, Hdec. split; reflexivity.
  - destruct Hdec as (st' & Hr'). destruct (E2 (u :: us) [] st' (eq_sym (app_nil_r _)) Hr') as (E2' & Hmu'). cbn [app] in E2', Hmu'. destruct (END m st' [] Hmu') as (v & Hv & H).
    exists (u :: us), [], v. split; [rewrite app_nil_r; reflexivity|]. split; [destruct Hv; auto|]. rewrite E2', H. cbn [bind option_map]. split.
    + cbn [eloop]. rewrite (is_nil_false _ Hd), Hl. cbn [bind]. destruct (Nat.eqb_spec (length u) 0) as [|_]; [contradiction|]. rewrite Hr. cbn [bind end_of]. rewrite <- (units_concat _ _ _ HU). reflexivity.
    + rewrite (map_app character (u :: us)), encode_app, app_length. reflexivity.
Qed.

Lemma letter_split : forall (d u : bytes) (us : list bytes) (tail : bytes), units d (u :: us) tail -> tail <> [] ->
  exists us1 us2 v : list bytes, us = us1 ++ us2 /\ (v = [] \/ us2 = [] /\ v = [letter])
    /\ splitFunc d true = Ok (e_done (length (concat (u :: us1) ++ end_of us2 tail)) (concat (u :: us1) ++ end_of us2 tail))
    /\ splitFunc (stand (u :: us ++ [letter])) true = Ok (e_done (length (stand (u :: us1 ++ v))) (stand (u :: us1 ++ v))).
Proof.
  intros d u us tail HU Nt. pose proof (concat_nonnil _ _ _ _ HU) as Hd. destruct (units_head _ _ _ _ HU) as (d' & -> & Hu & HU').
  pose proof (s_unit _ _ Hu : e_lk0 SE _ = _) as Hl. pose proof (lk_std _ _ s_unit u (us ++ [letter]) : e_lk0 SE _ = _) as Hl'. pose proof (first_unit_nonnil _ _ Hu) as Nu.
  assert (Wu : length u <> 0) by (destruct u; [congruence|discriminate]). pose proof (utf8_len (character u)) as Wx. assert (Hd' : stand (u :: us ++ [letter]) <> []) by (intros H; apply encode_nil_inv in H; discriminate).
  assert (Lu : length u <= length (u ++ d')) by (rewrite app_length; lia).
  assert (Lx : length (utf8 (character u)) <= length (stand (u :: us ++ [letter]))) by (cbn [map]; rewrite encode_cons, app_length; lia).
  pose proof (SentencesConform.s_FU _ _ _ Hl Wu Lu) as F1. pose proof (SentencesConform.s_FU _ _ _ Hl' Wx Lx) as F2.
  rewrite <- (s_split_engine (u ++ d')), <- (s_split_engine (stand (u :: us ++ [letter]))). unfold esplit. rewrite (is_nil_false _ Hd), (is_nil_false _ Hd'), Hl, Hl'. cbn [bind].
  destruct (Nat.eqb_spec (length u) 0) as [|_]; [contradiction|]. destruct (Nat.eqb_spec (length (utf8 (character u))) 0) as [|_]; [contradiction|].
  rewrite after_unit, after_stand. cbn [bind].
  assert (Sx : skipn (length u) (u ++ d') = d') by (rewrite skipn_app, skipn_all, Nat.sub_diag; reflexivity).
  assert (Sy : skipn (length (utf8 (character u))) (stand (u :: us ++ [letter])) = stand (us ++ [letter])) by (cbn [map]; rewrite encode_cons, skipn_app, skipn_all, Nat.sub_diag; reflexivity).
  rewrite Sx in *. rewrite Sy in *.
  assert (TK : forall (a b : bytes) k, k = length a -> slice_to (a ++ b) k = Ok a).
  { intros a b k ->. unfold slice_to. rewrite app_length. replace (_ <? _) with false by (symmetry; apply Nat.ltb_ge; lia). rewrite firstn_app, firstn_all, Nat.sub_diag. cbn [firstn]. rewrite app_nil_r. reflexivity. }
  destruct (letter_loop _ _ _ _ _ _ HU' Nt F1 F2) as (us1 & us2 & v & Eus & Hv & H1 & H2). rewrite H1, H2. cbn [bind]. exists us1, us2, v. split; [exact Eus|]. split; [exact Hv|].
  assert (Ld : u ++ d' = (concat (u :: us1) ++ end_of us2 tail) ++ (match us2 with [] => [] | _ => concat us2 ++ tail end)).
  { rewrite (units_concat _ _ _ HU'), Eus, concat_app. cbn [concat]. destruct us2; cbn [end_of concat]; rewrite ?app_nil_r, <- ?app_assoc; reflexivity. }
  assert (Ls : exists r : bytes, stand (u :: us ++ [letter]) = stand (u :: us1 ++ v) ++ r).
  { rewrite Eus. destruct Hv as [->|(-> & ->)].
    - exists (stand (us2 ++ [letter])). rewrite app_nil_r, <- app_assoc. cbn [map]. rewrite map_app, !encode_cons, encode_app, app_assoc. reflexivity.
    - exists []. rewrite !app_nil_r. reflexivity. }
  destruct Ls as (r & Ls).
  replace (length u + _) with (length (concat (u :: us1) ++ end_of us2 tail)) by (cbn [concat]; rewrite !app_length; lia).
  replace (length (utf8 (character u)) + _) with (length (stand (u :: us1 ++ v))) by (cbn [map]; rewrite encode_cons, app_length; lia).
  rewrite Ld, TK by reflexivity. rewrite Ls, TK by reflexivity. split; reflexivity.
Qed.

(** The pieces of the units with a letter after them: the letter is by itself or with the last piece. *)
Definition letter_after (segs full : list (list bytes)) : Prop :=
  full = segs ++ [[letter]] \/ exists (s0 : list (list bytes)) (s : list bytes), segs = s0 ++ [s] /\ full = s0 ++ [s ++ [letter]].
Definition cut_letter (f : splitfun) (d : bytes) (us : list bytes) (tail : bytes) : Prop :=
  exists segs full : list (list bytes), concat segs = us /\ Forall (fun s => s <> []) segs /\ letter_after segs full
    /\ chop f (S (length d)) d = Ok (with_tail (map (@concat N) segs) tail) /\ chop f (S (length (stand (us ++ [letter])))) (stand (us ++ [letter])) = Ok (map (fun s => stand s) full).

Theorem s_letter : forall d us tail, units d us tail -> tail <> [] -> cut_letter splitFunc d us tail.
Proof.
  assert (L1 : chop splitFunc (S (length (stand [letter]))) (stand [letter]) = Ok [stand [letter]]) by (vm_compute; reflexivity).
  intros d. remember (length d) as k. revert d Heqk. induction k as [k IH] using lt_wf_ind. intros d -> us tail HU Nt. destruct us as [|u us].
  { destruct (units_nil _ _ HU) as (-> & Fn). exists [], [[letter]]. split; [reflexivity|]. split; [constructor|]. split; [left; reflexivity|]. split; [|exact L1].
    destruct (s_none tail Nt Fn) as (v & Hl). cbn [chop map with_tail]. rewrite <- s_split_engine. unfold esplit. rewrite (is_nil_false _ Nt). change (e_lk0 SE) with sentences_lookup.
    rewrite Hl. cbn [bind Nat.eqb e_done so_token so_advance]. rewrite Nat2Z.id, skipn_all. destruct tail; [congruence|reflexivity]. }
  pose proof (concat_nonnil _ _ _ _ HU) as Hd. assert (Hd' : stand (u :: us ++ [letter]) <> []) by (intros H; apply encode_nil_inv in H; discriminate).
  assert (STEPd : forall n tok, splitFunc d true = Ok (e_done n tok) -> length (skipn n d) < length d -> chop splitFunc (S (length d)) d = (r <- chop splitFunc (S (length (skipn n d))) (skipn n d) ;; Ok (tok :: r))).
  { intros n tok H L. cbn [chop]. rewrite (is_nil_false _ Hd), H. cbn [bind e_done so_token so_advance]. rewrite Nat2Z.id.
    rewrite (chop_fuel _ s_split_ok (length d) (S (length (skipn n d)))) by lia. reflexivity. }
  assert (STEPs : forall w r : list bytes, us ++ [letter] = w ++ r -> splitFunc (stand (u :: us ++ [letter])) true = Ok (e_done (length (stand (u :: w))) (stand (u :: w))) ->
    chop splitFunc (S (length (stand (u :: us ++ [letter])))) (stand (u :: us ++ [letter])) = (r <- chop splitFunc (S (length (stand r))) (stand r) ;; Ok (stand (u :: w) :: r))).
  { intros w r E H. assert (Sy : skipn (length (stand (u :: w))) (stand (u :: us ++ [letter])) = stand r).
    { rewrite E. change (u :: w ++ r) with ((u :: w) ++ r). rewrite (map_app character (u :: w)). apply skipn_encode. }
    assert (LS : length (stand r) < length (stand (u :: us ++ [letter]))).
    { rewrite E. cbn [map]. rewrite map_app, encode_cons, encode_app, !app_length. pose proof (utf8_len (character u)). lia. }
    cbn [chop]. rewrite (is_nil_false _ Hd'), H. cbn [bind e_done so_token so_advance]. rewrite Nat2Z.id, Sy.
    rewrite (chop_fuel _ s_split_ok (length (stand (u :: us ++ [letter]))) (S (length (stand r)))) by lia. reflexivity. }
  assert (Nu : forall us1 : list bytes, concat (u :: us1) <> []). { intros us1. destruct (units_head _ _ _ _ HU) as (d' & _ & Hu & _). apply first_unit_nonnil in Hu. cbn [concat]. destruct u; [congruence|discriminate]. }
  destruct (letter_split d u us tail HU Nt) as (us1 & us2 & v & Eus & Hv & H1 & H2).
  assert (HU2 : units d ((u :: us1) ++ us2) tail) by (cbn [app]; rewrite <- Eus; exact HU). destruct (units_drop _ _ _ _ HU2) as (HU3 & Ed).
  destruct us2 as [|u2 us2].
  - cbn [end_of] in H1. rewrite app_nil_r in Eus. subst us1. cbn [concat app] in Ed.
    assert (Sd : skipn (length (concat (u :: us) ++ tail)) d = []). { rewrite Ed. apply skipn_all. }
    pose proof (STEPd _ _ H1) as C1. rewrite Sd in C1. specialize (C1 ltac:(destruct d; [congruence|cbn; lia])). cbn [chop is_nil bind] in C1.
    assert (Hv' : v = [] \/ v = [letter]) by (destruct Hv as [Hv|(_ & Hv)]; auto). clear Hv. destruct Hv' as [-> | ->].
    + exists [u :: us], [u :: us; [letter]]. split; [cbn [concat]; rewrite app_nil_r; reflexivity|]. split; [constructor; [discriminate|constructor]|].
      split; [left; reflexivity|]. split; [exact C1|]. rewrite app_nil_r in H2. cbn [app]. etransitivity; [exact (STEPs us [letter] eq_refl H2)|]. rewrite L1. reflexivity.
    + exists [u :: us], [u :: us ++ [letter]]. split; [cbn [concat]; rewrite app_nil_r; reflexivity|]. split; [constructor; [discriminate|constructor]|].
      split; [right; exists [], (u :: us); split; reflexivity|]. split; [exact C1|]. exact (STEPs (us ++ [letter]) [] (eq_sym (app_nil_r _)) H2).
  - destruct Hv as [->|(? & _)]; [|discriminate]. rewrite app_nil_r in H2. cbn [end_of] in H1. rewrite !app_nil_r in H1.
    assert (Sd : skipn (length (concat (u :: us1))) d = concat (u2 :: us2) ++ tail) by (rewrite Ed, skipn_app, skipn_all, Nat.sub_diag; reflexivity).
    assert (Ln : length (concat (u2 :: us2) ++ tail) < length d). { rewrite <- Sd, skipn_length. specialize (Nu us1). destruct (concat (u :: us1)); [congruence|]. destruct d; [congruence|]. cbn [length]. lia. }
    pose proof (STEPd _ _ H1) as C1. rewrite Sd in C1. specialize (C1 Ln).
    assert (Eus' : us ++ [letter] = us1 ++ ((u2 :: us2) ++ [letter])) by (rewrite Eus, app_assoc; reflexivity). pose proof (STEPs us1 _ Eus' H2) as C2.
    destruct (IH _ Ln _ eq_refl _ _ HU3 Nt) as (segs & full & Ec & Ff & La & D1 & D2). rewrite D1 in C1. rewrite D2 in C2. cbn [bind] in C1, C2.
    exists ((u :: us1) :: segs), ((u :: us1) :: full). split; [cbn [concat]; rewrite Ec, Eus; reflexivity|]. split; [constructor; [discriminate|exact Ff]|].
    split. { destruct La as [->|(s0 & s & -> & ->)]; [left; reflexivity|right; exists ((u :: us1) :: s0), s; split; reflexivity]. }
    split; [|exact C2]. etransitivity; [exact C1|]. destruct segs as [|s segs]; [discriminate|]. reflexivity.
Qed.
