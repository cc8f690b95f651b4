(** Ill-formed text: the four packages. *)
From Verif Require Import Base ListFacts Trie Lk Engine EngineMore Seek SpecUtf8 SpecIter SpecRules UcdFacts UcdGraphemes UcdWords UcdSentences UcdPhrases SpecLookup DecodeFacts Utf8 Conform SpecIll IllFacts IllSim IllSeek.
From Verif Require TableGraphemes TableWords TablePhrases TableSentences Graphemes GraphemesEngine GraphemesConform Words WordsEngine WordsConform Phrases PhrasesEngine PhrasesConform Sentences SentencesEngine SentencesConform.

(** The pieces of units [segs] are the tokens of [d]; the pieces of characters are those of the text the units stand for. *)
Definition cut_alike (f : splitfun) (d : bytes) (us : list bytes) (tail : bytes) : Prop :=
  exists segs : list (list bytes), concat segs = us /\ Forall (fun s => s <> []) segs
    /\ chop f (S (length d)) d = Ok (with_tail (map (@concat N) segs) tail) /\ chop f (S (length (stand us))) (stand us) = Ok (map (fun s => stand s) segs).

Section G.
  Import TableGraphemes Graphemes GraphemesEngine.
  Theorem g_alike : forall d us tail, units d us tail -> cut_alike splitFunc d us tail.
  Proof.
    intros d us tail HU. exact (sim_chop GE g_mu g_rules_ok g_fuel GraphemesConform.g_FU splitFunc g_split_engine graphemes_property graphemes_property g_unit g_unit g_none g_none
      (fun _ => True) g_sim _ _ d us tail I HU (Nat.lt_succ_diag_r _) (Nat.lt_succ_diag_r _)).
  Qed.
End G.

Section W.
  Import TableWords Words WordsEngine.
  Variable j : option Joiners.
  Definition w_first (c : N) : N := match j with None => words_property c | Some jj => if runesContain (Leading jj) c then N.lor (words_property c) _AHLetter else words_property c end.
  Definition w_next (c : N) : N := match j with None => words_property c | Some jj => if runesContain (Middle jj) c then N.lor (words_property c) _MidNumLet else words_property c end.
  Lemma wl_unit : forall u d, first_unit (u ++ d) = Some u -> e_lk0 (WE j) (u ++ d) = Ok (w_first (character u), length u).
  Proof.
    intros u d Hu. change (e_lk0 (WE j)) with (lkL j). unfold lkL. rewrite (w_unit u d Hu). cbn [bind]. pose proof (first_unit_nonnil _ _ Hu).
    destruct (Nat.eqb_spec (length u) 0) as [E|_]; [destruct u; [congruence|discriminate]|]. unfold leadingBits, w_first. destruct j as [jj|]; [|reflexivity]. rewrite (decode_unit u d Hu). reflexivity.
  Qed.
  Lemma wm_unit : forall u d, first_unit (u ++ d) = Some u -> e_lk (WE j) (u ++ d) = Ok (w_next (character u), length u).
  Proof.
    intros u d Hu. change (e_lk (WE j)) with (lkM j). unfold lkM. rewrite (w_unit u d Hu). cbn [bind]. pose proof (first_unit_nonnil _ _ Hu).
    destruct (Nat.eqb_spec (length u) 0) as [E|_]; [destruct u; [congruence|discriminate]|]. unfold middleBits, w_next. destruct j as [jj|]; [|reflexivity]. rewrite (decode_unit u d Hu). reflexivity.
  Qed.
  Lemma wl_none : forall d, d <> [] -> first_unit d = None -> exists v, e_lk0 (WE j) d = Ok (v, 0).
  Proof. intros d Hd Hu. change (e_lk0 (WE j)) with (lkL j). unfold lkL. destruct (w_none d Hd Hu) as (v & ->). exists v. reflexivity. Qed.
  Lemma wm_none : forall d, d <> [] -> first_unit d = None -> exists v, e_lk (WE j) d = Ok (v, 0).
  Proof. intros d Hd Hu. change (e_lk (WE j)) with (lkM j). unfold lkM. destruct (w_none d Hd Hu) as (v & ->). exists v. reflexivity. Qed.
  Lemma w_sim : forall st (u d : bytes) (us : list bytes) (tail : bytes), True -> units (u ++ d) (u :: us) tail -> exists dec,
    e_rules (WE j) st (w_next (character u)) (u ++ d) (length u) true = Ok dec
    /\ match dec with
       | EBreak => e_rules (WE j) st (w_next (character u)) (stand (u :: us)) (length (utf8 (character u))) true = Ok EBreak
       | EJoin adv st' => exists us1 us2 : list bytes, u :: us = us1 ++ us2 /\ adv = length (concat us1)
           /\ e_rules (WE j) st (w_next (character u)) (stand (u :: us)) (length (utf8 (character u))) true = Ok (EJoin (length (stand us1)) st')
       | _ => False
       end.
  Proof.
    intros st u d us tail _ HU. destruct (units_head _ _ _ _ HU) as (d' & E & _ & HU'). apply app_inv_head in E. subst d'.
    change (e_rules (WE j)) with w_erules. unfold w_erules. rewrite after_unit, after_stand. cbn [bind].
    match goal with |- context [w_rules ?c ?l ?lx ?ll ?ri (length u) d true] => destruct (w_rules_same c l lx ll ri u d us tail HU') as [(A & B)|(us1 & us2 & ri' & E & A & B)] end;
      rewrite A, B; cbn [bind].
    - eexists. split; reflexivity.
    - eexists. split; [reflexivity|]. exists us1, us2. repeat split; auto.
  Qed.
  Lemma w_FUj : forall data v w, e_lk0 (WE j) data = Ok (v, w) -> w <> 0 -> w <= length data -> w_mu (e_init (WE j) v) (skipn w data) < w_fuel data.
  Proof. intros data v w _ Hw Hle. unfold w_mu, w_fuel. rewrite skipn_length. lia. Qed.
  Theorem w_alike : forall d us tail, units d us tail -> cut_alike (joinersSplitFunc j) d us tail.
  Proof.
    intros d us tail HU. exact (sim_chop (WE j) w_mu (w_rules_ok j) w_fuel w_FUj (joinersSplitFunc j) (w_split_engine j) w_first w_next wl_unit wm_unit wl_none wm_none
      (fun _ => True) w_sim _ _ d us tail I HU (Nat.lt_succ_diag_r _) (Nat.lt_succ_diag_r _)).
  Qed.
End W.

Section P.
  Import TablePhrases Phrases PhrasesEngine.
  Definition p_same (u : bytes) (us : list bytes) (x y : res pdecision) : Prop :=
    (x = Ok PBreak /\ y = Ok PBreak) \/ exists (us1 us2 : list bytes) ri, u :: us = us1 ++ us2 /\ x = Ok (PJoin (length (concat us1)) ri) /\ y = Ok (PJoin (length (stand us1)) ri).
  Lemma p_same_break : forall u us, p_same u us (Ok PBreak) (Ok PBreak).
  Proof. left. split; reflexivity. Qed.
  Lemma p_same_join : forall u us ri, p_same u us (Ok (PJoin (length u) ri)) (Ok (PJoin (length (utf8 (character u))) ri)).
  Proof. intros u us ri. right. exists [u], us, ri. cbn [concat]. rewrite app_nil_r, <- stand_one. repeat split; reflexivity. Qed.
  Lemma p_same_look : forall c props (d u : bytes) (us : list bytes) (tail : bytes) ri n n', units d us tail -> p_same u us n n' ->
    p_same u us (lookahead c props d true (length u) ri n) (lookahead c props (stand us) true (length (utf8 (character u))) ri n').
  Proof.
    intros c props d u us tail ri n n' HU Hn. unfold lookahead. destruct c; [|exact Hn]. rewrite (subsequent_gsub props d), (subsequent_gsub props (stand us)).
    destruct (sim_gsub phrases_lookup phrases_property p_lk p_unit p_none _Ignore props d us tail HU) as [(A & B)|(us1 & us2 & E & A & B)]; rewrite A, B; cbn [bind]; [exact Hn|].
    right. exists (u :: us1), us2, ri. rewrite E. cbn [concat map]. rewrite encode_cons, !app_length. repeat split; reflexivity.
  Qed.
  Lemma p_rules_same : forall c l lx ll ri (u d : bytes) (us : list bytes) (tail : bytes), units d us tail ->
    p_same u us (p_rules c l lx ll ri (length u) d true) (p_rules c l lx ll ri (length (utf8 (character u))) (stand us) true).
  Proof.
    intros c l lx ll ri u d us tail HU. unfold p_rules.
    repeat match goal with
    | |- p_same _ _ (if ?b then _ else _) (if ?b then _ else _) => destruct b
    | |- p_same _ _ (lookahead _ _ _ _ _ _ _) _ => eapply p_same_look; [exact HU|]
    | |- p_same _ _ (Ok (PJoin _ _)) _ => apply p_same_join
    | |- p_same _ _ (Ok PBreak) _ => apply p_same_break
    end.
  Qed.
  Lemma p_sim : forall st (u d : bytes) (us : list bytes) (tail : bytes), True -> units (u ++ d) (u :: us) tail -> exists dec,
    e_rules PE st (phrases_property (character u)) (u ++ d) (length u) true = Ok dec
    /\ match dec with
       | EBreak => e_rules PE st (phrases_property (character u)) (stand (u :: us)) (length (utf8 (character u))) true = Ok EBreak
       | EJoin adv st' => exists us1 us2 : list bytes, u :: us = us1 ++ us2 /\ adv = length (concat us1)
           /\ e_rules PE st (phrases_property (character u)) (stand (u :: us)) (length (utf8 (character u))) true = Ok (EJoin (length (stand us1)) st')
       | _ => False
       end.
  Proof.
    intros st u d us tail _ HU. destruct (units_head _ _ _ _ HU) as (d' & E & _ & HU'). apply app_inv_head in E. subst d'.
    change (e_rules PE) with p_erules. unfold p_erules. rewrite after_unit, after_stand. cbn [bind].
    match goal with |- context [p_rules ?c ?l ?lx ?ll ?ri (length u) d true] => destruct (p_rules_same c l lx ll ri u d us tail HU') as [(A & B)|(us1 & us2 & ri' & E & A & B)] end;
      rewrite A, B; cbn [bind].
    - eexists. split; reflexivity.
    - eexists. split; [reflexivity|]. exists us1, us2. repeat split; auto.
  Qed.
  Lemma p_FUp : forall data v w, e_lk0 PE data = Ok (v, w) -> w <> 0 -> w <= length data -> p_mu (e_init PE v) (skipn w data) < p_fuel data.
  Proof. intros data v w _ Hw Hle. unfold p_mu, p_fuel. rewrite skipn_length. lia. Qed.
  Theorem p_alike : forall d us tail, units d us tail -> cut_alike splitFunc d us tail.
  Proof.
    intros d us tail HU. exact (sim_chop PE p_mu p_rules_ok p_fuel p_FUp splitFunc p_split_engine phrases_property phrases_property p_unit p_unit p_none p_none
      (fun _ => True) p_sim _ _ d us tail I HU (Nat.lt_succ_diag_r _) (Nat.lt_succ_diag_r _)).
  Qed.
End P.
