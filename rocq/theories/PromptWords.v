(** How much data words, phrases and graphemes must be given before they return a token. *)
From Verif Require Import Base ListFacts Trie LookupFacts TableFacts Engine Lk Seek BitFacts SpecJoiners Append Prompt AppendWords AppendPhrases.
From Verif Require TableGraphemes TableWords TablePhrases Words WordsEngine Phrases PhrasesEngine Graphemes GraphemesEngine.
Local Open Scope N_scope.

Lemma need_le : forall c, (need c <= 4)%nat.
Proof. intros c. unfold need. repeat match goal with |- context [if ?c then _ else _] => destruct c end; lia. Qed.
(** Only characters cut short have no width. *)
Lemma lookup_short : forall values index V d v, tables_ok values index V = true -> lookup values index d = Ok (v, 0%nat) -> (length d <= 3)%nat.
Proof.
  intros values index V d v T H. destruct d as [|c0 s]; [cbn; lia|]. destruct (lookup_spec _ _ _ T c0 s) as (v' & w' & Hl & _ & _ & _ & H0 & _). rewrite H in Hl. injection Hl as <- <-.
  destruct (H0 eq_refl) as (_ & HL). pose proof (need_le c0). lia.
Qed.
Section Sub.
  Variable lk : bytes -> res (N * nat).
  Variable ign : N.
  Hypothesis LK : lk_ok lk.
  Hypothesis SHORT : forall d v, lk d = Ok (v, 0%nat) -> (length d <= 3)%nat.
  (** A search through ignorable characters ends behind them. *)
  Lemma rsub_far : forall props fuel d e a m, trail lk ign d -> rsub lk ign props fuel (d ++ e) true = Ok (Some a, m) -> near d a.
  Proof.
    intros props. induction fuel as [|fuel IH]; intros d e a m HT H; [discriminate|]. destruct HT as [|d v Hl|d v w Hl Hw HI HT].
    - unfold near. cbn. lia.
    - unfold near. pose proof (SHORT _ _ Hl). lia.
    - destruct d as [|c d0]; [unfold near; cbn; lia|]. set (d := c :: d0) in *. assert (Hd : d <> []) by discriminate. destruct (LK d Hd) as (v1 & w1 & Hl1 & Hle & HL). rewrite Hl in Hl1. injection Hl1 as <- <-.
      cbn [rsub] in H. change (is_nil (d ++ e)) with false in H. cbv iota in H. rewrite (HL Hw e) in H. cbn [bind] in H. rewrite (proj2 (Nat.eqb_neq _ _) Hw), HI in H.
      rewrite slice_from_ok in H by (rewrite app_length; lia). cbn [bind] in H. rewrite skipn_app_le in H by exact Hle.
      destruct (rsub lk ign props fuel (skipn w d ++ e) true) as [[[a'|] m']| |] eqn:Er; try discriminate. cbn [bind option_map] in H. injection H as <- _. apply near_shift. exact (IH _ _ _ _ HT Er).
  Qed.
End Sub.

Section W.
Import TableWords Words WordsEngine.
Lemma w_short : forall d v, words_lookup d = Ok (v, 0%nat) -> (length d <= 3)%nat.
Proof. intros d v. apply (lookup_short _ _ _ d v w_tables_ok). Qed.
Lemma lkM_short : forall j d v, lkM j d = Ok (v, 0%nat) -> (length d <= 3)%nat.
Proof. intros j d v H. unfold lkM in H. destruct (words_lookup d) as [[v0 w0]| |] eqn:E; try discriminate. cbn [bind] in H. injection H as _ ->. exact (w_short _ _ E). Qed.
Lemma lkL_short : forall j d v, lkL j d = Ok (v, 0%nat) -> (length d <= 3)%nat.
Proof. intros j d v H. unfold lkL in H. destruct (words_lookup d) as [[v0 w0]| |] eqn:E; try discriminate. cbn [bind] in H. injection H as _ ->. exact (w_short _ _ E). Qed.
Notation tr := (trail words_lookup _Ignore).
Definition w_fine (d : bytes) (w : nat) (x : res wdecision) : Prop := forall dec, x = Ok dec -> (exists ri, dec = WJoin w ri) \/ dec = WBreak \/ exists a ri, dec = WJoin (w + a) ri /\ near d a.
Lemma w_la_fine : forall c p d e w ri n, tr d -> w_fine d w n -> w_fine d w (lookahead c p (d ++ e) true w ri n).
Proof.
  intros c p d e w ri n HT HN dec H. unfold lookahead in H. destruct c; [|exact (HN dec H)]. rewrite subsequent_gsub, gsubsequent_rsub in H by exact w_lk.
  destruct (rsub _ _ _ _ (d ++ e) true) as [[r m]| |] eqn:Er; try discriminate. cbn [bind] in H. destruct m.
  - exfalso. destruct (rsub_total words_lookup _Ignore p w_lk (S (length (d ++ e))) (d ++ e) true ltac:(lia)) as (r' & m' & Hr & HM & _). rewrite Er in Hr. injection Hr as <- <-. discriminate (HM eq_refl).
  - destruct r as [a|]; [|exact (HN dec H)]. injection H as <-. right. right. exists a, ri. split; [reflexivity|]. exact (rsub_far _ _ w_lk w_short _ _ _ _ _ _ HT Er).
Qed.
Lemma w_if_fine : forall d w (c : bool) x y, w_fine d w x -> w_fine d w y -> w_fine d w (if c then x else y). Proof. intros d w [] x y; auto. Qed.
Lemma w_in_dec : forall current last lx llx ri w d e, tr d -> w_fine d w (w_rules current last lx llx ri w (d ++ e) true).
Proof.
  intros current last lx llx ri w d e HT. unfold w_rules.
  repeat match goal with |- w_fine _ _ (if _ then _ else _) => apply w_if_fine | |- w_fine _ _ (lookahead _ _ _ _ _ _ _) => apply w_la_fine; [exact HT|] end; intros dec H; injection H as <-; eauto.
Qed.
Lemma wq_in : forall j st d e v w dec, wq st d -> d <> [] -> lkM j d = Ok (v, w) -> w <> 0%nat -> w_erules st v (d ++ e) w true = Ok dec ->
  exists st', dec = EJoin w st' /\ (w <= length d)%nat /\ wq st' (skipn w d).
Proof.
  intros j st d e v w dec (HT & HN) Hd Hl Hw H. destruct (lkM_raw _ _ _ _ Hl Hw) as (v0 & Hl0 & ->).
  destruct (trail_step _ _ _ _ _ HT Hd Hl0 Hw) as (HI & HT'). destruct (w_lk d Hd) as (v1 & w1 & Hl1 & Hle & _). rewrite Hl0 in Hl1. injection Hl1 as <- <-.
  unfold w_erules in H. cbv zeta in H. rewrite slice_from_ok in H by (rewrite app_length; lia). cbn [bind] in H.
  match type of H with bind ?x _ = _ => assert (HR : exists ri', x = Ok (WJoin w ri')) end.
  { unfold w_rules. fold w_nl. fold _Ignore. rewrite is_lor_l, HN, mid_nl, (w_ign_nl v0 (w_lookup_in _ _ _ Hl0) HI), (mid_ign j d v0 HI). cbn [orb].
    repeat match goal with |- exists r, (if ?c then _ else _) = _ => destruct c; [eexists; reflexivity|] end. eexists; reflexivity. }
  destruct HR as (ri' & HR). rewrite HR in H. cbn [bind] in H. injection H as <-. eexists. split; [reflexivity|]. split; [exact Hle|]. split; [exact HT'|]. cbn [ws_current].
  rewrite mid_nl. exact (w_ign_nl v0 (w_lookup_in _ _ _ Hl0) HI).
Qed.
Lemma w_i1 : forall j W st d e v w dec, wq st d -> d <> [] -> lkM j d = Ok (v, w) -> w <> 0%nat -> w_erules st v (d ++ e) w true = Ok dec -> lands_in (WE j) wq W d e dec.
Proof. intros j W st d e v w dec HS Hd Hl Hw H. destruct (wq_in j st d e v w dec HS Hd Hl Hw H) as (st' & -> & Hle & HS'). right. auto. Qed.
Lemma w_i2 : forall j st d e v w dec, d <> [] -> lkM j d = Ok (v, w) -> w <> 0%nat -> w_erules st v d w false = Ok EMore -> w_erules st v (d ++ e) w true = Ok dec -> lands_in (WE j) wq wrest d e dec.
Proof.
  intros j st d e v w dec Hd Hl Hw HM H. destruct (lkM_raw _ _ _ _ Hl Hw) as (v0 & Hl0 & ->). destruct (w_lk d Hd) as (v1 & w1 & Hl1 & Hle & _). rewrite Hl0 in Hl1. injection Hl1 as <- <-.
  unfold w_erules in H, HM. cbv zeta in H, HM. rewrite slice_from_ok in HM by lia. rewrite slice_from_ok in H by (rewrite app_length; lia). cbn [bind] in H, HM. rewrite skipn_app_le in H by exact Hle.
  match type of HM with bind ?x _ = _ => destruct x as [[? ?| |]| |] eqn:EM end; try discriminate. apply w_more in EM. destruct EM as (HT & HN). rewrite is_lor_l, mid_nl in HN. apply orb_false_elim in HN. destruct HN as (_ & HN).
  match type of H with bind ?x _ = _ => destruct x as [de| |] eqn:ED end; try discriminate. destruct (w_in_dec _ _ _ _ _ _ _ e HT de ED) as [(ri' & ->) | [-> | (a & ri' & -> & HA)]]; cbn [bind] in H; injection H as <-; cbn [lands_in].
  - right. split; [exact Hle|]. split; [exact HT|]. cbn [ws_current]. rewrite mid_nl. exact HN.
  - exists v0, w. auto.
  - left. apply near_shift. exact HA.
Qed.
Lemma w_prompt : forall j, prompt 2 (joinersSplitFunc j).
Proof.
  intros j. apply (prompt_two _ wrest (so_eof _ (w_split_ok j))).
  - intros d e n Hd HF HT. rewrite <- w_split_engine in HF, HT.
    exact (asked_first (WE j) w_mu (lkM_ok j) (lkM_short j) (w_rules_ok j) wq wrest (w_i1 j wrest) (w_i2 j) (lkL_ok j) (lkL_short j) w_fuel d e n _ Hd HF HT).
  - intros d e n (v0 & w & Hl0 & Hw & HN & HT) Hd H. rewrite <- w_split_engine in H.
    assert (Hl : lkL j d = Ok (leadingBits j d v0, w)). { unfold lkL. rewrite Hl0. cbn [bind]. rewrite (proj2 (Nat.eqb_neq _ _) Hw). reflexivity. }
    destruct (quiet_first (WE j) w_mu (lkM_ok j) (lkM_short j) (w_rules_ok j) wq (fun _ => False) (w_i1 j _) (lkL_ok j) w_fuel d e n (firstn n (d ++ e)) _ _ Hl Hw Hd) with (2 := H) as [HH|(_ & [])]; [|exact HH].
    split; [exact HT|]. cbn. rewrite lead_nl. exact HN.
Qed.
End W.

Section P.
Import TablePhrases Phrases PhrasesEngine.
Lemma p_short : forall d v, phrases_lookup d = Ok (v, 0%nat) -> (length d <= 3)%nat.
Proof. intros d v. apply (lookup_short _ _ _ d v p_tables_ok). Qed.
Notation tr := (trail phrases_lookup _Ignore).
Definition p_fine (d : bytes) (w : nat) (x : res pdecision) : Prop := forall dec, x = Ok dec -> (exists ri, dec = PJoin w ri) \/ dec = PBreak \/ exists a ri, dec = PJoin (w + a) ri /\ near d a.
Lemma p_la_fine : forall c p d e w ri n, tr d -> p_fine d w n -> p_fine d w (lookahead c p (d ++ e) true w ri n).
Proof.
  intros c p d e w ri n HT HN dec H. unfold lookahead in H. destruct c; [|exact (HN dec H)]. rewrite subsequent_gsub, gsubsequent_rsub in H by exact p_lk.
  destruct (rsub _ _ _ _ (d ++ e) true) as [[r m]| |] eqn:Er; try discriminate. cbn [bind] in H. destruct m.
  - exfalso. destruct (rsub_total phrases_lookup _Ignore p p_lk (S (length (d ++ e))) (d ++ e) true ltac:(lia)) as (r' & m' & Hr & HM & _). rewrite Er in Hr. injection Hr as <- <-. discriminate (HM eq_refl).
  - destruct r as [a|]; [|exact (HN dec H)]. injection H as <-. right. right. exists a, ri. split; [reflexivity|]. exact (rsub_far _ _ p_lk p_short _ _ _ _ _ _ HT Er).
Qed.
Lemma p_if_fine : forall d w (c : bool) x y, p_fine d w x -> p_fine d w y -> p_fine d w (if c then x else y). Proof. intros d w [] x y; auto. Qed.
Lemma p_in_dec : forall current last lx llx ri w d e, tr d -> p_fine d w (p_rules current last lx llx ri w (d ++ e) true).
Proof.
  intros current last lx llx ri w d e HT. unfold p_rules.
  repeat match goal with |- p_fine _ _ (if _ then _ else _) => apply p_if_fine | |- p_fine _ _ (lookahead _ _ _ _ _ _ _) => apply p_la_fine; [exact HT|] end; intros dec H; injection H as <-; eauto.
Qed.
Lemma pq_in : forall st d e v w dec, pq st d -> d <> [] -> phrases_lookup d = Ok (v, w) -> w <> 0%nat -> p_erules st v (d ++ e) w true = Ok dec ->
  exists st', dec = EJoin w st' /\ (w <= length d)%nat /\ pq st' (skipn w d).
Proof.
  intros st d e v w dec (HT & HN) Hd Hl Hw H.
  destruct (trail_step _ _ _ _ _ HT Hd Hl Hw) as (HI & HT'). destruct (p_lk d Hd) as (v1 & w1 & Hl1 & Hle & _). rewrite Hl in Hl1. injection Hl1 as <- <-.
  unfold p_erules in H. cbv zeta in H. rewrite slice_from_ok in H by (rewrite app_length; lia). cbn [bind] in H.
  match type of H with bind ?x _ = _ => assert (HR : exists ri', x = Ok (PJoin w ri')) end.
  { unfold p_rules. fold p_nl. fold _Ignore. rewrite is_lor_l, HN, (p_ign_nl v (p_lookup_in _ _ _ Hl) HI), HI. cbn [orb].
    assert (N.lor v (ps_current st) =? 0 = false) as ->. { apply N.eqb_neq. intros E. apply N.lor_eq_0_l in E. subst v. vm_compute in HI. discriminate. }
    repeat match goal with |- exists r, (if ?c then _ else _) = _ => destruct c; [eexists; reflexivity|] end. eexists; reflexivity. }
  destruct HR as (ri' & HR). rewrite HR in H. cbn [bind] in H. injection H as <-. eexists. split; [reflexivity|]. split; [exact Hle|]. split; [exact HT'|]. cbn [ps_current].
  exact (p_ign_nl v (p_lookup_in _ _ _ Hl) HI).
Qed.
Lemma p_i1 : forall W st d e v w dec, pq st d -> d <> [] -> phrases_lookup d = Ok (v, w) -> w <> 0%nat -> p_erules st v (d ++ e) w true = Ok dec -> lands_in PE pq W d e dec.
Proof. intros W st d e v w dec HS Hd Hl Hw H. destruct (pq_in st d e v w dec HS Hd Hl Hw H) as (st' & -> & Hle & HS'). right. auto. Qed.
Lemma p_i2 : forall st d e v w dec, d <> [] -> phrases_lookup d = Ok (v, w) -> w <> 0%nat -> p_erules st v d w false = Ok EMore -> p_erules st v (d ++ e) w true = Ok dec -> lands_in PE pq prest d e dec.
Proof.
  intros st d e v w dec Hd Hl Hw HM H. destruct (p_lk d Hd) as (v1 & w1 & Hl1 & Hle & _). rewrite Hl in Hl1. injection Hl1 as <- <-.
  unfold p_erules in H, HM. cbv zeta in H, HM. rewrite slice_from_ok in HM by lia. rewrite slice_from_ok in H by (rewrite app_length; lia). cbn [bind] in H, HM. rewrite skipn_app_le in H by exact Hle.
  match type of HM with bind ?x _ = _ => destruct x as [[? ?| |]| |] eqn:EM end; try discriminate. apply p_more in EM. destruct EM as (HT & HN). rewrite is_lor_l in HN. apply orb_false_elim in HN. destruct HN as (_ & HN).
  match type of H with bind ?x _ = _ => destruct x as [de| |] eqn:ED end; try discriminate. destruct (p_in_dec _ _ _ _ _ _ _ e HT de ED) as [(ri' & ->) | [-> | (a & ri' & -> & HA)]]; cbn [bind] in H; injection H as <-; cbn [lands_in].
  - right. split; [exact Hle|]. split; [exact HT|exact HN].
  - exists v, w. auto.
  - left. apply near_shift. exact HA.
Qed.
Lemma p_prompt : prompt 2 splitFunc.
Proof.
  apply (prompt_two _ prest (so_eof _ p_split_ok)).
  - intros d e n Hd HF HT. rewrite <- p_split_engine in HF, HT.
    exact (asked_first PE p_mu p_lk p_short p_rules_ok pq prest (p_i1 prest) p_i2 p_lk p_short p_fuel d e n _ Hd HF HT).
  - intros d e n (v & w & Hl & Hw & HN & HT) Hd H. rewrite <- p_split_engine in H.
    destruct (quiet_first PE p_mu p_lk p_short p_rules_ok pq (fun _ => False) (p_i1 _) p_lk p_fuel d e n (firstn n (d ++ e)) _ _ Hl Hw Hd) with (2 := H) as [HH|(_ & [])]; [|exact HH].
    split; [exact HT|exact HN].
Qed.
End P.

Section G.
Import TableGraphemes Graphemes GraphemesEngine.
Lemma g_short : forall d v, graphemes_lookup d = Ok (v, 0%nat) -> (length d <= 3)%nat.
Proof. intros d v. apply (lookup_short _ _ _ d v g_tables_ok). Qed.
Lemma g_prompt : prompt 1 splitFunc.
Proof.
  apply (prompt_one _ (so_eof _ g_split_ok)). intros d e n Hd HF HT. rewrite <- g_split_engine in HF, HT.
  destruct (asked_first GE g_mu g_lk g_short g_rules_ok (fun _ _ => False) (fun _ => False)) with (fuel := g_fuel) (d := d) (e := e) (n := n) (tok := firstn n (d ++ e)) as [H | (_ & [])]; auto.
  - intros st d' e' v w dec [].
  - intros st d' e' v w dec _ _ _ HM. change (e_rules GE) with g_erules in HM. unfold g_erules in HM. cbv zeta in HM. destruct (g_rules _ _ _ _ _); discriminate.
  - exact g_lk.
  - exact g_short.
Qed.
End G.
