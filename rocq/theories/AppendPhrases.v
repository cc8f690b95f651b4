(** Appending text: phrases (as words) and graphemes (which never ask for more once a character is complete). *)
From Verif Require Import Base ListFacts Trie LookupFacts TableFacts Engine Lk Seek BitFacts SpecJoiners Append.
From Verif Require TablePhrases Phrases PhrasesEngine Graphemes GraphemesEngine.
From Verif Require Import AppendWords.
Local Open Scope N_scope.

Section P.
Import TablePhrases Phrases PhrasesEngine.
Definition p_nl : N := N.lor _Newline (N.lor _CR _LF).
Lemma p_lookup_in : forall d v w, phrases_lookup d = Ok (v, w) -> In v pV.
Proof.
  intros d v w H. destruct d as [|c0 s]; [discriminate|].
  destruct (lookup_spec _ _ _ p_tables_ok c0 s) as (v' & w' & Hl & HV & _). unfold phrases_lookup in H. rewrite H in Hl. injection Hl as <- <-. exact HV.
Qed.
Lemma p_ign_nl : forall v, In v pV -> is v _Ignore = true -> is v p_nl = false.
Proof.
  intros v Hv H. assert (Hall : forallb (fun v => negb (is v _Ignore) || negb (is v p_nl)) pV = true) by (vm_compute; reflexivity).
  rewrite forallb_forall in Hall. specialize (Hall v Hv). rewrite H in Hall. destruct (is v p_nl); [discriminate|reflexivity].
Qed.
Notation tr := (trail phrases_lookup _Ignore).
Lemma p_la_more : forall c p after w ri n, lookahead c p after false w ri n = Ok PMore -> tr after \/ n = Ok PMore.
Proof.
  intros c p after w ri n H. unfold lookahead in H. destruct c; [|auto]. rewrite subsequent_gsub, gsubsequent_rsub in H by exact p_lk.
  destruct (rsub _ _ _ _ after false) as [[r m]| |] eqn:Er; try discriminate. cbn [bind] in H. destruct m.
  - left. exact (rsub_trail _ _ p_lk _ _ _ _ Er).
  - destruct r; [discriminate|auto].
Qed.
Lemma p_la_trail : forall c p after w ri n, tr after -> lookahead c p after true w ri n = n.
Proof.
  intros c p after w ri n H. unfold lookahead. destruct c; [|reflexivity]. rewrite subsequent_gsub, gsubsequent_rsub by exact p_lk.
  rewrite (trail_rsub _ _ p_lk) by (auto; lia). reflexivity.
Qed.
Lemma p_more : forall current last lx llx ri w after, p_rules current last lx llx ri w after false = Ok PMore ->
  tr after /\ is (N.lor last current) p_nl = false.
Proof.
  intros current last lx llx ri w after H. unfold p_rules in H. fold p_nl in H.
  do 2 (match type of H with (if ?c then _ else _) = _ => destruct c end; [discriminate|]).
  destruct (is (N.lor last current) p_nl); [discriminate|]. split; [|reflexivity]. revert H.
  repeat (match goal with |- (if ?c then _ else _) = _ -> _ => destruct c; try discriminate | |- lookahead _ _ _ _ _ _ _ = _ -> _ => intros H; apply p_la_more in H; destruct H as [H|H]; [exact H|revert H] end).
Qed.
Lemma p_trail_dec : forall current last lx llx ri w after dec, tr after -> p_rules current last lx llx ri w after true = Ok dec ->
  (exists ri', dec = PJoin w ri') \/ dec = PBreak.
Proof.
  intros current last lx llx ri w after dec HT. unfold p_rules.
  repeat (rewrite (p_la_trail _ _ _ _ _ _ HT) || match goal with |- (if ?c then _ else _) = _ -> _ => destruct c end); intros H; injection H as <-; eauto.
Qed.
Definition pq (st : pst) (d : bytes) : Prop := tr d /\ is (ps_current st) p_nl = false.
Lemma pq_step : forall st d v w dec, pq st d -> d <> [] -> phrases_lookup d = Ok (v, w) -> w <> 0%nat -> p_erules st v d w true = Ok dec ->
  exists st', dec = EJoin w st' /\ pq st' (skipn w d).
Proof.
  intros st d v w dec (HT & HN) Hd Hl Hw H.
  destruct (trail_step _ _ _ _ _ HT Hd Hl Hw) as (HI & HT'). destruct (p_lk d Hd) as (v1 & w1 & Hl1 & Hle & _). rewrite Hl in Hl1. injection Hl1 as <- <-.
  unfold p_erules in H. cbv zeta in H. rewrite slice_from_ok in H by lia. cbn [bind] in H.
  assert (HR : exists ri', p_rules v (ps_current st) (if negb (is (ps_current st) _Ignore) then ps_current st else ps_lastEx st)
    (if negb (is (ps_current st) _Ignore) then ps_lastEx st else ps_lastLastEx st) (ps_ri st) w (skipn w d) true = Ok (PJoin w ri')).
  { unfold p_rules. fold p_nl. fold _Ignore. rewrite is_lor_l, HN, (p_ign_nl v (p_lookup_in _ _ _ Hl) HI), HI. cbn [orb].
    assert (N.lor v (ps_current st) =? 0 = false) as ->. { apply N.eqb_neq. intros E. apply N.lor_eq_0_l in E. subst v. vm_compute in HI. discriminate. }
    repeat match goal with |- exists r, (if ?c then _ else _) = _ => destruct c; [eexists; reflexivity|] end. eexists; reflexivity. }
  destruct HR as (ri' & HR). rewrite HR in H. cbn [bind] in H. injection H as <-. eexists. split; [reflexivity|]. split; [exact HT'|]. cbn [ps_current].
  exact (p_ign_nl v (p_lookup_in _ _ _ Hl) HI).
Qed.
Definition prest (d : bytes) : Prop := exists v w, phrases_lookup d = Ok (v, w) /\ w <> 0%nat /\ is v p_nl = false /\ tr (skipn w d).
Lemma p_h1 : forall st d v w dec, pq st d -> d <> [] -> phrases_lookup d = Ok (v, w) -> w <> 0%nat -> p_erules st v d w true = Ok dec -> lands PE pq prest d dec.
Proof. intros st d v w dec HS Hd Hl Hw H. destruct (pq_step st d v w dec HS Hd Hl Hw H) as (st' & -> & HS'). exact HS'. Qed.
Lemma p_h2 : forall st d v w dec, d <> [] -> phrases_lookup d = Ok (v, w) -> w <> 0%nat -> p_erules st v d w false = Ok EMore -> p_erules st v d w true = Ok dec -> lands PE pq prest d dec.
Proof.
  intros st d v w dec Hd Hl Hw HM H. destruct (p_lk d Hd) as (v1 & w1 & Hl1 & Hle & _). rewrite Hl in Hl1. injection Hl1 as <- <-.
  unfold p_erules in H, HM. cbv zeta in H, HM. rewrite slice_from_ok in H, HM by lia. cbn [bind] in H, HM.
  match type of HM with bind ?x _ = _ => destruct x as [[? ?| |]| |] eqn:EM end; try discriminate. apply p_more in EM. destruct EM as (HT & HN). rewrite is_lor_l in HN. apply orb_false_elim in HN. destruct HN as (_ & HN).
  match type of H with bind ?x _ = _ => destruct x as [de| |] eqn:ED end; try discriminate. destruct (p_trail_dec _ _ _ _ _ _ _ _ HT ED) as [(ri' & ->) | ->]; cbn [bind] in H; injection H as <-; cbn [lands].
  - split; [exact HT|exact HN].
  - exists v, w. auto.
Qed.
Lemma prest_whole : forall d, prest d -> splitFunc d true = Ok (e_done (length d) d).
Proof.
  intros d (v & w & Hl & Hw & HN & HT). assert (Hd : d <> []) by (intros ->; discriminate).
  destruct (so_eof _ p_split_ok d Hd) as (n & Hn & Hs). rewrite Hs. rewrite <- p_split_engine in Hs. unfold esplit in Hs. rewrite (is_nil_false d Hd) in Hs.
  change (e_lk0 PE) with phrases_lookup in Hs. destruct (p_lk d Hd) as (v1 & w1 & Hl1 & Hle & _). rewrite Hl in Hl1. injection Hl1 as <- <-.
  rewrite Hl in Hs. cbn [bind] in Hs.
  rewrite (proj2 (Nat.eqb_neq _ _) Hw) in Hs. rewrite slice_from_ok in Hs by lia. cbn [bind] in Hs.
  destruct (eloop PE (p_fuel d) (skipn w d) true (e_init PE v)) as [[m|]| |] eqn:Er; try discriminate.
  cbn [bind] in Hs. destruct (slice_to d (w + m)) as [tk| |]; try discriminate. cbn [bind] in Hs. unfold e_done in Hs. injection Hs as Hs _. assert (n = (w + m)%nat) as -> by lia.
  destruct (quiet_run PE p_mu p_lk p_rules_ok pq (fun _ => False)) with (fuel := p_fuel d) (d := skipn w d) (st := e_init PE v) (n := m) as [-> | (_ & [])].
  - intros st d' v' w' dec HS Hd' Hl' Hw' H. destruct (pq_step st d' v' w' dec HS Hd' Hl' Hw' H) as (st' & -> & HS'). exact HS'.
  - split; [exact HT|exact HN].
  - exact Er.
  - rewrite skipn_length. replace (w + (length d - w))%nat with (length d) by lia. rewrite firstn_all. reflexivity.
Qed.
Lemma p_cut_kept : cut_kept splitFunc 2.
Proof.
  apply split_kept; [exact p_split_ok|lia|]. intros d n Hn HF HT. assert (Hd : d <> []) by (intros ->; simpl in Hn; lia). rewrite <- p_split_engine in HF, HT.
  destruct (asked_split PE p_mu p_lk p_rules_ok pq prest p_h1 p_h2 p_lk p_fuel d n _ Hd HF HT) as [-> | (_ & HW)]; [auto|].
  right. intros l H. inversion H as [|d0 m l0 Hf Hm Ht]; subst; [simpl; lia|]. rewrite (prest_whole _ HW) in Hf. unfold e_done in Hf. injection Hf as Hf _. assert (m = length (skipn n d)) as -> by lia.
  rewrite skipn_all in Ht. inversion Ht; subst; simpl in *; lia.
Qed.
End P.

Section G.
Import Graphemes GraphemesEngine.
Lemma g_cut_kept : cut_kept splitFunc 1.
Proof.
  apply split_kept; [exact g_split_ok|lia|]. intros d n Hn HF HT. assert (Hd : d <> []) by (intros ->; simpl in Hn; lia). rewrite <- g_split_engine in HF, HT.
  destruct (asked_split GE g_mu g_lk g_rules_ok (fun _ _ => False) (fun _ => False)) with (fuel := g_fuel) (d := d) (n := n) (tok := firstn n d) as [-> | (_ & [])]; auto.
  - intros st d' v w dec [].
  - intros st d' v w dec _ _ _ HM. change (e_rules GE) with g_erules in HM. unfold g_erules in HM. cbv zeta in HM. destruct (g_rules _ _ _ _ _); discriminate.
  - exact g_lk.
Qed.
End G.
