(** How much data sentences must be given before they return a token. *)
From Verif Require Import Base ListFacts Trie LookupFacts TableFacts Engine Lk Seek BitFacts SpecJoiners Append Prompt PromptWords TableSentences SentencesEngine SentencesCut AppendSentences.
From Verif Require Sentences.
Import Sentences.
Local Open Scope N_scope.

Lemma s_short : forall d v, sentences_lookup d = Ok (v, 0%nat) -> (length d <= 3)%nat.
Proof. intros d v. apply (lookup_short _ _ _ d v s_tables_ok). Qed.
(** The scan of SB8 passes over a still text. *)
Lemma rscan_far : forall fuel d e sc, still d -> rscan fuel (d ++ e) true = Ok sc -> sc = ScanEOF \/ sc = ScanMore \/ exists p, sc = ScanAt p /\ near d p.
Proof.
  induction fuel as [|fuel IH]; intros d e sc HS H; [discriminate|]. destruct HS as [|d v Hl|d v w Hl Hw HI HT].
  - destruct sc as [p| |]; auto. right. right. exists p. split; [reflexivity|]. unfold near. cbn. lia.
  - destruct sc as [p| |]; auto. right. right. exists p. split; [reflexivity|]. unfold near. pose proof (s_short _ _ Hl). lia.
  - destruct d as [|c d0]. { destruct sc as [p| |]; auto. right. right. exists p. split; [reflexivity|]. unfold near. cbn. lia. }
    set (d := c :: d0) in *. assert (Hd : d <> []) by discriminate. destruct (s_lk d Hd) as (v1 & w1 & Hl1 & Hle & HL). rewrite Hl in Hl1. injection Hl1 as <- <-.
    cbn [rscan] in H. change (is_nil (d ++ e)) with false in H. cbv iota in H. rewrite (HL Hw e) in H. cbn [bind] in H. rewrite (proj2 (Nat.eqb_neq _ _) Hw), HI in H.
    rewrite slice_from_ok in H by (rewrite app_length; lia). cbn [bind] in H. rewrite skipn_app_le in H by exact Hle.
    destruct (rscan fuel (skipn w d ++ e) true) as [x| |] eqn:Er; try discriminate. cbn [bind] in H. destruct (IH _ _ _ HT Er) as [-> | [-> | (p & -> & HN)]]; injection H as <-; auto.
    right. right. exists (w + p)%nat. split; [reflexivity|]. apply near_shift. exact HN.
Qed.
Lemma s_in_dec : forall d e v last h w dec, still d -> s_rules (d ++ e) true v last h 0 w = Ok dec ->
  dec = SJoin w \/ dec = SBreak 0 \/ (exists k, dec = SBreak (S k)) \/ dec = SMore \/ exists a, dec = SJoin a /\ near d a.
Proof.
  intros d e v last h w dec HS H. unfold s_rules in H.
  do 6 (match type of H with (if ?c then _ else _) = _ => destruct c end; [injection H as <-; auto|]).
  assert (HX : s_rules_tail v h 0 w = SJoin w \/ s_rules_tail v h 0 w = SBreak 0). { destruct (s_rules_tail_total v h w) as (dt & <- & Hc). exact Hc. }
  destruct (is (h_lastExSpClose h) _ATerm). 2:{ injection H as <-. tauto. }
  rewrite scan_rscan in H by lia. cbn [skipn] in H. destruct (rscan (S (length (d ++ e))) (d ++ e) true) as [sc| |] eqn:Es; try discriminate. cbn [bind] in H.
  destruct (rscan_far _ _ _ _ HS Es) as [-> | [-> | (p & -> & HN)]]; cbn [shift_scan Nat.add] in H.
  - injection H as <-. destruct (length (d ++ e)) as [|k]; [auto|right; right; left; eauto].
  - injection H as <-. auto.
  - destruct (slice_from (d ++ e) p) as [x| |]; try discriminate. cbn [bind] in H. destruct (subsequent _Lower x true) as [[r m]| |]; try discriminate. cbn [bind] in H. destruct m.
    + injection H as <-. auto.
    + destruct r as [a|]; injection H as <-; [|tauto]. do 4 right. exists (p + a)%nat. split; [reflexivity|]. apply near_more. exact HN.
Qed.
Lemma s_i1 : forall st d e v w dec, still d -> d <> [] -> sentences_lookup d = Ok (v, w) -> w <> 0%nat -> s_erules st v (d ++ e) w true = Ok dec -> lands_in SE sq still d e dec.
Proof.
  intros st d e v w dec HS Hd Hl Hw H. destruct (s_lk d Hd) as (v1 & w1 & Hl1 & Hle & _). rewrite Hl in Hl1. injection Hl1 as <- <-.
  unfold s_erules in H. cbv zeta in H. destruct (s_rules (d ++ e) true v (ss_current st) _ 0 w) as [x| |] eqn:Er; try discriminate. cbn [bind] in H.
  destruct (s_in_dec _ _ _ _ _ _ _ HS Er) as [-> | [-> | [(k & ->) | [-> | (a & -> & HN)]]]]; injection H as <-; cbn [lands_in].
  - right. split; [exact Hle|]. exact (proj2 (still_step _ _ _ HS Hd Hl Hw)).
  - exact HS.
  - exact I.
  - exact I.
  - left. exact HN.
Qed.
Lemma s_i2 : forall st d e v w dec, d <> [] -> sentences_lookup d = Ok (v, w) -> w <> 0%nat -> s_erules st v d w false = Ok EMore -> s_erules st v (d ++ e) w true = Ok dec -> lands_in SE sq still d e dec.
Proof.
  intros st d e v w dec Hd Hl Hw HM H. apply (s_i1 st d e v w dec); auto. unfold s_erules in HM. cbv zeta in HM.
  destruct (s_rules d false v (ss_current st) _ 0 w) as [[p|[|p]|]| |] eqn:Er; try discriminate. exact (s_more _ _ _ _ _ Er).
Qed.
Lemma s_calm_in : forall st d e v w dec, sq' st d -> d <> [] -> sentences_lookup d = Ok (v, w) -> w <> 0%nat -> s_erules st v (d ++ e) w true = Ok dec -> lands_in SE sq' (fun _ => False) d e dec.
Proof.
  intros st d e v w dec (HS & HC & HM) Hd Hl Hw H. destruct (still_step _ _ _ HS Hd Hl Hw) as (Hv & HS'). destruct (stop_parts _ HC) as (HP & HT).
  destruct (s_lk d Hd) as (v1 & w1 & Hl1 & Hle & _). rewrite Hl in Hl1. injection Hl1 as <- <-.
  pose proof (mild_update _ _ HT HM) as HM'. unfold s_erules in H. cbv zeta in H. destruct HM' as (M1 & M2 & M3 & M4 & M5).
  assert (HR : s_rules (d ++ e) true v (ss_current st) (s_update (ss_current st) (ss_hist st)) 0 w = Ok (SJoin w)).
  { unfold s_rules. rewrite HP. assert (is (h_lastExSpClose (s_update (ss_current st) (ss_hist st))) _ATerm = false) as ->. { unfold _SATerm in M4. rewrite is_lor_r in M4. apply orb_false_elim in M4. apply M4. }
    unfold s_rules_tail. rewrite M1, M3, M4, M5, !andb_false_r. cbn [orb].
    repeat match goal with |- (if ?c then _ else _) = _ => destruct c; [reflexivity|] end. reflexivity. }
  rewrite HR in H. cbn [bind] in H. injection H as <-. cbn [lands_in]. right. split; [exact Hle|]. split; [exact HS'|]. split; [exact Hv|]. cbn [ss_hist]. unfold mild. auto.
Qed.
Lemma s_prompt : prompt 2 splitFunc.
Proof.
  apply (prompt_two _ still (so_eof _ s_split_ok)).
  - intros d e n Hd HF HT. rewrite <- s_split_engine in HF, HT.
    exact (asked_first SE s_mu s_lk s_short s_rules_ok sq still s_i1 s_i2 s_lk s_short s_fuel d e n _ Hd HF HT).
  - intros d e n HS Hd H. rewrite <- s_split_engine in H. destruct (s_lk d Hd) as (v & w & Hl & Hle & _).
    destruct (Nat.eq_dec w 0) as [->|Hw]. { unfold near. pose proof (s_short _ _ Hl). lia. }
    destruct (still_step _ _ _ HS Hd Hl Hw) as (Hv & HS').
    destruct (quiet_first SE s_mu s_lk s_short s_rules_ok sq' (fun _ => False) s_calm_in s_lk s_fuel d e n (firstn n (d ++ e)) _ _ Hl Hw Hd) with (2 := H) as [HH|(_ & [])]; [|exact HH].
    split; [exact HS'|]. split; [exact Hv|]. repeat split.
Qed.
