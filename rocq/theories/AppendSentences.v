(** Appending text: sentences.  Only SB8 asks for more data, and then no letter, terminator or separator follows. *)
From Verif Require Import Base ListFacts Trie LookupFacts TableFacts Engine Lk Seek BitFacts SpecJoiners Append TableSentences SentencesEngine SentencesCut.
From Verif Require Sentences.
Import Sentences.
Local Open Scope N_scope.

Inductive still : bytes -> Prop :=
| st_nil : still []
| st_cut : forall d v, sentences_lookup d = Ok (v, 0%nat) -> still d
| st_cons : forall d v w, sentences_lookup d = Ok (v, w) -> w <> 0%nat -> is v stopProps = false -> still (skipn w d) -> still d.

Lemma rscan_still : forall fuel d sc, rscan fuel d false = Ok sc -> sc = ScanMore \/ sc = ScanAt (length d) -> still d.
Proof.
  induction fuel as [|fuel IH]; intros d sc H Hc; [discriminate|].
  destruct d as [|c d0]; [constructor|]. set (d := c :: d0) in *. assert (Hd : d <> []) by discriminate. assert (Hlen : (0 < length d)%nat) by (simpl; lia).
  cbn [rscan] in H. change (is_nil d) with false in H. cbv iota in H.
  destruct (s_lk d Hd) as (v & w & Hl & Hw & _). rewrite Hl in H. cbn [bind] in H.
  destruct (Nat.eqb w 0) eqn:E0. { apply Nat.eqb_eq in E0. subst w. exact (st_cut _ _ Hl). }
  apply Nat.eqb_neq in E0. destruct (is v stopProps) eqn:ES.
  { injection H as <-. destruct Hc as [Hc|Hc]; [discriminate|]. assert (HE : 0%nat = length d) by congruence. lia. }
  rewrite slice_from_ok in H by lia. cbn [bind] in H. destruct (rscan fuel (skipn w d) false) as [x| |] eqn:Er; try discriminate. cbn [bind] in H.
  apply (st_cons _ _ _ Hl E0 ES). apply (IH _ _ Er). destruct x as [p| |]; injection H as <-.
  - right. destruct Hc as [Hc|Hc]; [discriminate|]. assert (HE : (w + p)%nat = length d) by congruence. rewrite skipn_length. f_equal. lia.
  - destruct Hc; discriminate.
  - auto.
Qed.
Lemma still_rscan : forall fuel d, (length d < fuel)%nat -> still d -> rscan fuel d true = Ok (ScanAt (length d)) \/ rscan fuel d true = Ok ScanEOF.
Proof.
  induction fuel as [|fuel IH]; intros d Hf H; [lia|].
  destruct d as [|c d0]; [left; reflexivity|]. set (d := c :: d0) in *. assert (Hd : d <> []) by discriminate.
  cbn [rscan]. change (is_nil d) with false. cbv iota. destruct (s_lk d Hd) as (v & w & Hl & Hw & _). rewrite Hl. cbn [bind].
  inversion H as [|d1 v1 Hl1|d1 v1 w1 Hl1 Hw1 HI HT]; subst.
  - rewrite Hl in Hl1. injection Hl1 as <- ->. right. reflexivity.
  - rewrite Hl in Hl1. injection Hl1 as <- <-. rewrite (proj2 (Nat.eqb_neq _ _) Hw1), HI. rewrite slice_from_ok by lia. cbn [bind].
    destruct (IH (skipn w d)) as [-> | ->]; [rewrite skipn_length; lia|exact HT| |]; cbn [bind]; [left|right; reflexivity]. rewrite skipn_length. do 2 f_equal. lia.
Qed.
Lemma still_step : forall d v w, still d -> d <> [] -> sentences_lookup d = Ok (v, w) -> w <> 0%nat -> is v stopProps = false /\ still (skipn w d).
Proof.
  intros d v w H Hd Hl Hw. inversion H as [|d1 v1 Hl1|d1 v1 w1 Hl1 Hw1 HI HT]; subst; [congruence| |].
  - rewrite Hl in Hl1. injection Hl1 as _ ->. congruence.
  - rewrite Hl in Hl1. injection Hl1 as <- <-. auto.
Qed.
Lemma stop_kept : forall v, In v sV -> is v stopProps = true -> is v _Ignore = false.
Proof.
  intros v Hv H. assert (Hall : forallb (fun v => negb (is v stopProps) || negb (is v _Ignore)) sV = true) by (vm_compute; reflexivity).
  rewrite forallb_forall in Hall. specialize (Hall v Hv). rewrite H in Hall. destruct (is v _Ignore); [discriminate|reflexivity].
Qed.
Lemma s_more : forall d v last h w, s_rules d false v last h 0 w = Ok SMore -> still d.
Proof.
  intros d v last h w H. unfold s_rules in H.
  do 6 (match type of H with (if ?c then _ else _) = _ => destruct c end; [discriminate|]).
  assert (HT : s_rules_tail v h 0 w <> SMore). { unfold s_rules_tail. repeat match goal with |- context [if ?c then _ else _] => destruct c end; discriminate. }
  destruct (is (h_lastExSpClose h) _ATerm); [|congruence].
  rewrite scan_rscan in H by lia. cbn [skipn] in H.
  destruct (rscan_total (S (length d)) d false ltac:(lia)) as (sc & Hs & H1 & H2 & _). rewrite Hs in H. cbn [bind] in H.
  destruct sc as [p| |]; cbn [shift_scan Nat.add] in H.
  2:{ destruct (H2 eq_refl); discriminate. }
  2:{ exact (rscan_still _ _ _ Hs (or_introl eq_refl)). }
  specialize (H1 _ eq_refl). destruct (Nat.eq_dec p (length d)) as [->|Hp]. { exact (rscan_still _ _ _ Hs (or_intror eq_refl)). }
  exfalso. destruct (rscan_at _ _ _ _ Hs ltac:(lia)) as (v1 & w1 & Hl1 & Hw1 & HS1).
  rewrite slice_from_ok in H by lia. cbn [bind] in H. rewrite subsequent_gsub, gsubsequent_rsub in H by exact s_lk. cbn [rsub] in H.
  rewrite (is_nil_false (skipn p d)) in H by (apply skipn_nonnil; lia). rewrite Hl1 in H. cbn [bind] in H. rewrite (proj2 (Nat.eqb_neq _ _) Hw1) in H.
  rewrite (stop_kept v1 (s_lookup_in _ _ _ Hl1) HS1) in H. destruct (is v1 _Lower); cbn [bind] in H; [discriminate|congruence].
Qed.
Lemma s_still_dec : forall d v last h w dec, still d -> s_rules d true v last h 0 w = Ok dec -> dec = SJoin w \/ dec = SBreak 0 \/ dec = SBreak (length d).
Proof.
  intros d v last h w dec HT H. unfold s_rules in H.
  do 6 (match type of H with (if ?c then _ else _) = _ => destruct c end; [injection H as <-; auto|]).
  assert (HX : s_rules_tail v h 0 w = SJoin w \/ s_rules_tail v h 0 w = SBreak 0). { destruct (s_rules_tail_total v h w) as (dt & <- & Hc). exact Hc. }
  destruct (is (h_lastExSpClose h) _ATerm). 2:{ injection H as <-. tauto. }
  rewrite scan_rscan in H by lia. cbn [skipn] in H. destruct (still_rscan (S (length d)) d ltac:(lia) HT) as [Hs|Hs]; rewrite Hs in H; cbn [bind shift_scan Nat.add] in H.
  - rewrite slice_from_ok in H by lia. rewrite skipn_all in H. cbn [bind] in H. change (subsequent _Lower [] true) with (Ok (@None nat, false)) in H. cbn [bind] in H. injection H as <-. tauto.
  - injection H as <-. auto.
Qed.

Definition sq (st : sst) (d : bytes) : Prop := still d.
Lemma still_lands : forall st d v w dec, still d -> d <> [] -> sentences_lookup d = Ok (v, w) -> w <> 0%nat -> s_erules st v d w true = Ok dec -> lands SE sq still d dec.
Proof.
  intros st d v w dec HS Hd Hl Hw H. unfold s_erules in H. cbv zeta in H. destruct (s_rules d true v (ss_current st) _ 0 w) as [x| |] eqn:Er; try discriminate. cbn [bind] in H.
  destruct (s_still_dec _ _ _ _ _ _ HS Er) as [-> | [-> | ->]].
  - injection H as <-. cbn [lands]. exact (proj2 (still_step _ _ _ HS Hd Hl Hw)).
  - injection H as <-. exact HS.
  - destruct (length d); injection H as <-; [exact HS|exact I].
Qed.
Lemma s_h2 : forall st d v w dec, d <> [] -> sentences_lookup d = Ok (v, w) -> w <> 0%nat -> s_erules st v d w false = Ok EMore -> s_erules st v d w true = Ok dec -> lands SE sq still d dec.
Proof.
  intros st d v w dec Hd Hl Hw HM H. apply (still_lands st d v w dec); auto. unfold s_erules in HM. cbv zeta in HM.
  destruct (s_rules d false v (ss_current st) _ 0 w) as [[p|[|p]|]| |] eqn:Er; try discriminate. exact (s_more _ _ _ _ _ Er).
Qed.

(** In such a rest no sentence ends. *)
Definition mild (h : shist) : Prop := is (h_lastEx h) _SATerm = false /\ is (h_lastExSp h) _SATerm = false /\ is (h_lastExClose h) _SATerm = false
  /\ is (h_lastExSpClose h) _SATerm = false /\ is (h_lastExParaSepSpClose h) _SATerm = false.
Lemma mild_update : forall last h, is last _SATerm = false -> mild h -> mild (s_update last h).
Proof.
  intros last h HL (M1 & M2 & M3 & M4 & M5). unfold s_update, mild. cbv zeta. cbn [h_lastEx h_lastExSp h_lastExClose h_lastExSpClose h_lastExParaSepSpClose].
  repeat match goal with |- context [if ?c then _ else _] => destruct c end; auto.
Qed.
Lemma stop_parts : forall v, is v stopProps = false -> is v _ParaSep = false /\ is v _SATerm = false.
Proof. intros v H. unfold stopProps in H. rewrite !is_lor_r in H. repeat (apply orb_false_elim in H; destruct H as (? & H)). split; [|unfold _SATerm; rewrite is_lor_r; auto using orb_false_intro].
  - assumption.
  - match goal with |- is v _STerm || is v _ATerm = false => rewrite <- is_lor_r; assumption end.
Qed.
Definition sq' (st : sst) (d : bytes) : Prop := still d /\ is (ss_current st) stopProps = false /\ mild (ss_hist st).
Lemma s_calm : forall st d v w dec, sq' st d -> d <> [] -> sentences_lookup d = Ok (v, w) -> w <> 0%nat -> s_erules st v d w true = Ok dec -> lands SE sq' (fun _ => False) d dec.
Proof.
  intros st d v w dec (HS & HC & HM) Hd Hl Hw H. destruct (still_step _ _ _ HS Hd Hl Hw) as (Hv & HS'). destruct (stop_parts _ HC) as (HP & HT).
  pose proof (mild_update _ _ HT HM) as HM'. unfold s_erules in H. cbv zeta in H. destruct HM' as (M1 & M2 & M3 & M4 & M5).
  assert (HR : s_rules d true v (ss_current st) (s_update (ss_current st) (ss_hist st)) 0 w = Ok (SJoin w)).
  { unfold s_rules. rewrite HP. assert (is (h_lastExSpClose (s_update (ss_current st) (ss_hist st))) _ATerm = false) as ->. { unfold _SATerm in M4. rewrite is_lor_r in M4. apply orb_false_elim in M4. apply M4. }
    unfold s_rules_tail. rewrite M1, M3, M4, M5, !andb_false_r. cbn [orb].
    repeat match goal with |- (if ?c then _ else _) = _ => destruct c; [reflexivity|] end. reflexivity. }
  rewrite HR in H. cbn [bind] in H. injection H as <-. cbn [lands]. split; [exact HS'|]. split; [exact Hv|]. cbn [ss_hist]. unfold mild. auto.
Qed.
Lemma still_whole : forall d, d <> [] -> still d -> splitFunc d true = Ok (e_done (length d) d).
Proof.
  intros d Hd HS. destruct (so_eof _ s_split_ok d Hd) as (n & Hn & Hs). rewrite Hs. rewrite <- s_split_engine in Hs. unfold esplit in Hs. rewrite (is_nil_false d Hd) in Hs.
  change (e_lk0 SE) with sentences_lookup in Hs. destruct (s_lk d Hd) as (v & w & Hl & Hle & _). rewrite Hl in Hs. cbn [bind] in Hs.
  destruct (Nat.eqb w 0) eqn:E0. { unfold e_done in Hs. injection Hs as Hs _. assert (n = length d) as -> by lia. rewrite firstn_all. reflexivity. }
  apply Nat.eqb_neq in E0. rewrite slice_from_ok in Hs by lia. cbn [bind] in Hs.
  destruct (eloop SE (s_fuel d) (skipn w d) true (e_init SE v)) as [[m|]| |] eqn:Er; try discriminate.
  cbn [bind] in Hs. destruct (slice_to d (w + m)) as [tk| |]; try discriminate. cbn [bind] in Hs. unfold e_done in Hs. injection Hs as Hs _. assert (n = (w + m)%nat) as -> by lia.
  destruct (still_step _ _ _ HS Hd Hl E0) as (Hv & HS').
  destruct (quiet_run SE s_mu s_lk s_rules_ok sq' (fun _ => False) s_calm (s_fuel d) (skipn w d) (e_init SE v) m) as [-> | (_ & [])].
  - split; [exact HS'|]. split; [exact Hv|]. repeat split.
  - exact Er.
  - rewrite skipn_length. replace (w + (length d - w))%nat with (length d) by lia. rewrite firstn_all. reflexivity.
Qed.
Lemma s_cut_kept : cut_kept splitFunc 2.
Proof.
  apply split_kept; [exact s_split_ok|lia|]. intros d n Hn HF HT. assert (Hd : d <> []) by (intros ->; simpl in Hn; lia). rewrite <- s_split_engine in HF, HT.
  destruct (asked_split SE s_mu s_lk s_rules_ok sq still still_lands s_h2 s_lk s_fuel d n _ Hd HF HT) as [-> | (_ & HW)]; [auto|].
  right. intros l H. inversion H as [|d0 m l0 Hf Hm Ht]; subst; [simpl; lia|].
  assert (HN : skipn n d <> []) by (intros E; rewrite E in Hm; simpl in Hm; lia).
  rewrite (still_whole _ HN HW) in Hf. unfold e_done in Hf. injection Hf as Hf _. assert (m = length (skipn n d)) as -> by lia.
  rewrite skipn_all in Ht. inversion Ht; subst; simpl in *; lia.
Qed.
