(** Appending text: words and phrases.  Only the lookahead asks for more data, and then everything after the current
    character is ignorable. *)
From Verif Require Import Base ListFacts Trie LookupFacts TableFacts Engine Lk Seek BitFacts SpecJoiners Append WordsIter.
From Verif Require TableWords TablePhrases Words WordsEngine Phrases PhrasesEngine JoinersBounds.
Local Open Scope N_scope.

(** Ignorable characters up to the end, where the last may be cut short. *)
Section Trail.
  Variable lk : bytes -> res (N * nat).
  Variable ign : N.
  Inductive trail : bytes -> Prop :=
  | tr_nil : trail []
  | tr_cut : forall d v, lk d = Ok (v, 0%nat) -> trail d
  | tr_cons : forall d v w, lk d = Ok (v, w) -> w <> 0%nat -> is v ign = true -> trail (skipn w d) -> trail d.
  Hypothesis LK : lk_ok lk.
  Lemma rsub_trail : forall props fuel d r, rsub lk ign props fuel d false = Ok (r, true) -> trail d.
  Proof.
    intros props. induction fuel as [|fuel IH]; intros d r H; [discriminate|].
    destruct d as [|c d0]; [constructor|]. set (d := c :: d0) in *. assert (Hd : d <> []) by discriminate.
    cbn [rsub] in H. change (is_nil d) with false in H. cbv iota in H.
    destruct (LK d Hd) as (v & w & Hl & Hw & _). rewrite Hl in H. cbn [bind] in H.
    destruct (Nat.eqb w 0) eqn:E0. { apply Nat.eqb_eq in E0. subst w. exact (tr_cut _ _ Hl). }
    apply Nat.eqb_neq in E0. destruct (is v ign) eqn:EI.
    - rewrite slice_from_ok in H by lia. cbn [bind] in H. destruct (rsub lk ign props fuel (skipn w d) false) as [[r' m]| |] eqn:Er; try discriminate.
      cbn [bind] in H. injection H as _ ->. exact (tr_cons _ _ _ Hl E0 EI (IH _ _ Er)).
    - destruct (is v props); discriminate.
  Qed.
  Lemma trail_rsub : forall props fuel d, (length d < fuel)%nat -> trail d -> rsub lk ign props fuel d true = Ok (None, false).
  Proof.
    intros props. induction fuel as [|fuel IH]; intros d Hf H; [lia|].
    destruct d as [|c d0]; [reflexivity|]. set (d := c :: d0) in *. assert (Hd : d <> []) by discriminate.
    cbn [rsub]. change (is_nil d) with false. cbv iota. destruct (LK d Hd) as (v & w & Hl & Hw & _). rewrite Hl. cbn [bind].
    inversion H as [|d1 v1 Hl1|d1 v1 w1 Hl1 Hw1 HI HT]; subst.
    - rewrite Hl in Hl1. injection Hl1 as <- ->. reflexivity.
    - rewrite Hl in Hl1. injection Hl1 as <- <-. rewrite (proj2 (Nat.eqb_neq _ _) Hw1), HI. rewrite slice_from_ok by lia. cbn [bind].
      rewrite IH; [reflexivity| |exact HT]. rewrite skipn_length. lia.
  Qed.
  Lemma trail_step : forall d v w, trail d -> d <> [] -> lk d = Ok (v, w) -> w <> 0%nat -> is v ign = true /\ trail (skipn w d).
  Proof.
    intros d v w H Hd Hl Hw. inversion H as [|d1 v1 Hl1|d1 v1 w1 Hl1 Hw1 HI HT]; subst; [congruence| |].
    - rewrite Hl in Hl1. injection Hl1 as _ ->. congruence.
    - rewrite Hl in Hl1. injection Hl1 as <- <-. auto.
  Qed.
End Trail.

Section W.
Import TableWords Words WordsEngine.
Definition w_nl : N := N.lor _Newline (N.lor _CR _LF).
Lemma w_lookup_in : forall d v w, words_lookup d = Ok (v, w) -> In v wV.
Proof.
  intros d v w H. destruct d as [|c0 s]; [discriminate|].
  destruct (lookup_spec _ _ _ w_tables_ok c0 s) as (v' & w' & Hl & HV & _). unfold words_lookup in H. rewrite H in Hl. injection Hl as <- <-. exact HV.
Qed.
Lemma w_ign_nl : forall v, In v wV -> is v _Ignore = true -> is v w_nl = false.
Proof.
  intros v Hv H. assert (Hall : forallb (fun v => negb (is v _Ignore) || negb (is v w_nl)) wV = true) by (vm_compute; reflexivity).
  rewrite forallb_forall in Hall. specialize (Hall v Hv). rewrite H in Hall. destruct (is v w_nl); [discriminate|reflexivity].
Qed.
Lemma mid_nl : forall j d v, is (middleBits j d v) w_nl = is v w_nl.
Proof. intros j d v. unfold middleBits. destruct j as [jj|]; [|reflexivity]. destruct (runesContain _ _); [|reflexivity]. rewrite is_lor_l. change (is _MidNumLet w_nl) with false. apply orb_false_r. Qed.
Lemma lead_nl : forall j d v, is (leadingBits j d v) w_nl = is v w_nl.
Proof. intros j d v. unfold leadingBits. destruct j as [jj|]; [|reflexivity]. destruct (runesContain _ _); [|reflexivity]. rewrite is_lor_l. change (is _AHLetter w_nl) with false. apply orb_false_r. Qed.
Lemma mid_ign : forall j d v, is v _Ignore = true -> is (middleBits j d v) _Ignore = true.
Proof. intros j d v H. unfold middleBits. destruct j as [jj|]; [|exact H]. destruct (runesContain _ _); [|exact H]. rewrite is_lor_l, H. reflexivity. Qed.

Notation tr := (trail words_lookup _Ignore).
Lemma w_la_more : forall c p after w ri n, lookahead c p after false w ri n = Ok WMore -> tr after \/ n = Ok WMore.
Proof.
  intros c p after w ri n H. unfold lookahead in H. destruct c; [|auto]. rewrite subsequent_gsub, gsubsequent_rsub in H by exact w_lk.
  destruct (rsub _ _ _ _ after false) as [[r m]| |] eqn:Er; try discriminate. cbn [bind] in H. destruct m.
  - left. exact (rsub_trail _ _ w_lk _ _ _ _ Er).
  - destruct r; [discriminate|auto].
Qed.
Lemma w_la_trail : forall c p after w ri n, tr after -> lookahead c p after true w ri n = n.
Proof.
  intros c p after w ri n H. unfold lookahead. destruct c; [|reflexivity]. rewrite subsequent_gsub, gsubsequent_rsub by exact w_lk.
  rewrite (trail_rsub _ _ w_lk) by (auto; lia). reflexivity.
Qed.
Lemma w_more : forall current last lx llx ri w after, w_rules current last lx llx ri w after false = Ok WMore ->
  tr after /\ is (N.lor last current) w_nl = false.
Proof.
  intros current last lx llx ri w after H. unfold w_rules in H. fold w_nl in H.
  do 3 (match type of H with (if ?c then _ else _) = _ => destruct c end; [discriminate|]).
  destruct (is (N.lor last current) w_nl); [discriminate|]. split; [|reflexivity]. revert H.
  repeat (match goal with |- (if ?c then _ else _) = _ -> _ => destruct c; try discriminate | |- lookahead _ _ _ _ _ _ _ = _ -> _ => intros H; apply w_la_more in H; destruct H as [H|H]; [exact H|revert H] end).
Qed.
Lemma w_trail_dec : forall current last lx llx ri w after dec, tr after -> w_rules current last lx llx ri w after true = Ok dec ->
  (exists ri', dec = WJoin w ri') \/ dec = WBreak.
Proof.
  intros current last lx llx ri w after dec HT. unfold w_rules.
  repeat (rewrite (w_la_trail _ _ _ _ _ _ HT) || match goal with |- (if ?c then _ else _) = _ -> _ => destruct c end); intros H; injection H as <-; eauto.
Qed.

Definition wq (st : wst) (d : bytes) : Prop := tr d /\ is (ws_current st) w_nl = false.
Lemma lkM_raw : forall j d v w, lkM j d = Ok (v, w) -> w <> 0%nat -> exists v0, words_lookup d = Ok (v0, w) /\ v = middleBits j d v0.
Proof. intros j d v w H Hw. unfold lkM in H. destruct (words_lookup d) as [[v0 w0]| |]; try discriminate. cbn [bind] in H. injection H as H <-. rewrite (proj2 (Nat.eqb_neq _ _) Hw) in H. eauto. Qed.
Lemma lkL_raw : forall j d v w, lkL j d = Ok (v, w) -> w <> 0%nat -> exists v0, words_lookup d = Ok (v0, w) /\ v = leadingBits j d v0.
Proof. intros j d v w H Hw. unfold lkL in H. destruct (words_lookup d) as [[v0 w0]| |]; try discriminate. cbn [bind] in H. injection H as H <-. rewrite (proj2 (Nat.eqb_neq _ _) Hw) in H. eauto. Qed.
Lemma wq_step : forall j st d v w dec, wq st d -> d <> [] -> lkM j d = Ok (v, w) -> w <> 0%nat -> w_erules st v d w true = Ok dec ->
  exists st', dec = EJoin w st' /\ wq st' (skipn w d).
Proof.
  intros j st d v w dec (HT & HN) Hd Hl Hw H. destruct (lkM_raw _ _ _ _ Hl Hw) as (v0 & Hl0 & ->).
  destruct (trail_step _ _ _ _ _ HT Hd Hl0 Hw) as (HI & HT'). destruct (w_lk d Hd) as (v1 & w1 & Hl1 & Hle & _). rewrite Hl0 in Hl1. injection Hl1 as <- <-.
  unfold w_erules in H. cbv zeta in H. rewrite slice_from_ok in H by lia. cbn [bind] in H.
  assert (HR : exists ri', w_rules (middleBits j d v0) (ws_current st) (if negb (is (ws_current st) _Ignore) then ws_current st else ws_lastEx st)
    (if negb (is (ws_current st) _Ignore) then ws_lastEx st else ws_lastLastEx st) (ws_ri st) w (skipn w d) true = Ok (WJoin w ri')).
  { unfold w_rules. fold w_nl. fold _Ignore. rewrite is_lor_l, HN, mid_nl, (w_ign_nl v0 (w_lookup_in _ _ _ Hl0) HI), (mid_ign j d v0 HI). cbn [orb].
    repeat match goal with |- exists r, (if ?c then _ else _) = _ => destruct c; [eexists; reflexivity|] end. eexists; reflexivity. }
  destruct HR as (ri' & HR). rewrite HR in H. cbn [bind] in H. injection H as <-. eexists. split; [reflexivity|]. split; [exact HT'|]. cbn [ws_current].
  rewrite mid_nl. exact (w_ign_nl v0 (w_lookup_in _ _ _ Hl0) HI).
Qed.
(** What is left when the last cut was made for want of text: one character and then ignorable ones. *)
Definition wrest (d : bytes) : Prop := exists v w, words_lookup d = Ok (v, w) /\ w <> 0%nat /\ is v w_nl = false /\ tr (skipn w d).
Lemma w_h1 : forall j st d v w dec, wq st d -> d <> [] -> lkM j d = Ok (v, w) -> w <> 0%nat -> w_erules st v d w true = Ok dec -> lands (WE j) wq wrest d dec.
Proof. intros j st d v w dec HS Hd Hl Hw H. destruct (wq_step j st d v w dec HS Hd Hl Hw H) as (st' & -> & HS'). exact HS'. Qed.
Lemma w_h2 : forall j st d v w dec, d <> [] -> lkM j d = Ok (v, w) -> w <> 0%nat -> w_erules st v d w false = Ok EMore -> w_erules st v d w true = Ok dec -> lands (WE j) wq wrest d dec.
Proof.
  intros j st d v w dec Hd Hl Hw HM H. destruct (lkM_raw _ _ _ _ Hl Hw) as (v0 & Hl0 & ->). destruct (w_lk d Hd) as (v1 & w1 & Hl1 & Hle & _). rewrite Hl0 in Hl1. injection Hl1 as <- <-.
  unfold w_erules in H, HM. cbv zeta in H, HM. rewrite slice_from_ok in H, HM by lia. cbn [bind] in H, HM.
  match type of HM with bind ?x _ = _ => destruct x as [[? ?| |]| |] eqn:EM end; try discriminate. apply w_more in EM. destruct EM as (HT & HN). rewrite is_lor_l, mid_nl in HN. apply orb_false_elim in HN. destruct HN as (_ & HN).
  match type of H with bind ?x _ = _ => destruct x as [de| |] eqn:ED end; try discriminate. destruct (w_trail_dec _ _ _ _ _ _ _ _ HT ED) as [(ri' & ->) | ->]; cbn [bind] in H; injection H as <-; cbn [lands].
  - split; [exact HT|]. cbn [ws_current]. rewrite mid_nl. exact HN.
  - exists v0, w. auto.
Qed.
Lemma wrest_whole : forall j d, wrest d -> joinersSplitFunc j d true = Ok (e_done (length d) d).
Proof.
  intros j d (v & w & Hl & Hw & HN & HT). assert (Hd : d <> []) by (intros ->; discriminate).
  destruct (so_eof _ (w_split_ok j) d Hd) as (n & Hn & Hs). rewrite Hs. rewrite <- w_split_engine in Hs. unfold esplit in Hs. rewrite (is_nil_false d Hd) in Hs.
  change (e_lk0 (WE j)) with (lkL j) in Hs. destruct (lkL_ok j d Hd) as (v1 & w1 & Hl1 & Hle & _).
  rewrite Hl1 in Hs. cbn [bind] in Hs. assert (Hw1 : w1 = w). { unfold lkL in Hl1. rewrite Hl in Hl1. cbn [bind] in Hl1. injection Hl1 as _ <-. reflexivity. } subst w1.
  rewrite (proj2 (Nat.eqb_neq _ _) Hw) in Hs. rewrite slice_from_ok in Hs by lia. cbn [bind] in Hs. destruct (lkL_raw _ _ _ _ Hl1 Hw) as (v0 & Hl0 & Ev). rewrite Hl in Hl0. injection Hl0 as <-.
  destruct (eloop (WE j) (w_fuel d) (skipn w d) true (e_init (WE j) v1)) as [[m|]| |] eqn:Er; try discriminate.
  cbn [bind] in Hs. destruct (slice_to d (w + m)) as [tk| |]; try discriminate. cbn [bind] in Hs. unfold e_done in Hs. injection Hs as Hs _. assert (n = (w + m)%nat) as -> by lia.
  destruct (quiet_run (WE j) w_mu (lkM_ok j) (w_rules_ok j) wq (fun _ => False)) with (fuel := w_fuel d) (d := skipn w d) (st := e_init (WE j) v1) (n := m) as [-> | (_ & [])].
  - intros st d' v' w' dec HS Hd' Hl' Hw' H. destruct (wq_step j st d' v' w' dec HS Hd' Hl' Hw' H) as (st' & -> & HS'). exact HS'.
  - split; [exact HT|]. cbn. rewrite Ev, lead_nl. exact HN.
  - exact Er.
  - rewrite skipn_length. replace (w + (length d - w))%nat with (length d) by lia. rewrite firstn_all. reflexivity.
Qed.
Lemma w_asked : forall j d n, d <> [] -> joinersSplitFunc j d false = Ok e_more -> joinersSplitFunc j d true = Ok (e_done n (firstn n d)) -> n = length d \/ wrest (skipn n d).
Proof.
  intros j d n Hd HF HT. rewrite <- w_split_engine in HF, HT.
  destruct (asked_split (WE j) w_mu (lkM_ok j) (w_rules_ok j) wq wrest (w_h1 j) (w_h2 j) (lkL_ok j) w_fuel d n _ Hd HF HT) as [-> | (_ & H)]; auto.
Qed.

(** The fast path. *)
Lemma run_app : forall s e, alnum_run s <> length s -> alnum_run (s ++ e) = alnum_run s.
Proof. induction s as [|b s IH]; intros e H; [simpl in H; lia|]. cbn [alnum_run app length] in *. destruct (isASCIIAlphanumeric b); [|reflexivity]. rewrite IH; [reflexivity|lia]. Qed.
Lemma hot_app : forall d k e, hot_run d = Some k -> k <> length d -> hot_run (d ++ e) = Some k.
Proof.
  intros d k e H Hk. pose proof (hot_run_le _ _ H) as HL. destruct d as [|b s]; [discriminate|]. cbn [app]. unfold hot_run in *. destruct (isASCIIAlphanumeric b); [|discriminate].
  destruct (Nat.eq_dec (alnum_run s) (length s)) as [Er|Er].
  { rewrite Er in H. cbn [skipn] in H. rewrite skipn_all in H. injection H as <-. simpl in Hk. lia. }
  rewrite run_app by exact Er. pose proof (alnum_run_le s). cbn [skipn] in *. rewrite skipn_app_le by lia. destruct (skipn (alnum_run s) s) as [|b' s'] eqn:Es.
  - apply (f_equal (@length N)) in Es. rewrite skipn_length in Es. simpl in Es. lia.
  - exact H.
Qed.
Lemma hot_none : forall d e, d <> [] -> hot_run d = None -> hot_run (d ++ e) = None.
Proof.
  intros d e Hd H. destruct d as [|b s]; [congruence|]. cbn [app]. unfold hot_run in *. destruct (isASCIIAlphanumeric b); [|reflexivity].
  destruct (Nat.eq_dec (alnum_run s) (length s)) as [Er|Er].
  { rewrite Er in H. cbn [skipn] in H. rewrite skipn_all in H. discriminate. }
  rewrite run_app by exact Er. pose proof (alnum_run_le s). cbn [skipn] in *. rewrite skipn_app_le by lia. destruct (skipn (alnum_run s) s) as [|b' s'] eqn:Es.
  - discriminate.
  - exact H.
Qed.
Lemma wrest_hot : forall d k, wrest d -> hot_run d = Some k -> k = length d.
Proof.
  intros d k (v & w & Hl & Hw & _ & HT) H. destruct d as [|b s]; [discriminate|]. unfold hot_run in H. destruct (isASCIIAlphanumeric b) eqn:Eb; [|discriminate].
  destruct (alnum_lookup b s Eb) as (v0 & Hl0 & _). rewrite Hl in Hl0. injection Hl0 as -> ->. cbn [skipn] in HT, H. destruct s as [|b1 s1].
  { cbn in H. injection H as <-. reflexivity. }
  assert (HA : isASCIIAlphanumeric b1 = false).
  { destruct (isASCIIAlphanumeric b1) eqn:E1; [|reflexivity]. destruct (alnum_lookup b1 s1 E1) as (v1 & Hl1 & Hv). destruct (trail_step _ _ _ _ _ HT ltac:(discriminate) Hl1 ltac:(lia)) as (HI & _).
    destruct Hv as [-> | ->]; vm_compute in HI; discriminate. }
  cbn [alnum_run] in H. rewrite HA in H. cbn [skipn] in H. destruct (b1 =? 0x20) eqn:ES; [|discriminate]. apply N.eqb_eq in ES. subst b1.
  destruct (trail_step _ _ _ _ _ HT ltac:(discriminate) (space_lookup s1) ltac:(lia)) as (HI & _). vm_compute in HI. discriminate.
Qed.
Lemma w_one : forall j d l, wrest d -> tokens_by (w_isplit (joinersSplitFunc j)) d l -> (length l < 2)%nat.
Proof.
  intros j d l HW H. inversion H as [|d0 n l0 Hf Hn Ht]; subst; [simpl; lia|].
  assert (n = length d) as ->.
  { unfold w_isplit in Hf. destruct (hot_run d) as [k|] eqn:Eh.
    - rewrite <- (wrest_hot d k HW Eh). unfold e_done in Hf. injection Hf as Hf _. lia.
    - rewrite (wrest_whole j d HW) in Hf. unfold e_done in Hf. injection Hf as Hf _. lia. }
  rewrite skipn_all in Ht. inversion Ht; subst; simpl in *; lia.
Qed.
Lemma w_cut_kept : forall j, cut_kept (w_isplit (joinersSplitFunc j)) 2.
Proof.
  intros j d n e Hn Hf. assert (Hd : d <> []) by (intros ->; simpl in Hn; lia). unfold w_isplit in Hf |- *. destruct (hot_run d) as [k|] eqn:Eh.
  - assert (k = n) as ->. { unfold e_done in Hf. injection Hf as Hf _. lia. }
    destruct (Nat.eq_dec n (length d)) as [->|Hk].
    + right. rewrite skipn_all. intros l Hl. inversion Hl; subst; simpl in *; lia.
    + left. rewrite (hot_app d n e Eh Hk). rewrite firstn_app_le by lia. reflexivity.
  - rewrite (hot_none d e Hd Eh). destruct (so_stream _ (w_split_ok j) d) as [Hm | (m & Hm & Hs & Ha)].
    + right. destruct (w_asked j d n Hd Hm Hf) as [-> | HW].
      * rewrite skipn_all. intros l Hl. inversion Hl; subst; simpl in *; lia.
      * intros l. apply w_one. exact HW.
    + left. pose proof (Ha [] true) as H0. rewrite app_nil_r, Hf in H0. unfold e_done in H0. injection H0 as H0 _. assert (m = n) as -> by lia. apply Ha.
Qed.
End W.
