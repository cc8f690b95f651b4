(** Cutting the data off right after a token does not change the token. *)
From Verif Require Import Base ListFacts Trie LookupFacts TableFacts Engine EngineMore Lk Seek.

(** A lookup on data cut off: as before, or "too short" (and then the value was 0, for tables). *)
Definition lk_cut (Z : N -> Prop) (lk : bytes -> res (N * nat)) : Prop := forall d v w m, d <> [] -> lk d = Ok (v, w) -> w <> 0 -> w <= m ->
  lk (firstn m d) = Ok (v, w) \/ (Z v /\ exists v', lk (firstn m d) = Ok (v', 0)).

Lemma firstn_nonnil : forall (d : bytes) m, d <> [] -> m <> 0 -> firstn m d <> [].
Proof. intros [|c d] [|m] H1 H2; try congruence. discriminate. Qed.

Lemma lk_cut_any : forall lk, lk_ok lk -> lk_cut (fun _ => True) lk.
Proof.
  intros lk LK d v w m Hd Hl Hw Hm. destruct (LK (firstn m d)) as (v1 & w1 & H1 & _ & Hs). { apply firstn_nonnil; [exact Hd|lia]. }
  destruct (Nat.eq_dec w1 0) as [->|Hn]; [right; eauto|]. left. specialize (Hs Hn (skipn m d)). rewrite firstn_skipn, Hl in Hs. injection Hs as <- <-. exact H1.
Qed.
Lemma lk_cut_tables : forall values index V, tables_ok values index V = true -> lk_cut (fun v => v = 0%N) (lookup values index).
Proof.
  intros values index V H d v w m Hd Hl Hw Hm. destruct (lk_cut_any _ (lk_ok_of_tables values index V H) d v w m Hd Hl Hw Hm) as [HL|(_ & v' & HL)]; [left; exact HL|].
  right. split; [|eauto]. destruct d as [|c s]; [congruence|]. destruct m as [|m]; [lia|]. cbn [firstn] in HL.
  destruct (lookup_spec values index V H c (firstn m s)) as (v1 & w1 & H1 & _ & _ & _ & H2 & _). rewrite HL in H1. injection H1 as <- <-. destruct (H2 eq_refl) as [_ HN].
  destruct (lookup_spec values index V H c s) as (v2 & w2 & H3 & _ & _ & HLE & _ & _ & H4 & _). rewrite Hl in H3. injection H3 as <- <-.
  destruct (N.eq_dec v 0) as [E|E]; [exact E|]. exfalso. specialize (H4 E). cbn [length] in HN, HLE. rewrite firstn_length in HN. lia.
Qed.

(** ** subsequent *)
Section Sub.
  Variable lk : bytes -> res (N * nat).
  Variables ign props : N.
  Hypothesis LK : lk_ok lk.
  Hypothesis CUT : lk_cut (fun v => v = 0%N) lk.

  Lemma rsub_found_any : forall fuel d b a m, rsub lk ign props fuel d b = Ok (Some a, m) -> rsub lk ign props fuel d false = Ok (Some a, false).
  Proof.
    induction fuel as [|fuel IH]; intros d b a m H; [discriminate|]. cbn [rsub] in *. destruct d as [|c d]; [discriminate|]. cbn [is_nil] in *.
    destruct (lk (c :: d)) as [[v w]| |]; try discriminate. cbn [bind] in *. destruct (Nat.eqb w 0); [discriminate|]. destruct (is v ign).
    - destruct (slice_from (c :: d) w) as [d'| |]; try discriminate. cbn [bind] in *. destruct (rsub lk ign props fuel d' b) as [[[a'|] m']| |] eqn:E; try discriminate.
      rewrite (IH _ _ _ _ E). cbn [bind option_map] in *. injection H as -> _. reflexivity.
    - destruct (is v props); [injection H as -> _; reflexivity|discriminate].
  Qed.
  (** What is found: a character with one of the properties, at a proper place. *)
  Lemma rsub_found : forall fuel d b a m, rsub lk ign props fuel d b = Ok (Some a, m) -> exists v w, lk (skipn a d) = Ok (v, w) /\ w <> 0 /\ is v props = true /\ is v ign = false /\ a < length d.
  Proof.
    induction fuel as [|fuel IH]; intros d b a m H; [discriminate|]. cbn [rsub] in *. destruct d as [|c d]; [discriminate|]. cbn [is_nil] in *.
    destruct (LK (c :: d) ltac:(discriminate)) as (v & w & Hl & Hw & _). rewrite Hl in H. cbn [bind] in H.
    destruct (Nat.eqb_spec w 0) as [_|E0]; [discriminate|]. destruct (is v ign) eqn:EI.
    - rewrite slice_from_ok in H by exact Hw. cbn [bind] in *. destruct (rsub lk ign props fuel (skipn w (c :: d)) b) as [[[a'|] m']| |] eqn:E; try discriminate.
      cbn [bind option_map] in H. injection H as <- _. destruct (IH _ _ _ _ E) as (v' & w' & H1 & H2 & H3 & H4 & H5). exists v', w'. rewrite skipn_skipn in H1. rewrite (Nat.add_comm w a').
      rewrite skipn_length in H5. cbn [length] in *. split; [exact H1|]. repeat split; auto; lia.
    - destruct (is v props) eqn:EP; [injection H as <- _|discriminate]. exists v, w. cbn [skipn]. repeat split; auto. cbn; lia.
  Qed.
  Lemma rsub_cut : forall fuel d b a m v w k fuel' b', rsub lk ign props fuel d b = Ok (Some a, m) -> lk (skipn a d) = Ok (v, w) -> a + w <= k -> length (firstn k d) < fuel' ->
    rsub lk ign props fuel' (firstn k d) b' = Ok (Some a, false).
  Proof.
    induction fuel as [|fuel IH]; intros d b a m v w k fuel' b' H Hv Hk Hf; [discriminate|]. cbn [rsub] in H. destruct d as [|c d]; [discriminate|]. cbn [is_nil] in H.
    destruct (LK (c :: d) ltac:(discriminate)) as (v0 & w0 & Hl & Hw & _). rewrite Hl in H. cbn [bind] in H.
    destruct (Nat.eqb_spec w0 0) as [_|E0]; [discriminate|]. destruct (is v0 ign) eqn:EI.
    - rewrite slice_from_ok in H by exact Hw. cbn [bind] in *. destruct (rsub lk ign props fuel (skipn w0 (c :: d)) b) as [[[a'|] m']| |] eqn:E; try discriminate.
      cbn [bind option_map] in H. injection H as <- _. assert (Hn : firstn k (c :: d) <> []) by (apply firstn_nonnil; [discriminate|lia]).
      destruct fuel' as [|fuel']; [lia|]. cbn [rsub]. rewrite (is_nil_false _ Hn).
      destruct (CUT (c :: d) v0 w0 k ltac:(discriminate) Hl E0 ltac:(lia)) as [HL|(-> & _)]; [|discriminate EI].
      rewrite HL. cbn [bind]. rewrite (proj2 (Nat.eqb_neq _ _) E0), EI. rewrite slice_from_ok by (rewrite firstn_length; lia). cbn [bind].
      rewrite skipn_firstn_comm. rewrite (IH (skipn w0 (c :: d)) b a' m' v w (k - w0) fuel' b' E).
      + reflexivity.
      + rewrite skipn_skipn, (Nat.add_comm a' w0). exact Hv.
      + lia.
      + rewrite firstn_length, skipn_length. rewrite firstn_length in Hf. cbn [length] in *. lia.
    - destruct (is v0 props) eqn:EP; [injection H as <- _|discriminate]. cbn [skipn] in Hv. rewrite Hl in Hv. injection Hv as <- <-.
      assert (Hn : firstn k (c :: d) <> []) by (apply firstn_nonnil; [discriminate|lia]). destruct fuel' as [|fuel']; [lia|]. cbn [rsub]. rewrite (is_nil_false _ Hn).
      destruct (CUT (c :: d) v0 w0 k ltac:(discriminate) Hl E0 ltac:(lia)) as [HL|(-> & _)]; [|discriminate EP].
      rewrite HL. cbn [bind]. rewrite (proj2 (Nat.eqb_neq _ _) E0), EI, EP. reflexivity.
  Qed.
  Lemma sub_found : forall d b a m, gsubsequent lk ign props d b = Ok (Some a, m) -> exists v w, lk (skipn a d) = Ok (v, w) /\ w <> 0 /\ is v props = true /\ is v ign = false /\ a < length d.
  Proof. intros d b a m H. rewrite gsubsequent_rsub in H by exact LK. eapply rsub_found; exact H. Qed.
  Lemma sub_cut : forall d b a m v w k b', gsubsequent lk ign props d b = Ok (Some a, m) -> lk (skipn a d) = Ok (v, w) -> a + w <= k ->
    gsubsequent lk ign props (firstn k d) b' = Ok (Some a, false).
  Proof. intros d b a m v w k b' H Hv Hk. rewrite gsubsequent_rsub in H |- * by exact LK. eapply rsub_cut; [exact H|exact Hv|exact Hk|lia]. Qed.
  (** Not found before, not found in less. *)
  Lemma sub_none : forall d k, gsubsequent lk ign props d true = Ok (None, false) -> gsubsequent lk ign props (firstn k d) true = Ok (None, false).
  Proof.
    intros d k H. destruct (gsubsequent_total lk ign props LK (firstn k d) true) as (r & m & Hr & H1 & _). rewrite Hr, (H1 eq_refl). destruct r as [a|]; [|reflexivity]. exfalso.
    rewrite gsubsequent_rsub in H, Hr by exact LK. apply rsub_found_any in Hr. pose proof (rsub_stable lk ign props LK _ _ _ Hr (S (length d)) (skipn k d) true) as HS.
    rewrite firstn_skipn in HS. rewrite HS in H by lia. discriminate.
  Qed.
End Sub.

(** ** The loop *)
Section Cut.
  Variable E : eng.
  Variable mu : e_St E -> bytes -> nat.
  Hypothesis LK0 : lk_ok (e_lk0 E).
  Hypothesis LK : lk_ok (e_lk E).
  Hypothesis RU : rules_ok E mu.
  (** After a Join the rest of the token is long enough for the lookahead that led to it. *)
  Definition rules_cut : Prop := forall st v d w adv st' fuel k, d <> [] -> e_lk E d = Ok (v, w) -> w <> 0 -> e_rules E st v d w true = Ok (EJoin adv st') ->
    mu st' (skipn adv d) < fuel -> eloop E fuel (skipn adv d) true st' = Ok (Some k) ->
    w <= adv + k /\ (e_lk E (firstn (adv + k) d) = Ok (v, w) -> e_rules E st v (firstn (adv + k) d) w true = Ok (EJoin adv st') \/ e_rules E st v (firstn (adv + k) d) w true = Ok EEnd).
  Hypothesis RC : rules_cut.

  Lemma cut_loop : forall fuel d st k, mu st d < fuel -> eloop E fuel d true st = Ok (Some k) -> forall fuel', mu st (firstn k d) < fuel' -> eloop E fuel' (firstn k d) true st = Ok (Some k).
  Proof.
    induction fuel as [|fuel IH]; intros d st k Hm H fuel' Hm'; [lia|]. destruct (eloop_total E mu LK RU (S fuel) d st Hm) as ((k0 & Hk0 & Hle) & _).
    rewrite H in Hk0. injection Hk0 as <-. destruct fuel' as [|fuel']; [lia|]. destruct k as [|k]; [reflexivity|].
    destruct d as [|c d]; [cbn in Hle; lia|]. cbn [eloop is_nil] in H. destruct (LK (c :: d) ltac:(discriminate)) as (v & w & Hl & Hw & _). rewrite Hl in H. cbn [bind] in H.
    destruct (Nat.eq_dec w 0) as [E0|E0]; [subst w; cbn [Nat.eqb] in H|rewrite (proj2 (Nat.eqb_neq w 0) E0) in H].
    { injection H as H. rewrite <- H in *. change (S (length d)) with (length (c :: d)). rewrite firstn_all. cbn [eloop is_nil]. rewrite Hl. reflexivity. }
    destruct (RU st v (c :: d) w ltac:(discriminate) Hl E0) as (T & _). destruct (T true) as (dec & Hr & Hj & Hmo & _). rewrite Hr in H. cbn [bind] in H.
    destruct dec as [adv st'| | |]; try discriminate.
    2:{ injection H as H. rewrite <- H in *. change (S (length d)) with (length (c :: d)). rewrite firstn_all. cbn [eloop is_nil]. rewrite Hl. cbn [bind].
        rewrite (proj2 (Nat.eqb_neq _ _) E0), Hr. reflexivity. }
    destruct (Hj _ _ eq_refl) as (Ha & Hmu). rewrite slice_from_ok in H by exact Ha. cbn [bind] in H.
    destruct (eloop E fuel (skipn adv (c :: d)) true st') as [[n|]| |] eqn:EL; try discriminate. cbn [bind option_map] in H. injection H as H.
    destruct (RC st v (c :: d) w adv st' fuel n ltac:(discriminate) Hl E0 Hr ltac:(lia) EL) as (HW & HC). rewrite H in HW, HC.
    set (d1 := firstn (S k) (c :: d)) in *. assert (Hd1 : d1 <> []) by discriminate. assert (HL1 : length d1 = S k) by (unfold d1; rewrite firstn_length; lia).
    cbn [eloop]. rewrite (is_nil_false _ Hd1). destruct (lk_cut_any _ LK (c :: d) v w (S k) ltac:(discriminate) Hl E0 HW) as [HL|(_ & v' & HL)]; fold d1 in HL; rewrite HL; cbn [bind].
    2:{ cbn [Nat.eqb]. rewrite HL1. reflexivity. }
    rewrite (proj2 (Nat.eqb_neq _ _) E0). destruct (RU st v d1 w Hd1 HL E0) as (T1 & _). destruct (T1 true) as (dec1 & Hr1 & Hj1 & _). rewrite Hr1.
    destruct (HC HL) as [HE|HE]; rewrite HE in Hr1; injection Hr1 as <-; cbn [bind]; [|rewrite HL1; reflexivity].
    destruct (Hj1 _ _ eq_refl) as (Ha1 & Hmu1). rewrite slice_from_ok by exact Ha1. cbn [bind]. unfold d1 in Hmu1 |- *. rewrite skipn_firstn_comm in Hmu1 |- *.
    replace (S k - adv) with n in * by lia. rewrite (IH (skipn adv (c :: d)) st' n ltac:(lia) EL); [cbn [bind option_map]; rewrite H; reflexivity|].
    unfold d1 in Hm'. lia.
  Qed.

  Variable fuel : bytes -> nat.
  Hypothesis FU : forall data v w, e_lk0 E data = Ok (v, w) -> w <> 0 -> w <= length data -> mu (e_init E v) (skipn w data) < fuel data.
  Theorem cut_split : forall d n, d <> [] -> esplit E fuel d true = Ok (e_done n (firstn n d)) -> esplit E fuel (firstn n d) true = Ok (e_done n (firstn n d)).
  Proof.
    intros d n Hd H. destruct (so_eof _ (esplit_ok E mu fuel LK0 LK RU FU) d Hd) as (n0 & Hn & H0). rewrite H in H0. injection H0 as H0 _. apply Nat2Z.inj in H0. subst n0.
    unfold esplit in H. rewrite (is_nil_false _ Hd) in H. destruct (LK0 d Hd) as (v & w & Hl & Hw & _). rewrite Hl in H. cbn [bind] in H.
    destruct (Nat.eq_dec w 0) as [E0|E0]; [subst w; cbn [Nat.eqb] in H|rewrite (proj2 (Nat.eqb_neq w 0) E0) in H].
    { injection H as H _. apply Nat2Z.inj in H. subst n. rewrite firstn_all. unfold esplit. rewrite (is_nil_false _ Hd), Hl. reflexivity. }
    rewrite slice_from_ok in H by exact Hw. cbn [bind] in H. pose proof (FU d v w Hl E0 Hw) as HF.
    destruct (eloop E (fuel d) (skipn w d) true (e_init E v)) as [[k|]| |] eqn:EL; try discriminate. cbn [bind] in H.
    destruct (eloop_total E mu LK RU _ _ _ HF) as ((k0 & Hk0 & Hle) & _). rewrite EL in Hk0. injection Hk0 as <-. rewrite skipn_length in Hle.
    rewrite slice_to_ok in H by lia. cbn [bind] in H. injection H as H _. assert (Hk : n = w + k) by lia. clear H. subst n.
    set (d1 := firstn (w + k) d) in *. assert (Hd1 : d1 <> []) by (apply firstn_nonnil; [exact Hd|lia]). assert (HL1 : length d1 = w + k) by (unfold d1; rewrite firstn_length; lia).
    unfold esplit. rewrite (is_nil_false _ Hd1). destruct (lk_cut_any _ LK0 d v w (w + k) Hd Hl E0 ltac:(lia)) as [HL|(_ & v' & HL)]; fold d1 in HL; rewrite HL; cbn [bind].
    2:{ cbn [Nat.eqb]. rewrite HL1. reflexivity. }
    rewrite (proj2 (Nat.eqb_neq _ _) E0), slice_from_ok by lia. cbn [bind]. pose proof (FU d1 v w HL E0 ltac:(lia)) as HF1.
    unfold d1 in HF1 |- * at 2. rewrite skipn_firstn_comm in HF1 |- *. replace (w + k - w) with k in * by lia. fold d1 in HF1.
    rewrite (cut_loop _ _ _ _ HF EL (fuel d1) HF1). cbn [bind]. rewrite slice_to_ok by lia. cbn [bind]. rewrite firstn_all2 by lia. reflexivity.
  Qed.
End Cut.
