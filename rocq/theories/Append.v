(** Appending text: which tokens keep their place.  The common part, over the abstract loop and over token lists. *)
From Verif Require Import Base ListFacts Trie Engine SpecJoiners AnsiCuts.

(** A cut that is made without asking for more data does not depend on what follows.  A cut made only because the
    data ended is either at the end, or leaves a rest described by [W]. *)
Section Quiet.
  Variable E : eng.
  Variable mu : e_St E -> bytes -> nat.
  Hypothesis LK : lk_ok (e_lk E).
  Hypothesis RU : rules_ok E mu.
  Variable Sq : e_St E -> bytes -> Prop.
  Variable W : bytes -> Prop.

  Definition lands (d : bytes) (dec : edec (e_St E)) : Prop :=
    match dec with EJoin adv st' => Sq st' (skipn adv d) | EBreak => W d | _ => True end.

  Hypothesis H1 : forall st d v w dec, Sq st d -> d <> [] -> e_lk E d = Ok (v, w) -> w <> 0 -> e_rules E st v d w true = Ok dec -> lands d dec.
  Hypothesis H2 : forall st d v w dec, d <> [] -> e_lk E d = Ok (v, w) -> w <> 0 -> e_rules E st v d w false = Ok EMore -> e_rules E st v d w true = Ok dec -> lands d dec.

  Definition end_or_W (d : bytes) (n : nat) : Prop := n = length d \/ (n <= length d /\ W (skipn n d)).

  Lemma end_or_W_shift : forall d a n, a <= length d -> end_or_W (skipn a d) n -> end_or_W d (a + n).
  Proof.
    intros d a n Ha [-> | (Hn & HW)]; rewrite ?skipn_length in *; [left; lia|]. right. split; [lia|].
    rewrite skipn_skipn in HW. replace (a + n) with (n + a) by lia. exact HW.
  Qed.

  Lemma quiet_run : forall fuel d st n, Sq st d -> eloop E fuel d true st = Ok (Some n) -> end_or_W d n.
  Proof.
    induction fuel as [|fuel IH]; intros d st n HS H; [discriminate|].
    destruct d as [|c d0]; [simpl in H; injection H as <-; left; reflexivity|].
    set (d := c :: d0) in *. assert (Hd : d <> []) by discriminate.
    destruct (LK d Hd) as (v & w & Hl & Hw & _).
    cbn [eloop] in H. change (is_nil d) with false in H. cbv iota in H. rewrite Hl in H. cbn [bind] in H.
    destruct (Nat.eqb w 0) eqn:E0; [injection H as <-; left; reflexivity|]. apply Nat.eqb_neq in E0.
    destruct (RU st v d w Hd Hl E0) as (T & _). destruct (T true) as (dec & Hr & Hj & _). rewrite Hr in H. cbn [bind] in H.
    pose proof (H1 st d v w dec HS Hd Hl E0 Hr) as HL. destruct dec as [adv st'| | |]; cbn [lands] in HL.
    - destruct (Hj _ _ eq_refl) as (Ha & _). rewrite slice_from_ok in H by lia. cbn [bind] in H.
      destruct (eloop E fuel (skipn adv d) true st') as [[m|]| |] eqn:Er; try discriminate. cbn [bind option_map] in H. injection H as <-.
      apply end_or_W_shift; [exact Ha|]. exact (IH _ _ _ HL Er).
    - injection H as <-. right. split; [lia|exact HL].
    - injection H as <-. left. reflexivity.
    - discriminate.
  Qed.

  Lemma asked_run : forall fuel d st n, eloop E fuel d false st = Ok None -> eloop E fuel d true st = Ok (Some n) -> end_or_W d n.
  Proof.
    induction fuel as [|fuel IH]; intros d st n HF H; [discriminate|].
    destruct d as [|c d0]; [simpl in H; injection H as <-; left; reflexivity|].
    set (d := c :: d0) in *. assert (Hd : d <> []) by discriminate.
    destruct (LK d Hd) as (v & w & Hl & Hw & _).
    cbn [eloop] in H, HF. change (is_nil d) with false in H, HF. cbv iota in H, HF. rewrite Hl in H, HF. cbn [bind] in H, HF.
    destruct (Nat.eqb w 0) eqn:E0; [injection H as <-; left; reflexivity|]. apply Nat.eqb_neq in E0.
    destruct (RU st v d w Hd Hl E0) as (T & S). destruct (T false) as (dec & Hr & Hj & _ & He). rewrite Hr in HF. cbn [bind] in HF.
    destruct dec as [adv st'| | |].
    - pose proof (S _ Hr ltac:(discriminate) [] true) as Hr'. rewrite app_nil_r in Hr'. rewrite Hr' in H. cbn [bind] in H.
      destruct (Hj _ _ eq_refl) as (Ha & _). rewrite slice_from_ok in H, HF by lia. cbn [bind] in H, HF.
      destruct (eloop E fuel (skipn adv d) true st') as [[m|]| |] eqn:Er; try discriminate. cbn [bind option_map] in H. injection H as <-.
      destruct (eloop E fuel (skipn adv d) false st') as [[k|]| |] eqn:Ef; try discriminate.
      apply end_or_W_shift; [exact Ha|]. exact (IH _ _ _ Ef Er).
    - discriminate.
    - specialize (He eq_refl). discriminate.
    - clear T S He Hj. destruct (RU st v d w Hd Hl E0) as (T & _). destruct (T true) as (dec & Hr2 & Hj & Hm & _). rewrite Hr2 in H. cbn [bind] in H.
      pose proof (H2 st d v w dec Hd Hl E0 Hr Hr2) as HL. destruct dec as [adv st'| | |]; cbn [lands] in HL.
      + destruct (Hj _ _ eq_refl) as (Ha & _). rewrite slice_from_ok in H by lia. cbn [bind] in H.
        destruct (eloop E fuel (skipn adv d) true st') as [[m|]| |] eqn:Er; try discriminate. cbn [bind option_map] in H. injection H as <-.
        apply end_or_W_shift; [exact Ha|]. exact (quiet_run _ _ _ _ HL Er).
      + injection H as <-. right. split; [lia|exact HL].
      + injection H as <-. left. reflexivity.
      + discriminate.
  Qed.

  Hypothesis LK0 : lk_ok (e_lk0 E).
  Variable fuel : bytes -> nat.

  Lemma asked_split : forall d n tok, d <> [] -> esplit E fuel d false = Ok e_more -> esplit E fuel d true = Ok (e_done n tok) -> end_or_W d n.
  Proof.
    intros d n tok Hd HF H. unfold esplit in HF, H. rewrite (is_nil_false d Hd) in HF, H.
    destruct (LK0 d Hd) as (v & w & Hl & Hw & _). rewrite Hl in HF, H. cbn [bind] in HF, H.
    destruct (Nat.eqb w 0) eqn:E0. { unfold e_done in H. injection H as H _. left. lia. }
    rewrite slice_from_ok in HF, H by lia. cbn [bind] in HF, H.
    destruct (eloop E (fuel d) (skipn w d) true (e_init E v)) as [[m|]| |] eqn:Er; try discriminate.
    cbn [bind] in H. destruct (slice_to d (w + m)) as [tk| |]; try discriminate. cbn [bind] in H. unfold e_done in H. injection H as H _.
    assert (n = w + m) as -> by lia.
    destruct (eloop E (fuel d) (skipn w d) false (e_init E v)) as [[k|]| |] eqn:Ef; try discriminate.
    { cbn [bind] in HF. destruct (slice_to d (w + k)); discriminate. }
    apply end_or_W_shift; [exact Hw|]. exact (asked_run _ _ _ _ Ef Er).
  Qed.
End Quiet.

(** What this means for a split function: with text appended the cut stays, unless few tokens follow it. *)
Definition cut_kept (f : splitfun) (k : nat) : Prop := forall d n e, 0 < n <= length d -> f d true = Ok (e_done n (firstn n d)) ->
  f (d ++ e) true = Ok (e_done n (firstn n d)) \/ forall l, tokens_by f (skipn n d) l -> length l < k.

Lemma split_kept : forall f k, split_ok f -> 1 <= k ->
  (forall d n, 0 < n <= length d -> f d false = Ok e_more -> f d true = Ok (e_done n (firstn n d)) -> n = length d \/ forall l, tokens_by f (skipn n d) l -> length l < k) ->
  cut_kept f k.
Proof.
  intros f k OK Hk H d n e Hn Hf.
  destruct (so_stream _ OK d) as [Hm | (m & Hm & Hs & Ha)].
  - right. destruct (H d n Hn Hm Hf) as [-> | HW]; [|exact HW]. rewrite skipn_all. intros l Hl. inversion Hl; subst; simpl in *; lia.
  - left. pose proof (Ha [] true) as H0. rewrite app_nil_r, Hf in H0. injection H0 as H0 _. assert (m = n) as -> by lia. apply Ha.
Qed.

Lemma tokens_kept : forall f k, well_behaved f -> cut_kept f k -> forall l1 l2 d e, tokens_by f d (l1 ++ l2) -> k <= length l2 ->
  exists l', tokens_by f (d ++ e) (l1 ++ l').
Proof.
  intros f k WB CK. induction l1 as [|t l1 IH]; intros l2 d e H Hk.
  - destruct (tb_ex0 f WB (S (length (d ++ e))) (d ++ e) ltac:(lia)) as (l & Hl). exists l. exact Hl.
  - inversion H as [|d0 n l Hf Hn Ht]; subst.
    destruct (CK d n e Hn Hf) as [Hs | HS].
    + destruct (IH l2 (skipn n d) e Ht Hk) as (l' & Hl'). exists l'.
      rewrite <- (firstn_app_le n d e) by lia. cbn [app]. constructor.
      * rewrite (firstn_app_le n d e) by lia. exact Hs.
      * rewrite app_length. lia.
      * rewrite skipn_app_le by lia. exact Hl'.
    + specialize (HS _ Ht). rewrite app_length in HS. lia.
Qed.
