(** The counting functions of CountPhrases.v away from the end of the data: what CostPhrases.v says when the data is all there, for any data that a Scanner may hand over. *)
From Verif Require Import Base ListFacts LookupFacts Trie TablePhrases BitFacts Cost CostScan Engine Phrases CountPhrases Lk SpecIter SpecApi CostPhrases.
Local Open Scope nat_scope.

Lemma c_subs : forall e p d r, result (t_subsequent p d e) = Ok r -> cost (t_subsequent p d e) <= 1 + ig d /\ (forall a, fst r = Some a -> wt (skipn a d) = wt d).
Proof.
  intros e p d r H. unfold t_subsequent in *. change t_subsequent_loop with (g_sub phrases_lookup ign) in *. apply c_sub in H; [|lia]. cbn [skipn] in H. destruct H as (H1 & H2). split; [exact H1|]. intros a Ha. apply H2. exact Ha.
Qed.
Lemma c_look : forall e k c p a w ri tn dec, (forall x, result tn = Ok x -> cost tn <= k * (1 + ig a) /\ good w a x) -> result (t_lookahead c p a e w ri tn) = Ok dec ->
  cost (t_lookahead c p a e w ri tn) <= S k * (1 + ig a) /\ good w a dec.
Proof.
  intros e k c p a w ri tn dec HN H. unfold t_lookahead in *. destruct c. 2:{ destruct (HN _ H) as (H1 & H2). split; [|exact H2]. cbn [Nat.mul]. lia. }
  rewrite result_bind in H. apply bind_Ok in H. destruct H as (r & Hr & H). rewrite (cost_bind _ _ _ _ r Hr). destruct (c_subs _ _ _ _ Hr) as (H1 & H2). destruct r as [adv [|]]; cbn [fst] in H2.
  - injection H as <-. rewrite cost_free. split; [cbn [Nat.mul]; lia|]. intros adv' ri' HH. discriminate.
  - destruct adv as [n|].
    + injection H as <-. rewrite cost_free. split; [cbn [Nat.mul]; lia|]. intros adv' ri' [= <- <-]. split; [lia|]. replace (w + n - w) with n by lia. apply H2. reflexivity.
    + destruct (HN _ H) as (H3 & H4). split; [cbn [Nat.mul]; lia|exact H4].
Qed.
Lemma c_rules : forall e cu la le ll ri w a dec, result (t_p_rules cu la le ll ri w a e) = Ok dec ->
  cost (t_p_rules cu la le ll ri w a e) <= (if is cu _Ignore then 0 else 3 * (1 + ig a)) /\ good w a dec.
Proof.
  intros e cu la le ll ri w a dec H. unfold t_p_rules in *. change (N.lor _Extend (N.lor _Format _ZWJ)) with _Ignore in *.
  destruct (N.eqb _ _); [leaf|]. destruct (_ && _); [leaf|]. destruct (is (N.lor _ _) _); [leaf|]. destruct (_ && _); [leaf|]. destruct (is (N.land _ _) _); [leaf|]. destruct (is cu _Ignore); [leaf|]. destruct (_ && _); [leaf|].
  revert H. apply (c_look e 2). intros x H. do 2 (destruct (_ && _); [leaf|]).
  revert H. apply (c_look e 1). intros y H. do 3 (destruct (_ && _); [leaf|]).
  revert H. apply (c_look e 0). intros z H. cifs.
Qed.
Lemma c_loop : forall fuel data e s r, result (t_p_loop fuel data e s) = Ok r ->
  match r with
  | Some n => p_pos s <= n /\ cost (t_p_loop fuel data e s) + 3 * wt (skipn n data) <= 1 * (n - p_pos s + 1) + 3 * wt (skipn (p_pos s) data) + 3 * hd_ (skipn n data)
  | None => p_pos s <= length data /\ cost (t_p_loop fuel data e s) <= 1 * (length data - p_pos s + 1) + 3 * wt (skipn (p_pos s) data)
  end.
Proof.
  induction fuel as [|fuel IH]; intros data e s r H; [discriminate|]. cbn [t_p_loop] in *. destruct (Nat.eqb_spec (p_pos s) (length data)) as [E|E].
  { destruct e; cbn [negb] in *; injection H as <-; rewrite cost_free; lia. }
  cbv zeta in *. rewrite result_bind, result_free in H. unfold slice_from in *. destruct (Nat.ltb_spec (length data) (p_pos s)) as [El|El]; [discriminate|]. cbn [bind] in H.
  rewrite (cost_bind _ _ _ _ (skipn (p_pos s) data)) by reflexivity. rewrite cost_free. rewrite result_bind, result_steps in H. apply bind_Ok in H. destruct H as ([v w] & Hl & H).
  rewrite (cost_bind _ _ _ _ (v, w)) by exact Hl. rewrite cost_steps. destruct (Nat.eqb_spec w 0) as [W|W].
  { destruct e; cbn [negb] in *; injection H as <-; rewrite cost_free, ?skipn_all; change (wt []) with 0; lia. }
  assert (Hne : skipn (p_pos s) data <> []). { intros E'. apply (f_equal (@length N)) in E'. rewrite skipn_length in E'. cbn in E'. lia. }
  rewrite result_bind, result_free in H. apply bind_Ok in H. destruct H as (after & Ha & H). rewrite (cost_bind _ _ _ _ after) by exact Ha. rewrite cost_free. destruct (length data <? p_pos s + w); [discriminate|]. injection Ha as <-.
  rewrite result_bind in H. apply bind_Ok in H. destruct H as (dec & Hr & H). rewrite (cost_bind _ _ _ _ dec Hr). apply c_rules in Hr. destruct Hr as (CR & GD).
  assert (HD : hd_ (skipn (p_pos s) data) = if is v _Ignore then 0 else 1 + ig (skipn (p_pos s + w) data)) by (rewrite (hd_eq _ _ _ _ _ Hne Hl W), skipn_skipn, (Nat.add_comm w); reflexivity).
  assert (TL : tl_ (skipn (p_pos s) data) = wt (skipn (p_pos s + w) data)) by (rewrite (tl_eq _ _ _ _ _ Hne Hl W), skipn_skipn, (Nat.add_comm w); reflexivity).
  assert (CR' : cost (t_p_rules (v) (p_current s) (if negb (is (p_current s) _Ignore) then p_current s else p_lastEx s)
     (if negb (is (p_current s) _Ignore) then p_lastEx s else p_lastLastEx s) (p_ri s) w (skipn (p_pos s + w) data) e) <= 3 * hd_ (skipn (p_pos s) data)).
  { rewrite HD. destruct (is v _Ignore) eqn:EV; lia. }
  pose proof (wt_split phrases_lookup ign (skipn (p_pos s) data)) as WS. destruct dec as [adv ri| |].
  - apply IH in H. cbn [p_pos] in H. destruct (GD _ _ eq_refl) as (G1 & G2). rewrite skipn_skipn in G2. replace (adv - w + (p_pos s + w)) with (p_pos s + adv) in G2 by lia.
    destruct r as [n|].
    2:{ destruct H as (H1 & H2). split; [lia|]. assert (HM : 1 * (length data - p_pos s + 1) >= 1 * (length data - (p_pos s + adv) + 1) + 1). { replace (length data - p_pos s + 1) with ((length data - (p_pos s + adv) + 1) + 1 + (adv - 1)) by lia. generalize (1) (length data - (p_pos s + adv) + 1) (adv - 1). intros K0 x y. nia. } lia. }
    destruct H as (H1 & H2). split; [lia|]. assert (HM : 1 * (n - p_pos s + 1) >= 1 * (n - (p_pos s + adv) + 1) + 1).
    { replace (n - p_pos s + 1) with ((n - (p_pos s + adv) + 1) + 1 + (adv - 1)) by lia. lia. }
    lia.
  - injection H as <-. rewrite cost_free. split; [lia|]. rewrite Nat.sub_diag. lia.
  - injection H as <-. rewrite cost_free. split; [lia|]. assert (1 * 1 <= 1 * (length data - p_pos s + 1)) by (apply Nat.mul_le_mono_l; lia). lia.
Qed.
Definition potential (d : bytes) : nat := 3 * length d + 3 * tl_ d.
Lemma potential_bound : forall d, potential d <= 9 * length d.
Proof. intros d. unfold potential. pose proof (wt_split phrases_lookup ign d). pose proof (wt_bound phrases_lookup ign d). lia. Qed.
Lemma c_split : forall d e o, d <> [] -> result (t_splitFunc d e) = Ok o ->
  (forall n, 0 < n -> so_advance o = Z.of_nat n -> n <= length d -> cost (t_splitFunc d e) + 1 + potential (skipn n d) <= potential d) /\ cost (t_splitFunc d e) <= 8 * length d.
Proof.
  intros d e o Hd H. unfold t_splitFunc in *. destruct d as [|b s]; [congruence|]. set (d := b :: s) in *. cbn [is_nil] in *. change (is_nil d) with false in *. cbv iota in *. assert (HL1 : 1 <= length d) by (cbn; lia).
  pose proof (wt_split phrases_lookup ign d) as WD. pose proof (wt_bound phrases_lookup ign d) as WB.
  rewrite result_bind, result_free in H. change (slice_from d 0) with (Ok d) in *. cbn [bind] in H. rewrite (cost_bind _ _ _ _ d) by reflexivity. rewrite cost_free.
  rewrite result_bind, result_steps in H. apply bind_Ok in H. destruct H as ([v w] & Hl & H). rewrite (cost_bind _ _ _ _ (v, w)) by exact Hl. rewrite cost_steps. destruct (Nat.eqb_spec w 0) as [W|W].
  { destruct e; cbn [negb] in *.
    - rewrite result_bind, result_free in H. apply bind_Ok in H. destruct H as (t & Ht & H). injection H as <-. rewrite (cost_bind _ _ _ _ t) by exact Ht. rewrite !cost_free. split; [|lia].
      intros n Hn E Hle. unfold potential. assert (EL : Z.of_nat (length d) = Z.of_nat n) by exact E. assert (n = length d) by lia. subst n. rewrite skipn_all. change (tl_ []) with 0. cbn [length]. lia.
    - injection H as <-. rewrite cost_free. split; [|lia]. intros n Hn E. cbn in E. lia. }
  rewrite result_bind in H. apply bind_Ok in H. destruct H as (r & Hr & H). rewrite (cost_bind _ _ _ _ r Hr). apply c_loop in Hr. cbn [p_pos] in Hr. pose proof (tl_eq _ ign _ _ _ Hd Hl W) as TD. destruct r as [n|].
  - rewrite result_bind, result_free in H. apply bind_Ok in H. destruct H as (t & Ht & H). injection H as <-. rewrite (cost_bind _ _ _ _ t) by exact Ht. rewrite !cost_free. destruct Hr as (H1 & H2).
    assert (Hnd : n <= length d). { unfold slice_to in Ht. destruct (Nat.ltb_spec (length d) n); [discriminate|assumption]. }
    pose proof (wt_split phrases_lookup ign (skipn n d)) as WS. split; [|lia].
    intros m Hm E Hle. assert (EL : Z.of_nat n = Z.of_nat m) by exact E. assert (m = n) by lia. subst m. unfold potential. rewrite skipn_length. lia.
  - injection H as <-. rewrite cost_free. destruct Hr as (H1 & H2). split; [|lia]. intros m Hm E. cbn in E. lia.
Qed.
