(** The counting functions of CountSentences.v: same results, a quadratic bound on the steps, and texts that come up to it. *)
From Verif Require Import Base ListFacts LookupFacts Trie TableSentences BitFacts Cost Engine Sentences CountSentences SentencesEngine Lk SpecIter SpecApi.
Local Open Scope nat_scope.

(** ** Results *)
Lemma r_sub_loop : forall fuel p d e i, result (t_subsequent_loop fuel p d e i) = subsequent_loop fuel p d e i.
Proof.
  induction fuel as [|fuel IH]; intros p d e i; [reflexivity|]. cbn [t_subsequent_loop subsequent_loop]. destruct (i <? length d); [|destruct e; reflexivity].
  rewrite result_bind. apply bind_ext; [reflexivity|]. intros d'. rewrite result_bind. apply bind_ext; [reflexivity|]. intros [v w]. destruct (Nat.eqb w 0); [destruct e; reflexivity|].
  destruct (is v _Ignore); [apply IH|]. destruct (is v p); reflexivity.
Qed.
Lemma r_sub : forall p d e, result (t_subsequent p d e) = subsequent p d e.
Proof. intros. apply r_sub_loop. Qed.
Lemma r_scan : forall fuel d e p, result (t_sb8_scan fuel d e p) = sb8_scan fuel d e p.
Proof.
  induction fuel as [|fuel IH]; intros d e p; [reflexivity|]. cbn [t_sb8_scan sb8_scan]. destruct (p <? length d); [|reflexivity].
  rewrite result_bind. apply bind_ext; [reflexivity|]. intros d'. rewrite result_bind. apply bind_ext; [reflexivity|]. intros [v w]. destruct (Nat.eqb w 0); [destruct e; reflexivity|].
  destruct (is v _); [reflexivity|apply IH].
Qed.
Ltac ifs := repeat match goal with |- result (if ?c then _ else _) = (if ?c then _ else _) => destruct c; try reflexivity end.
Lemma r_rules : forall d e cu la h p w, result (t_s_rules d e cu la h p w) = s_rules d e cu la h p w.
Proof.
  intros. unfold t_s_rules, s_rules. ifs. rewrite result_bind. apply bind_ext; [apply r_scan|]. intros [q| |]; try reflexivity.
  rewrite result_bind. apply bind_ext; [reflexivity|]. intros d'. rewrite result_bind. apply bind_ext; [apply r_sub|]. intros [[a|] [|]]; reflexivity.
Qed.
Lemma r_loop : forall fuel data e s, result (t_s_loop fuel data e s) = s_loop fuel data e s.
Proof.
  induction fuel as [|fuel IH]; intros data e s; [reflexivity|]. cbn [t_s_loop s_loop]. destruct (Nat.eqb _ _). { destruct e; reflexivity. }
  cbv zeta. rewrite result_bind. apply bind_ext; [reflexivity|]. intros d. rewrite result_bind. apply bind_ext; [reflexivity|]. intros [v w].
  destruct (Nat.eqb w 0). { destruct e; reflexivity. } rewrite result_bind. apply bind_ext; [apply r_rules|]. intros [q|q|]; [apply IH|reflexivity|reflexivity].
Qed.
Lemma r_split : forall d e, result (t_splitFunc d e) = splitFunc d e.
Proof.
  intros d e. unfold t_splitFunc, splitFunc. destruct (is_nil d); [reflexivity|]. rewrite result_bind. apply bind_ext; [reflexivity|]. intros d'. rewrite result_bind. apply bind_ext; [reflexivity|]. intros [v w].
  destruct (Nat.eqb w 0). { destruct e; [|reflexivity]. cbn [negb]. rewrite result_bind. reflexivity. }
  cbv zeta. rewrite result_bind. apply bind_ext; [apply r_loop|]. intros [n|]; [rewrite result_bind|]; reflexivity.
Qed.
Lemma r_next_split : forall it, result (t_next_split it) = next_split it.
Proof.
  intros it. unfold t_next_split, next_split. rewrite result_bind. apply bind_ext; [reflexivity|]. intros d. rewrite result_bind. apply bind_ext; [apply r_split|]. intros o.
  destruct (so_err o); [reflexivity|]. destruct (so_advance o <=? 0)%Z; [reflexivity|]. cbv zeta. destruct (_ <? _); reflexivity.
Qed.
Lemma r_Next : forall it, result (t_Next it) = Next it.
Proof.
  intros it. unfold t_Next, Next. destruct (_ <=? _); [reflexivity|]. cbv zeta. rewrite result_bind. apply bind_ext; [reflexivity|]. intros d. rewrite result_bind, result_steps. cbn [bind]. destruct (_ <=? _); [reflexivity|apply r_next_split].
Qed.

(** ** Upper bound *)
Lemma c_sub : forall fuel p d e i r, result (t_subsequent_loop fuel p d e i) = Ok r -> cost (t_subsequent_loop fuel p d e i) <= length d - i.
Proof.
  induction fuel as [|fuel IH]; intros p d e i r H; [discriminate|]. cbn [t_subsequent_loop] in *. destruct (Nat.ltb_spec i (length d)) as [L|L].
  2:{ destruct e; rewrite cost_free; lia. }
  rewrite result_bind in H. apply bind_Ok in H. destruct H as (d' & Hd & H). rewrite (cost_bind _ _ _ _ d' Hd), cost_free.
  rewrite result_bind in H. apply bind_Ok in H. destruct H as ([v w] & Hl & H). rewrite (cost_bind _ _ _ _ (v, w) Hl), cost_steps.
  destruct (Nat.eqb_spec w 0) as [W|W]. { destruct e; rewrite cost_free; lia. }
  destruct (is v _Ignore). { apply IH in H. lia. } destruct (is v p); rewrite cost_free; lia.
Qed.
Lemma c_scan : forall fuel d e p r, p <= length d -> result (t_sb8_scan fuel d e p) = Ok r ->
  cost (t_sb8_scan fuel d e p) <= length d - p /\ (forall q, r = ScanAt q -> p <= q /\ cost (t_sb8_scan fuel d e p) <= q - p + 1).
Proof.
  induction fuel as [|fuel IH]; intros d e p r Hp H; [discriminate|]. cbn [t_sb8_scan] in *. destruct (Nat.ltb_spec p (length d)) as [L|L].
  2:{ injection H as <-. rewrite cost_free. split; [lia|]. intros q [= <-]. lia. }
  unfold slice_from in *. destruct (Nat.ltb_spec (length d) p) as [L'|_]; [lia|].
  rewrite result_bind in H. cbn [result free snd bind] in H. rewrite (cost_bind _ _ _ _ (skipn p d)) by reflexivity. rewrite cost_free.
  rewrite result_bind in H. apply bind_Ok in H. destruct H as ([v w] & Hl & H). rewrite (cost_bind _ _ _ _ (v, w) Hl), cost_steps. change (sentences_lookup (skipn p d) = Ok (v, w)) in Hl.
  destruct (Nat.eqb_spec w 0) as [W|W]. { destruct e; injection H as <-; rewrite cost_free; (split; [lia|discriminate]). }
  destruct (is v _). { injection H as <-. rewrite cost_free. split; [lia|]. intros q [= <-]. lia. }
  destruct (s_lk (skipn p d)) as (v' & w' & Hl' & Hw & _). { intros E. apply (f_equal (@length N)) in E. rewrite skipn_length in E. cbn in E. lia. }
  rewrite Hl in Hl'. injection Hl' as <- <-. rewrite skipn_length in Hw. apply IH in H; [|lia]. destruct H as (H1 & H2). split; [lia|]. intros q Hq. destruct (H2 q Hq). lia.
Qed.
Lemma c_rules : forall d e cu la h p w dec, p <= length d -> result (t_s_rules d e cu la h p w) = Ok dec -> cost (t_s_rules d e cu la h p w) <= length d - p + 1.
Proof.
  intros d e cu la h p w dec Hp H. unfold t_s_rules in *.
  repeat match goal with H : result (if ?c then free _ else _) = Ok _ |- _ => destruct c; [rewrite cost_free; lia|] end.
  destruct (is _ _ATerm); [|rewrite cost_free; lia]. rewrite result_bind in H. apply bind_Ok in H. destruct H as (sc & Hs & H). rewrite (cost_bind _ _ _ _ sc Hs).
  destruct (c_scan _ _ _ _ _ Hp Hs) as (H1 & H2). destruct sc as [q| |]; [|rewrite cost_free; lia|rewrite cost_free; lia]. destruct (H2 q eq_refl) as (H3 & H4).
  unfold slice_from in *. destruct (Nat.ltb_spec (length d) q) as [L|L]; [discriminate|]. rewrite result_bind in H. cbn [result free snd bind] in H. rewrite (cost_bind _ _ _ _ (skipn q d)) by reflexivity. rewrite cost_free.
  rewrite result_bind in H. apply bind_Ok in H. destruct H as ([adv m] & Hb & H). rewrite (cost_bind _ _ _ _ (adv, m) Hb). apply c_sub in Hb. unfold t_subsequent. rewrite skipn_length in *.
  destruct m; [rewrite cost_free; lia|]. destruct adv; rewrite cost_free; lia.
Qed.

Definition bit (current : N) : nat := if (current =? _Lower)%N then 0 else 1.
Lemma c_loop : forall fuel data s n, s_pos s <= length data -> result (t_s_loop fuel data true s) = Ok (Some n) ->
  s_pos s <= n /\ cost (t_s_loop fuel data true s) <= (2 * (n - s_pos s) + bit (s_current s) + 1) * (length data + 2).
Proof.
  induction fuel as [|fuel IH]; intros data s n Hp H; [discriminate|]. cbn [t_s_loop] in *. destruct (Nat.eqb_spec (s_pos s) (length data)) as [E|E].
  { cbn [negb] in *. injection H as <-. rewrite cost_free. lia. }
  cbv zeta in *. unfold slice_from in *. destruct (Nat.ltb_spec (length data) (s_pos s)) as [L'|_]; [lia|].
  rewrite result_bind in H. cbn [result free snd bind] in H. rewrite (cost_bind _ _ _ _ (skipn (s_pos s) data)) by reflexivity. rewrite cost_free.
  rewrite result_bind in H. apply bind_Ok in H. destruct H as ([v w] & Hl & H). rewrite (cost_bind _ _ _ _ (v, w) Hl), cost_steps. change (sentences_lookup (skipn (s_pos s) data) = Ok (v, w)) in Hl.
  set (K := length data + 2) in *.
  assert (HK : forall a x, x <= K -> x <= (2 * a + bit (s_current s) + 1) * K) by (intros; nia).
  destruct (Nat.eqb_spec w 0) as [W|W]. { injection H as <-. rewrite cost_free. split; [lia|]. apply HK. lia. }
  assert (Hne : skipn (s_pos s) data <> []). { intros E'. apply (f_equal (@length N)) in E'. rewrite skipn_length in E'. cbn in E'. lia. }
  rewrite result_bind in H. apply bind_Ok in H. destruct H as (dec & Hr & H). rewrite (cost_bind _ _ _ _ dec Hr). pose proof (c_rules _ _ _ _ _ _ _ _ Hp Hr) as CR.
  set (C := cost (t_s_rules _ _ _ _ _ _ _)) in *. clearbody C. rewrite r_rules, s_rules_shift in Hr by lia. apply bind_Ok in Hr. destruct Hr as (dec' & Hr & Hs). injection Hs as <-.
  destruct (s_rules_total (skipn (s_pos s) data) true v (s_current s) (s_hist s) w Hne Hl W) as (dec & Hr' & Hj & Hb & Hm). rewrite Hr in Hr'. injection Hr' as <-.
  destruct dec' as [adv|q|]; cbn [shift_dec] in *.
  - destruct (Hj _ eq_refl) as (Ha & H0). rewrite skipn_length in Ha. apply IH in H; [|cbn; lia]. cbn [s_pos s_current] in H. destruct H as (H1 & H2). split; [lia|].
    assert (HM : 2 * (n - (s_pos s + adv)) + bit v + 1 + 1 <= 2 * (n - s_pos s) + bit (s_current s) + 1).
    { destruct adv as [|adv].
      - destruct (H0 eq_refl) as (-> & HL). replace (bit _Lower) with 0 by reflexivity. unfold bit. destruct (N.eqb_spec (s_current s) _Lower); [congruence|]. lia.
      - assert (bit v <= 1) by (unfold bit; destruct (_ =? _)%N; lia). lia. }
    assert (CK : 1 + C <= K) by (unfold K; lia). nia.
  - injection H as <-. rewrite cost_free. split; [lia|]. apply HK. unfold K. lia.
  - discriminate.
Qed.
Lemma loop_some : forall fuel data s, s_pos s <= length data -> result (t_s_loop fuel data true s) <> Ok None.
Proof.
  induction fuel as [|fuel IH]; intros data s Hp H; [discriminate|]. cbn [t_s_loop] in *. destruct (Nat.eqb_spec (s_pos s) (length data)) as [E|E]; [discriminate|].
  cbv zeta in *. unfold slice_from in *. destruct (Nat.ltb_spec (length data) (s_pos s)) as [L'|_]; [lia|]. rewrite result_bind in H. cbn [result free snd bind] in H.
  rewrite result_bind in H. apply bind_Ok in H. destruct H as ([v w] & Hl & H). change (sentences_lookup (skipn (s_pos s) data) = Ok (v, w)) in Hl. destruct (Nat.eqb_spec w 0) as [W|W]; [discriminate|].
  assert (Hne : skipn (s_pos s) data <> []). { intros E'. apply (f_equal (@length N)) in E'. rewrite skipn_length in E'. cbn in E'. lia. }
  rewrite result_bind in H. apply bind_Ok in H. destruct H as (dec & Hr & H). rewrite r_rules, s_rules_shift in Hr by lia. apply bind_Ok in Hr. destruct Hr as (dec' & Hr & Hs). injection Hs as <-.
  destruct (s_rules_total (skipn (s_pos s) data) true v (s_current s) (s_hist s) w Hne Hl W) as (dec & Hr' & Hj & Hb & Hm). rewrite Hr in Hr'. injection Hr' as <-.
  destruct dec' as [adv|q|]; cbn [shift_dec] in *; [|discriminate|discriminate (Hm eq_refl)]. destruct (Hj _ eq_refl) as (Ha & _). rewrite skipn_length in Ha. revert H. apply IH. cbn. lia.
Qed.
Lemma c_split : forall d o, d <> [] -> result (t_splitFunc d true) = Ok o -> exists n, so_advance o = Z.of_nat n /\ 0 < n /\ cost (t_splitFunc d true) <= 2 * n * (length d + 2) + 1.
Proof.
  intros d o Hd H. unfold t_splitFunc in *. destruct d as [|b s]; [congruence|]. set (d := b :: s) in *. change (is_nil d) with false in *. cbv iota in *.
  rewrite result_bind in H. change (slice_from d 0) with (Ok d) in *. cbn [result free snd bind] in H. rewrite (cost_bind _ _ _ _ d) by reflexivity. rewrite cost_free.
  rewrite result_bind in H. apply bind_Ok in H. destruct H as ([v w] & Hl & H). rewrite (cost_bind _ _ _ _ (v, w) Hl). rewrite cost_steps. change (sentences_lookup d = Ok (v, w)) in Hl. destruct (Nat.eqb_spec w 0) as [W|W].
  { cbn [negb] in *. rewrite result_bind in H. apply bind_Ok in H. destruct H as (t & Ht & H). injection H as <-. rewrite (cost_bind _ _ _ _ t) by exact Ht. rewrite !cost_free. exists (length d). split; [reflexivity|].
    split; [cbn; lia|]. lia. }
  destruct (s_lk d Hd) as (v' & w' & Hl' & Hw & _). rewrite Hl in Hl'. injection Hl' as <- <-.
  rewrite result_bind in H. apply bind_Ok in H. destruct H as (r & Hr & H). rewrite (cost_bind _ _ _ _ r Hr). destruct r as [n|]. 2:{ exfalso. revert Hr. apply loop_some. exact Hw. }
  rewrite result_bind in H. apply bind_Ok in H. destruct H as (t & Ht & H). injection H as <-. rewrite (cost_bind _ _ _ _ t) by exact Ht. rewrite !cost_free. apply c_loop in Hr; [|exact Hw]. cbn [s_pos s_current] in Hr. destruct Hr as (H1 & H2).
  exists n. split; [reflexivity|]. split; [lia|]. assert (bit v <= 1) by (unfold bit; destruct (_ =? _)%N; lia). nia.
Qed.

Lemma run_le : forall d, alnum_space_run d <= length d.
Proof. induction d as [|b d IH]; cbn; [lia|]. destruct (isASCIIAlphanumericOrSpace b); lia. Qed.
Lemma c_Next : forall it it', it_pos it <= length (it_data it) -> result (t_Next it) = Ok (true, it') ->
  it_data it' = it_data it /\ it_pos it' <= length (it_data it) /\ it_pos it < it_pos it' /\ cost (t_Next it) + 1 <= (2 * length (it_data it) + 8) * (it_pos it' - it_pos it).
Proof.
  intros it it' Hp H. unfold t_Next in *. destruct (Nat.leb_spec (length (it_data it)) (it_pos it)) as [L|L]; [discriminate|]. cbv zeta in *. cbn [with_pos it_data it_pos it_start] in *.
  unfold slice_from in *. destruct (Nat.ltb_spec (length (it_data it)) (it_pos it)) as [L'|_]; [lia|]. rewrite result_bind in H. cbn [result free snd bind] in H. rewrite (cost_bind _ _ _ _ (skipn (it_pos it) (it_data it))) by reflexivity. rewrite cost_free.
  set (d := skipn (it_pos it) (it_data it)) in *. assert (Hd : length d = length (it_data it) - it_pos it) by apply skipn_length. pose proof (run_le d) as HR. set (k := alnum_space_run d) in *. clearbody k.
  rewrite result_bind in H. cbn [result steps snd bind] in H. rewrite (cost_bind _ _ _ _ k) by reflexivity. rewrite cost_steps. cbn [with_pos it_data it_pos it_start] in *.
  destruct (Nat.leb_spec (length (it_data it)) (it_pos it + k)) as [E|E].
  { injection H as <-. cbn [with_pos it_data it_pos]. rewrite cost_free. split; [reflexivity|]. split; [lia|]. split; [lia|]. assert (1 <= k) by lia. replace (it_pos it + k - it_pos it) with k by lia. nia. }
  set (q := if it_pos it <? it_pos it + k then it_pos it + k - 1 else it_pos it + k) in *. assert (Hq : it_pos it <= q /\ q < length (it_data it) /\ k <= S (q - it_pos it)) by (unfold q; destruct (Nat.ltb_spec (it_pos it) (it_pos it + k)); lia).
  clearbody q. unfold t_next_split in *. cbn [with_pos it_data it_pos it_start] in *. unfold slice_from in *. destruct (Nat.ltb_spec (length (it_data it)) q) as [L'|_]; [lia|].
  rewrite result_bind in H. cbn [result free snd bind] in H. rewrite (cost_bind _ _ _ _ (skipn q (it_data it))) by reflexivity. rewrite cost_free. rewrite result_bind in H. apply bind_Ok in H. destruct H as (o & Ho & H). rewrite (cost_bind _ _ _ _ o Ho).
  assert (Hne : skipn q (it_data it) <> []). { intros E'. apply (f_equal (@length N)) in E'. rewrite skipn_length in E'. cbn in E'. lia. }
  destruct (c_split _ _ Hne Ho) as (n & Hn & Hpos & HC). rewrite Hn in *. rewrite skipn_length in HC. destruct (so_err o); [discriminate|]. destruct (Z.leb_spec (Z.of_nat n) 0); [lia|]. rewrite Nat2Z.id in *.
  destruct (Nat.ltb_spec (length (it_data it)) (q + n)) as [L2|L2]; [discriminate|]. injection H as <-. rewrite cost_free. cbn [with_pos it_data it_pos]. split; [reflexivity|]. split; [lia|]. split; [lia|].
  set (m := q + n - it_pos it). assert (Hm : n <= m /\ k <= m /\ 1 <= m) by (unfold m; lia). clearbody m. set (L0 := length (it_data it)) in *. clearbody L0. set (c := cost _) in *. clearbody c. assert (c <= 2 * m * (L0 + 2) + 1) by nia. nia.
Qed.
Lemma c_false : forall it it', result (t_Next it) = Ok (false, it') -> cost (t_Next it) = 0.
Proof.
  intros it it' H. unfold t_Next in *. destruct (_ <=? _); [reflexivity|]. cbv zeta in *. exfalso. rewrite result_bind in H. apply bind_Ok in H. destruct H as (d & _ & H). rewrite result_bind in H. apply bind_Ok in H. destruct H as (k & _ & H).
  destruct (_ <=? _); [discriminate|]. unfold t_next_split in H. rewrite result_bind in H. apply bind_Ok in H. destruct H as (r & _ & H). rewrite result_bind in H. apply bind_Ok in H. destruct H as (o & _ & H).
  destruct (so_err o); [discriminate|]. destruct (_ <=? _)%Z; [discriminate|]. cbv zeta in H. destruct (_ <? _); discriminate.
Qed.
Theorem s_quadratic : forall d fuel l, result (tcollect t_Next Value fuel (FromBytes d)) = Ok l -> cost (tcollect t_Next Value fuel (FromBytes d)) <= (2 * length d + 8) * length d + 1.
Proof.
  intros d fuel l H.
  pose proof (tcollect_cost _ _ t_Next Value (fun it => it_data it = d /\ it_pos it <= length d) (fun it => (2 * length d + 8) * (length d - it_pos it)) 0) as TC. cbv beta in TC.
  eapply TC in H; [cbn in H; rewrite Nat.sub_0_r in H; lia| | |split; [reflexivity|cbn; lia]].
  - intros it it' (Hi & Hp) HN. destruct (c_Next it it') as (H1 & H2 & H3 & H4); [rewrite Hi; exact Hp|exact HN|]. rewrite Hi in *. split; [split; [congruence|exact H2]|].
    replace (length d - it_pos it) with ((it_pos it' - it_pos it) + (length d - it_pos it')) by lia. rewrite Nat.mul_add_distr_l. lia.
  - intros it it' _ HN. rewrite (c_false _ _ HN). lia.
Qed.

(** ** Lower bound: a full stop and closing parentheses *)
Definition stop_parens (n : nat) : bytes := 0x2E%N :: repeat 0x29%N n.
Lemma lk_paren : forall s, sentences_lookup (0x29%N :: s) = Ok (_Close, 1).
Proof.
  intros s. assert (E : sentences_lookup [0x29%N] = Ok (_Close, 1)) by (vm_compute; reflexivity). destruct (s_lk [0x29%N] ltac:(discriminate)) as (v' & w' & Hl & _ & Hst). rewrite E in Hl. injection Hl as <- <-. exact (Hst ltac:(lia) s).
Qed.
Lemma lk_stop : forall s, sentences_lookup (0x2E%N :: s) = Ok (_ATerm, 1).
Proof.
  intros s. assert (E : sentences_lookup [0x2E%N] = Ok (_ATerm, 1)) by (vm_compute; reflexivity). destruct (s_lk [0x2E%N] ltac:(discriminate)) as (v' & w' & Hl & _ & Hst). rewrite E in Hl. injection Hl as <- <-. exact (Hst ltac:(lia) s).
Qed.
Lemma skipn_step : forall (d : bytes) p x r, skipn p d = x :: r -> skipn (p + 1) d = r.
Proof. induction d as [|y d IH]; intros [|p] x r H; cbn in *; try discriminate; [injection H as <- <-; reflexivity|]. eapply IH. exact H. Qed.
Lemma scan_parens : forall k fuel d p, p <= length d -> k < fuel -> skipn p d = repeat 0x29%N k -> t_sb8_scan fuel d true p = (k, Ok (ScanAt (length d))).
Proof.
  induction k as [|k IH]; intros fuel d p Hp Hf HS; (destruct fuel as [|fuel]; [lia|]); cbn [t_sb8_scan].
  - assert (HL : length d - p = 0) by (rewrite <- skipn_length, HS; reflexivity). replace (p <? length d) with false by (symmetry; apply Nat.ltb_ge; lia). unfold free. do 3 f_equal. lia.
  - assert (HL : length d - p = S k) by (rewrite <- skipn_length, HS, repeat_length; reflexivity). replace (p <? length d) with true by (symmetry; apply Nat.ltb_lt; lia).
    unfold slice_from. replace (length d <? p) with false by (symmetry; apply Nat.ltb_ge; lia). rewrite HS. cbn [repeat]. unfold tbind at 1. cbn [free fst snd]. rewrite lk_paren. unfold tbind. cbn [steps fst snd].
    change (Nat.eqb 1 0) with false. cbv iota. match goal with |- context [is _Close ?m] => change (is _Close m) with false end. cbv iota. rewrite IH; [reflexivity|lia|lia|]. cbn [repeat] in HS. exact (skipn_step _ _ _ _ HS).
Qed.
Definition closing (h : shist) : Prop := h_lastExClose h = _ATerm /\ h_lastExSpClose h = _ATerm.
Lemma closing_close : forall h, closing h -> closing (s_update _Close h).
Proof. intros h (H1 & H2). unfold closing, s_update. cbn [h_lastExClose h_lastExSpClose]. change (is _Close _Ignore) with false. cbn [negb]. change (is _Close _Sp) with false. change (is _Close _Close) with true. cbn [negb]. change (is _Close _Close) with true. cbn [negb]. auto. Qed.
Lemma closing_aterm : closing (s_update _ATerm hist0).
Proof. split; reflexivity. Qed.
Lemma rules_paren : forall d h last p k, p <= length d -> skipn p d = repeat 0x29%N (S k) -> closing h -> last = _ATerm \/ last = _Close ->
  t_s_rules d true _Close last h p 1 = (S k, Ok (SJoin (p + 1))).
Proof.
  intros d h last p k Hp HS (H1 & H2) Hla. unfold t_s_rules.
  assert (HL : length d - p = S k) by (rewrite <- skipn_length, HS, repeat_length; reflexivity).
  replace (N.lor _Close last =? 0)%N with false by (destruct Hla as [-> | ->]; reflexivity). change (is _Close _LF) with false. cbn [andb]. replace (is last _ParaSep) with false by (destruct Hla as [-> | ->]; reflexivity).
  change (is _Close (N.lor _Extend _Format)) with false. change (is _Close _Numeric) with false. change (is _Close _Upper) with false. cbn [andb]. rewrite H2. change (is _ATerm _ATerm) with true. cbv iota.
  rewrite (scan_parens (S k)) by (lia || exact HS). unfold tbind at 1. cbn [fst snd].
  unfold slice_from. rewrite Nat.ltb_irrefl. unfold tbind. cbn [free fst snd]. rewrite skipn_all. cbn [t_subsequent t_subsequent_loop length Nat.ltb Nat.leb free fst snd]. 
  unfold s_rules_tail. change (is _Close (N.lor _SContinue _SATerm)) with false. cbn [andb]. rewrite H1. change (is _Close (N.lor _Close (N.lor _Sp _ParaSep))) with true. change (is _ATerm _SATerm) with true. cbn [andb].
  rewrite !Nat.add_0_r. reflexivity.
Qed.
Lemma loop_parens : forall k fuel d s n, s_pos s <= length d -> skipn (s_pos s) d = repeat 0x29%N k -> closing (s_update (s_current s) (s_hist s)) -> s_current s = _ATerm \/ s_current s = _Close ->
  result (t_s_loop fuel d true s) = Ok n -> k * k <= 2 * cost (t_s_loop fuel d true s).
Proof.
  induction k as [|k IH]; intros fuel d s n Hp HS Hc Hla H; [lia|]. destruct fuel as [|fuel]; [discriminate|]. cbn [t_s_loop] in *. cbv zeta in *.
  assert (HL : length d - s_pos s = S k) by (rewrite <- skipn_length, HS, repeat_length; reflexivity). destruct (Nat.eqb_spec (s_pos s) (length d)) as [E|E]; [lia|].
  unfold slice_from in *. destruct (Nat.ltb_spec (length d) (s_pos s)) as [L'|_]; [lia|]. rewrite result_bind in H. cbn [result free snd bind] in H. rewrite (cost_bind _ _ _ _ (skipn (s_pos s) d)) by reflexivity. rewrite cost_free.
  assert (Hl : sentences_lookup (skipn (s_pos s) d) = Ok (_Close, 1)) by (rewrite HS; apply lk_paren). rewrite Hl in *. rewrite result_bind in H. cbn [result steps snd bind] in H. rewrite (cost_bind _ _ _ _ (_Close, 1)) by reflexivity. rewrite cost_steps.
  change (Nat.eqb 1 0) with false in *. cbv iota in *. rewrite (rules_paren _ _ _ _ k Hp HS Hc Hla) in *. rewrite result_bind in H. cbn [result snd bind] in H. rewrite (cost_bind _ _ _ _ (SJoin (s_pos s + 1))) by reflexivity. change (cost (S k, Ok (SJoin (s_pos s + 1)))) with (S k). cbv iota in *.
  apply IH in H; [nia|cbn; lia| | |right; reflexivity]; cbn [s_pos s_current s_hist]. { cbn [repeat] in HS. exact (skipn_step _ _ _ _ HS). } apply closing_close. exact Hc.
Qed.
Lemma next_parens : forall n r, result (t_Next (FromBytes (stop_parens n))) = Ok r -> n * n <= 2 * cost (t_Next (FromBytes (stop_parens n))).
Proof.
  intros n r H. unfold t_Next, FromBytes in *. cbn [with_pos it_data it_pos it_start] in *. cbv zeta in *. set (d := stop_parens n) in *. assert (HL : length d = S n) by (unfold d, stop_parens; cbn; rewrite repeat_length; reflexivity).
  replace (length d <=? 0) with false in * by (symmetry; apply Nat.leb_gt; lia). change (slice_from d 0) with (Ok d) in *. rewrite result_bind in H. cbn [result free snd bind] in H. rewrite (cost_bind _ _ _ _ d) by reflexivity.
  change (alnum_space_run d) with 0 in *. rewrite result_bind in H. cbn [result steps snd bind] in H. rewrite (cost_bind _ _ _ _ 0) by reflexivity. cbn [with_pos it_data it_pos it_start Nat.add] in *. replace (length d <=? 0) with false in * by (symmetry; apply Nat.leb_gt; lia).
  change (0 <? 0) with false in *. cbv iota in *. unfold t_next_split in *. cbn [with_pos it_data it_pos it_start Nat.add] in *. change (slice_from d 0) with (Ok d) in *. rewrite result_bind in H. cbn [result free snd bind] in H. rewrite (cost_bind _ _ _ _ d) by reflexivity.
  rewrite result_bind in H. apply bind_Ok in H. destruct H as (o & Ho & H). rewrite (cost_bind _ _ _ _ o Ho). unfold t_splitFunc in *. change (is_nil d) with false in *. cbv iota in *. change (slice_from d 0) with (Ok d) in *.
  rewrite result_bind in Ho. cbn [result free snd bind] in Ho. rewrite (cost_bind _ _ _ _ d) by reflexivity. assert (Hl : sentences_lookup d = Ok (_ATerm, 1)) by apply lk_stop. rewrite Hl in *. rewrite result_bind in Ho. cbn [result steps snd bind] in Ho. rewrite (cost_bind _ _ _ _ (_ATerm, 1)) by reflexivity.
  change (Nat.eqb 1 0) with false in *. cbv iota in *. rewrite result_bind in Ho. apply bind_Ok in Ho. destruct Ho as (q & Hq & Ho). rewrite (cost_bind _ _ _ _ q Hq). apply (loop_parens n) in Hq; cbn [s_pos s_current s_hist]; [lia|lia|reflexivity|exact closing_aterm|left; reflexivity].
Qed.
Theorem parens_cost : forall n fuel l, result (tcollect t_Next Value fuel (FromBytes (stop_parens n))) = Ok l -> n * n <= 2 * cost (tcollect t_Next Value fuel (FromBytes (stop_parens n))).
Proof.
  intros n fuel l H. destruct fuel as [|fuel]; [discriminate|]. cbn [tcollect] in *. rewrite result_bind in H. apply bind_Ok in H. destruct H as ([b it'] & HN & H). rewrite (cost_bind _ _ _ _ (b, it') HN).
  rewrite result_bind in HN. cbn [result steps snd bind] in HN. rewrite (cost_bind _ _ _ _ tt) by reflexivity. apply next_parens in HN. lia.
Qed.
