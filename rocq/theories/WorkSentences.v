(** The counting functions of CountSentences.v for data that a Scanner may hand over, and a bound that depends on the sentences and not on the data: to cut a sentence the next one is looked into, and no further. *)
From Verif Require Import Base ListFacts LookupFacts Trie TableSentences BitFacts Cost Engine Sentences CountSentences SentencesEngine Lk SpecIter SpecApi SpecJoiners Prompt PromptSentences CostSentences.
Local Open Scope nat_scope.

Lemma c_loop : forall fuel data e s r, s_pos s <= length data -> result (t_s_loop fuel data e s) = Ok r ->
  let n := match r with Some n => n | None => length data end in
  s_pos s <= n /\ cost (t_s_loop fuel data e s) <= (2 * (n - s_pos s) + bit (s_current s) + 1) * (length data + 2).
Proof.
  induction fuel as [|fuel IH]; intros data e s r Hp H; [discriminate|]. cbn [t_s_loop] in *. destruct (Nat.eqb_spec (s_pos s) (length data)) as [E|E].
  { destruct e; cbn [negb] in *; injection H as <-; rewrite cost_free; lia. }
  cbv zeta in *. unfold slice_from in *. destruct (Nat.ltb_spec (length data) (s_pos s)) as [L'|_]; [lia|].
  rewrite result_bind in H. cbn [result free snd bind] in H. rewrite (cost_bind _ _ _ _ (skipn (s_pos s) data)) by reflexivity. rewrite cost_free.
  rewrite result_bind in H. apply bind_Ok in H. destruct H as ([v w] & Hl & H). rewrite (cost_bind _ _ _ _ (v, w) Hl), cost_steps. change (sentences_lookup (skipn (s_pos s) data) = Ok (v, w)) in Hl.
  set (K := length data + 2) in *.
  assert (HK : forall a x, x <= K -> x <= (2 * a + bit (s_current s) + 1) * K) by (intros; nia).
  destruct (Nat.eqb_spec w 0) as [W|W]. { destruct e; injection H as <-; rewrite cost_free; (split; [lia|]); apply HK; lia. }
  assert (Hne : skipn (s_pos s) data <> []). { intros E'. apply (f_equal (@length N)) in E'. rewrite skipn_length in E'. cbn in E'. lia. }
  rewrite result_bind in H. apply bind_Ok in H. destruct H as (dec & Hr & H). rewrite (cost_bind _ _ _ _ dec Hr). pose proof (c_rules _ _ _ _ _ _ _ _ Hp Hr) as CR.
  set (C := cost (t_s_rules _ _ _ _ _ _ _)) in *. clearbody C. rewrite r_rules, s_rules_shift in Hr by lia. apply bind_Ok in Hr. destruct Hr as (dec' & Hr & Hs). injection Hs as <-.
  destruct (s_rules_total (skipn (s_pos s) data) e v (s_current s) (s_hist s) w Hne Hl W) as (dec & Hr' & Hj & Hb & Hm). rewrite Hr in Hr'. injection Hr' as <-.
  destruct dec' as [adv|q|]; cbn [shift_dec] in *.
  - destruct (Hj _ eq_refl) as (Ha & H0). rewrite skipn_length in Ha. apply IH in H; [|cbn; lia]. cbn [s_pos s_current] in H. set (n := match r with Some n => n | None => length data end) in *. destruct H as (H1 & H2). split; [lia|].
    assert (HM : 2 * (n - (s_pos s + adv)) + bit v + 1 + 1 <= 2 * (n - s_pos s) + bit (s_current s) + 1).
    { destruct adv as [|adv].
      - destruct (H0 eq_refl) as (-> & HL). replace (bit _Lower) with 0 by reflexivity. unfold bit. destruct (N.eqb_spec (s_current s) _Lower); [congruence|]. lia.
      - assert (bit v <= 1) by (unfold bit; destruct (_ =? _)%N; lia). lia. }
    assert (CK : 1 + C <= K) by (unfold K; lia). nia.
  - injection H as <-. rewrite cost_free. split; [lia|]. apply HK. unfold K. lia.
  - injection H as <-. rewrite cost_free. split; [lia|]. apply HK. unfold K. lia.
Qed.
Lemma c_split : forall d e o, d <> [] -> result (t_splitFunc d e) = Ok o ->
  (forall n, 0 < n -> so_advance o = Z.of_nat n -> cost (t_splitFunc d e) <= 2 * n * (length d + 2) + 1) /\ cost (t_splitFunc d e) <= 2 * length d * (length d + 2) + 1.
Proof.
  intros d e o Hd H. unfold t_splitFunc in *. destruct d as [|b s]; [congruence|]. set (d := b :: s) in *. change (is_nil d) with false in *. cbv iota in *.
  rewrite result_bind in H. change (slice_from d 0) with (Ok d) in *. cbn [result free snd bind] in H. rewrite (cost_bind _ _ _ _ d) by reflexivity. rewrite cost_free.
  rewrite result_bind in H. apply bind_Ok in H. destruct H as ([v w] & Hl & H). rewrite (cost_bind _ _ _ _ (v, w) Hl). rewrite cost_steps. change (sentences_lookup d = Ok (v, w)) in Hl. destruct (Nat.eqb_spec w 0) as [W|W].
  { destruct e; cbn [negb] in *; [|injection H as <-; rewrite cost_free; split; intros; lia].
    rewrite result_bind in H. apply bind_Ok in H. destruct H as (t & Ht & H). injection H as <-. rewrite (cost_bind _ _ _ _ t) by exact Ht. rewrite !cost_free. split; intros; lia. }
  destruct (s_lk d Hd) as (v' & w' & Hl' & Hw & _). rewrite Hl in Hl'. injection Hl' as <- <-.
  rewrite result_bind in H. apply bind_Ok in H. destruct H as (r & Hr & H). rewrite (cost_bind _ _ _ _ r Hr). apply c_loop in Hr; [|exact Hw]. cbn [s_pos s_current] in Hr. cbv zeta in Hr. assert (bit v <= 1) by (unfold bit; destruct (_ =? _)%N; lia).
  destruct r as [n|].
  - rewrite result_bind in H. apply bind_Ok in H. destruct H as (t & Ht & H). injection H as <-. rewrite (cost_bind _ _ _ _ t) by exact Ht. rewrite !cost_free. destruct Hr as (H1 & H2).
    assert (Hnd : n <= length d). { change (slice_to d n = Ok t) in Ht. unfold slice_to in Ht. destruct (Nat.ltb_spec (length d) n); [discriminate|assumption]. }
    assert (HN : 1 + (2 * (n - w) + bit v + 1) * (length d + 2) <= 2 * n * (length d + 2) + 1) by nia. split; [|nia].
    intros m Hm E. assert (EL : Z.of_nat n = Z.of_nat m) by exact E. assert (m = n) by lia. subst m. lia.
  - injection H as <-. rewrite cost_free. destruct Hr as (H1 & H2). split; [|nia]. intros m Hm E. cbn in E. lia.
Qed.

(** ** What comes after does not matter *)
Lemma lk_more : forall d x i v w, i < length d -> sentences_lookup (skipn i d) = Ok (v, w) -> w <> 0 -> i + w <= length d /\ sentences_lookup (skipn i (d ++ x)) = Ok (v, w).
Proof.
  intros d x i v w Hi Hl Hw. destruct (s_lk (skipn i d)) as (v' & w' & Hl' & HW & Hst). { intros E. apply (f_equal (@length N)) in E. rewrite skipn_length in E. cbn in E. lia. }
  rewrite Hl in Hl'. injection Hl' as <- <-. rewrite skipn_length in HW. split; [lia|]. rewrite skipn_app_le by lia. exact (Hst Hw x).
Qed.
Lemma slice_in : forall (d x : bytes) i, i <= length d -> slice_from d i = Ok (skipn i d) /\ slice_from (d ++ x) i = Ok (skipn i (d ++ x)).
Proof. intros d x i Hi. unfold slice_from. rewrite app_length. split; rewrite (proj2 (Nat.ltb_ge _ _)) by lia; reflexivity. Qed.
Lemma tb_free : forall A B (a : A) (f : A -> T B), tbind (free (Ok a)) f = f a.
Proof. intros A B a f. unfold tbind. cbn [free snd fst]. destruct (f a); reflexivity. Qed.
Lemma tb_ok : forall A B c (a : A) (f : A -> T B), tbind (c, Ok a) f = (c + fst (f a), snd (f a)).
Proof. reflexivity. Qed.
Lemma cost_ends : forall A B (z : res A) (k : A -> res B), cost (tbind (free z) (fun a => free (k a))) = 0.
Proof. intros A B [a| |] k; reflexivity. Qed.
Lemma st_sub : forall fuel fuel' p d x e i r, fuel <= fuel' -> i <= length d -> result (t_subsequent_loop fuel p d false i) = Ok (r, false) -> t_subsequent_loop fuel' p (d ++ x) e i = t_subsequent_loop fuel p d false i.
Proof.
  induction fuel as [|fuel IH]; intros fuel' p d x e i r Hf Hi H; [discriminate|]. destruct fuel' as [|fuel']; [lia|]. cbn [t_subsequent_loop] in *. destruct (Nat.ltb_spec i (length d)) as [L|L]; [|discriminate].
  rewrite (proj2 (Nat.ltb_lt i (length (d ++ x)))) by (rewrite app_length; lia). destruct (slice_in d x i Hi) as (S1 & S2). rewrite S1 in *. rewrite S2. rewrite !tb_free.
  rewrite result_bind in H. cbn [free result snd bind] in H. rewrite result_bind in H. apply bind_Ok in H. destruct H as ([v w] & Hl & H). change (sentences_lookup (skipn i d) = Ok (v, w)) in Hl.
  destruct (Nat.eqb_spec w 0) as [W|W]; [discriminate|]. destruct (lk_more d x i v w L Hl W) as (HB & HL). rewrite HL, Hl. unfold steps at 1 2. rewrite !tb_ok. rewrite (proj2 (Nat.eqb_neq w 0) W).
  destruct (is v _Ignore); [|destruct (is v p); reflexivity]. rewrite (IH fuel' p d x e (i + w) r) by (try lia; exact H). reflexivity.
Qed.
Lemma st_scan : forall fuel fuel' d x e p q, fuel <= fuel' -> p <= length d -> result (t_sb8_scan fuel d false p) = Ok (ScanAt q) -> q < length d -> t_sb8_scan fuel' (d ++ x) e p = t_sb8_scan fuel d false p.
Proof.
  induction fuel as [|fuel IH]; intros fuel' d x e p q Hf Hp H Hq; [discriminate|]. destruct fuel' as [|fuel']; [lia|]. cbn [t_sb8_scan] in *. destruct (Nat.ltb_spec p (length d)) as [L|L].
  2:{ injection H as <-. lia. }
  rewrite (proj2 (Nat.ltb_lt p (length (d ++ x)))) by (rewrite app_length; lia). destruct (slice_in d x p Hp) as (S1 & S2). rewrite S1 in *. rewrite S2. rewrite !tb_free.
  rewrite result_bind in H. cbn [free result snd bind] in H. rewrite result_bind in H. apply bind_Ok in H. destruct H as ([v w] & Hl & H). change (sentences_lookup (skipn p d) = Ok (v, w)) in Hl.
  destruct (Nat.eqb_spec w 0) as [W|W]; [discriminate|]. destruct (lk_more d x p v w L Hl W) as (HB & HL). rewrite HL, Hl. unfold steps at 1 2. rewrite !tb_ok. rewrite (proj2 (Nat.eqb_neq w 0) W).
  destruct (is v _); [reflexivity|]. rewrite (IH fuel' d x e (p + w) q) by (try lia; exact H). reflexivity.
Qed.
Lemma st_rules : forall d x e cu la h p w dec, p <= length d -> result (t_s_rules d false cu la h p w) = Ok dec -> dec <> SMore -> t_s_rules (d ++ x) e cu la h p w = t_s_rules d false cu la h p w.
Proof.
  intros d x e cu la h p w dec Hp H Hd. unfold t_s_rules in *.
  repeat match goal with |- (if ?c then free _ else _) = _ => destruct c; [reflexivity|] end.
  destruct (is _ _ATerm); [|reflexivity]. rewrite result_bind in H. apply bind_Ok in H. destruct H as (sc & Hs & H). destruct sc as [q| |].
  - rewrite result_bind in H. apply bind_Ok in H. destruct H as (dq & Hdq & H). change (slice_from d q = Ok dq) in Hdq. rewrite result_bind in H. apply bind_Ok in H. destruct H as ([adv m] & Hb & H). destruct m; [injection H as <-; congruence|].
    assert (Hq : q < length d).
    { unfold slice_from in Hdq. destruct (Nat.ltb_spec (length d) q) as [L|L]; [discriminate|]. destruct (Nat.eq_dec q (length d)) as [->|NE]; [|lia]. injection Hdq as <-. rewrite skipn_all in Hb. discriminate. }
    pose proof (st_scan (S (length d)) (S (length (d ++ x))) d x e p q ltac:(rewrite app_length; lia) Hp Hs Hq) as ES. rewrite ES. destruct (t_sb8_scan (S (length d)) d false p) as [c r]. cbn [result snd] in Hs. subst r. rewrite !tb_ok.
    destruct (slice_in d x q ltac:(lia)) as (S1 & S2). rewrite S1 in *. rewrite S2. injection Hdq as <-. rewrite !tb_free. unfold t_subsequent in *. rewrite skipn_app_le by lia.
    rewrite (st_sub (S (length (skipn q d))) (S (length (skipn q d ++ x))) _Lower (skipn q d) x e 0 adv) by (try (rewrite app_length; lia); try lia; exact Hb). reflexivity.
  - exfalso. clear H. revert Hs. generalize (S (length d)). intros fuel. revert p Hp. induction fuel as [|fuel IH]; intros p Hp Hs; [discriminate|]. cbn [t_sb8_scan] in Hs. destruct (Nat.ltb_spec p (length d)) as [L|L]; [|discriminate].
    destruct (slice_in d x p Hp) as (S1 & _). rewrite S1 in Hs. rewrite result_bind in Hs. cbn [free result snd bind] in Hs. rewrite result_bind in Hs. apply bind_Ok in Hs. destruct Hs as ([v w'] & Hl & Hs). change (sentences_lookup (skipn p d) = Ok (v, w')) in Hl.
    destruct (Nat.eqb_spec w' 0) as [W|W]; [discriminate|]. destruct (lk_more d x p v w' L Hl W) as (HB & _). destruct (is v _); [discriminate|]. exact (IH (p + w') HB Hs).
  - injection H as <-. congruence.
Qed.
Lemma st_loop : forall fuel fuel' d x e s n, fuel <= fuel' -> s_pos s <= length d -> result (t_s_loop fuel d false s) = Ok (Some n) -> t_s_loop fuel' (d ++ x) e s = t_s_loop fuel d false s.
Proof.
  induction fuel as [|fuel IH]; intros fuel' d x e s n Hf Hp H; [discriminate|]. destruct fuel' as [|fuel']; [lia|]. cbn [t_s_loop] in *. destruct (Nat.eqb_spec (s_pos s) (length d)) as [E|E]; [discriminate|].
  rewrite (proj2 (Nat.eqb_neq (s_pos s) (length (d ++ x)))) by (rewrite app_length; lia). cbv zeta in *. destruct (slice_in d x (s_pos s) Hp) as (S1 & S2). rewrite S1 in *. rewrite S2. rewrite !tb_free.
  rewrite result_bind in H. cbn [free result snd bind] in H. rewrite result_bind in H. apply bind_Ok in H. destruct H as ([v w] & Hl & H). change (sentences_lookup (skipn (s_pos s) d) = Ok (v, w)) in Hl.
  destruct (Nat.eqb_spec w 0) as [W|W]; [discriminate|]. destruct (lk_more d x (s_pos s) v w ltac:(lia) Hl W) as (HB & HL). rewrite HL, Hl. unfold steps at 1 2. rewrite !tb_ok. rewrite (proj2 (Nat.eqb_neq w 0) W).
  rewrite result_bind in H. apply bind_Ok in H. destruct H as (dec & Hr & H). assert (HD : dec <> SMore) by (intros ->; discriminate). rewrite (st_rules d x e _ _ _ _ _ dec Hp Hr HD).
  pose proof Hr as Hr'. destruct (t_s_rules d false v (s_current s) (s_update (s_current s) (s_hist s)) (s_pos s) w) as [c r]. cbn [result snd] in Hr. subst r. rewrite !tb_ok. destruct dec as [q|q|]; [|reflexivity|congruence].
  assert (Hq : q <= length d).
  { destruct fuel as [|fuel0]; [discriminate|]. cbn [t_s_loop s_pos] in H. destruct (Nat.eqb_spec q (length d)); [lia|]. cbv zeta in H. unfold slice_from in H. destruct (Nat.ltb_spec (length d) q); [discriminate|lia]. }
  rewrite (IH fuel' d x e _ n) by (try lia; try exact Hq; exact H). reflexivity.
Qed.
Lemma st_split : forall d x e n tok, splitFunc d false = Ok (e_done n tok) -> cost (t_splitFunc (d ++ x) e) = cost (t_splitFunc d false).
Proof.
  intros d x e n tok H. rewrite <- r_split in H. unfold t_splitFunc in *. destruct d as [|b s]; [discriminate|]. cbn [is_nil app] in *. change (b :: s ++ x) with ((b :: s) ++ x). set (d := b :: s) in *. cbv iota in *.
  change (slice_from d 0) with (Ok d) in *. change (slice_from (d ++ x) 0) with (Ok (d ++ x)). rewrite result_bind in H. cbn [free result snd bind] in H. rewrite (cost_bind _ _ _ _ (d ++ x)) by reflexivity. rewrite (cost_bind _ _ _ _ d) by reflexivity. rewrite !cost_free.
  rewrite result_bind in H. apply bind_Ok in H. destruct H as ([v w] & Hl & H). change (sentences_lookup d = Ok (v, w)) in Hl. destruct (Nat.eqb_spec w 0) as [W|W]; [discriminate|].
  destruct (lk_more d x 0 v w ltac:(cbn; lia) Hl W) as (HB & HL). cbn [skipn] in HL. rewrite (cost_bind _ _ (steps 1 (sentences_lookup (d ++ x))) _ (v, w)) by exact HL. rewrite (cost_bind _ _ (steps 1 (sentences_lookup d)) _ (v, w)) by exact Hl. rewrite !cost_steps.
  rewrite (proj2 (Nat.eqb_neq w 0) W). rewrite result_bind in H. apply bind_Ok in H. destruct H as (r & Hr & H). destruct r as [m|]; [|discriminate].
  pose proof (st_loop (2 * length d + 2) (2 * length (d ++ x) + 2) d x e {| s_pos := w; s_current := v; s_hist := hist0 |} m ltac:(rewrite app_length; lia) HB Hr) as HE.
  rewrite (cost_bind _ _ (t_s_loop (2 * length (d ++ x) + 2) _ _ _) _ (Some m)) by (rewrite HE; exact Hr). rewrite (cost_bind _ _ (t_s_loop (2 * length d + 2) _ _ _) _ (Some m)) by exact Hr. rewrite HE.
  rewrite !cost_ends. reflexivity.
Qed.

(** ** The bound *)
Lemma first_done : forall d m, splitFunc (firstn m d) false = Ok e_more \/ exists m' n, m' < m /\ splitFunc (firstn m' d) false = Ok e_more /\ 0 < n <= length (firstn (S m') d) /\ splitFunc (firstn (S m') d) false = Ok (e_done n (firstn n (firstn (S m') d)))
  /\ (forall t b, splitFunc (firstn (S m') d ++ t) b = Ok (e_done n (firstn n (firstn (S m') d)))).
Proof.
  intros d. induction m as [|m IH]; [left; apply (so_nil _ s_split_ok)|]. destruct IH as [HM|(m' & n & Hm & H)]; [|right; exists m', n; split; [lia|exact H]].
  destruct (so_stream _ s_split_ok (firstn (S m) d)) as [H|(n & Hn & H & Hst)]; [left; exact H|]. right. exists m, n. split; [lia|]. split; [exact HM|]. split; [exact Hn|]. split; [exact H|exact Hst].
Qed.
Lemma c_near : forall d x e n tok l, d <> [] -> splitFunc d e = Ok (e_done n tok) -> 0 < n -> (e = true -> x = []) -> tokens_by splitFunc (d ++ x) l -> cost (t_splitFunc d e) <= 2 * n * (length (concat (firstn 2 l)) + 6) + 1.
Proof.
  intros d x e n tok l Hd H Hn He HT. set (c := length (concat (firstn 2 l))). destruct (first_done d (length d)) as [HM|(m & n' & Hm & HM & Hn' & H1 & Hst)].
  - rewrite firstn_all in HM. assert (length d <= c + 3) by exact (s_prompt _ _ _ HM HT). destruct (c_split d e (e_done n tok) Hd) as (H2 & _); [rewrite r_split; exact H|]. specialize (H2 n Hn eq_refl). nia.
  - assert (HL : length (firstn m d) = m) by (rewrite firstn_length; lia).
    rewrite <- (firstn_skipn m d), <- app_assoc in HT. pose proof (s_prompt _ _ _ HM HT) as HP. rewrite HL in HP. fold c in HP.
    pose proof (Hst (skipn (S m) d) e) as HE. rewrite firstn_skipn, H in HE. assert (n' = n) by (unfold e_done in HE; injection HE; lia). subst n'.
    rewrite <- (firstn_skipn (S m) d). rewrite (st_split _ _ e _ _ H1). assert (HN : firstn (S m) d <> []) by (intros E; rewrite E in Hn'; cbn in Hn'; lia).
    destruct (c_split _ false _ HN (eq_trans (r_split _ _) H1)) as (H2 & _). specialize (H2 n Hn eq_refl). assert (length (firstn (S m) d) <= c + 4) by (rewrite firstn_length; lia). nia.
Qed.
