(** The counting functions of CountPhrases.v: same results, and a linear bound on the steps. *)
From Verif Require Import Base ListFacts LookupFacts Trie TablePhrases BitFacts Cost CostScan Engine Phrases CountPhrases Lk SpecIter SpecApi.
Local Open Scope nat_scope.

(** ** Results *)
Lemma r_sub_loop : forall fuel p d e i, result (t_subsequent_loop fuel p d e i) = subsequent_loop fuel p d e i.
Proof.
  induction fuel as [|fuel IH]; intros p d e i; [reflexivity|]. cbn [t_subsequent_loop subsequent_loop]. destruct (i <? length d); [|destruct e; reflexivity].
  rewrite result_bind. apply bind_ext; [reflexivity|]. intros d'. rewrite result_bind. apply bind_ext; [reflexivity|]. intros [v w]. destruct (Nat.eqb w 0); [destruct e; reflexivity|].
  destruct (is v _Ignore); [apply IH|]. destruct (is v p); reflexivity.
Qed.
Lemma r_sub : forall p d e, result (t_subsequent p d e) = subsequent p d e.
Proof. intros. apply r_sub_loop. Qed.
Lemma r_look : forall c p a e w ri tn n, result tn = n -> result (t_lookahead c p a e w ri tn) = lookahead c p a e w ri n.
Proof. intros c p a e w ri tn n H. unfold t_lookahead, lookahead. destruct c; [|exact H]. rewrite result_bind. apply bind_ext; [apply r_sub|]. intros [adv [|]]; [reflexivity|]. destruct adv; [reflexivity|exact H]. Qed.
Ltac ifs := repeat match goal with |- result (if ?c then _ else _) = (if ?c then _ else _) => destruct c; try reflexivity end.
Lemma r_rules : forall cu la le ll ri w a e, result (t_p_rules cu la le ll ri w a e) = p_rules cu la le ll ri w a e.
Proof. intros. unfold t_p_rules, p_rules. ifs. apply r_look. ifs. apply r_look. ifs. apply r_look. ifs. Qed.
Lemma r_loop : forall fuel data e s, result (t_p_loop fuel data e s) = p_loop fuel data e s.
Proof.
  induction fuel as [|fuel IH]; intros data e s; [reflexivity|]. cbn [t_p_loop p_loop]. destruct (Nat.eqb _ _). { destruct e; reflexivity. }
  cbv zeta. rewrite result_bind. apply bind_ext; [reflexivity|]. intros d. rewrite result_bind. apply bind_ext; [reflexivity|]. intros [v w].
  destruct (Nat.eqb w 0). { destruct e; reflexivity. } rewrite result_bind. apply bind_ext; [reflexivity|]. intros a.
  rewrite result_bind. apply bind_ext; [apply r_rules|]. intros [adv ri| |]; [apply IH|reflexivity|reflexivity].
Qed.
Lemma r_split : forall d e, result (t_splitFunc d e) = splitFunc d e.
Proof.
  intros d e. unfold t_splitFunc, splitFunc. destruct (is_nil d); [reflexivity|]. rewrite result_bind. apply bind_ext; [reflexivity|]. intros d'. rewrite result_bind. apply bind_ext; [reflexivity|]. intros [v w].
  destruct (Nat.eqb w 0). { destruct e; [|reflexivity]. cbn [negb]. rewrite result_bind. reflexivity. }
  cbv zeta. rewrite result_bind. apply bind_ext; [apply r_loop|]. intros [n|]; [rewrite result_bind|]; reflexivity.
Qed.
Lemma r_next_split : forall it, result (t_next_split it) = next_split it.
Proof.
  intros it. unfold t_next_split, next_split. rewrite result_bind. apply bind_ext; [reflexivity|]. intros d. rewrite result_bind. apply bind_ext; [apply r_split|]. intros o.
  destruct (so_err o); [reflexivity|]. destruct (so_advance o <=? 0)%Z; [reflexivity|]. cbv zeta. destruct (_ <? _); reflexivity.
Qed.
Lemma r_Next : forall it, result (t_Next it) = Next it.
Proof.
  intros it. unfold t_Next, Next. destruct (_ <=? _); [reflexivity|]. cbv zeta. rewrite result_bind. apply bind_ext; [reflexivity|]. intros d. rewrite result_bind, result_steps. cbn [bind]. destruct (_ <=? _); [reflexivity|apply r_next_split].
Qed.

(** ** Bounds *)
Notation ign := (fun v => is v _Ignore).
Notation ig := (ig phrases_lookup ign).
Notation wt := (wt phrases_lookup ign).
Notation hd_ := (hd_ phrases_lookup ign).
Notation tl_ := (tl_ phrases_lookup ign).
Lemma c_subs : forall p d r, result (t_subsequent p d true) = Ok r -> cost (t_subsequent p d true) <= 1 + ig d /\ (forall a, fst r = Some a -> wt (skipn a d) = wt d).
Proof.
  intros p d r H. unfold t_subsequent in *. change t_subsequent_loop with (g_sub phrases_lookup ign) in *. apply c_sub in H; [|lia]. cbn [skipn] in H. destruct H as (H1 & H2). split; [exact H1|]. intros a Ha. apply H2. exact Ha.
Qed.
Definition good (w : nat) (after : bytes) (dec : pdecision) : Prop := forall adv ri, dec = PJoin adv ri -> w <= adv /\ wt (skipn (adv - w) after) = wt after.
Lemma good_w : forall w after ri, good w after (PJoin w ri).
Proof. intros w after ri adv ri' [= <- <-]. rewrite Nat.sub_diag. auto. Qed.
Lemma good_b : forall w after, good w after PBreak.
Proof. intros w after adv ri H. discriminate. Qed.
Lemma c_look : forall k c p a w ri tn dec, (forall x, result tn = Ok x -> cost tn <= k * (1 + ig a) /\ good w a x) -> result (t_lookahead c p a true w ri tn) = Ok dec ->
  cost (t_lookahead c p a true w ri tn) <= S k * (1 + ig a) /\ good w a dec.
Proof.
  intros k c p a w ri tn dec HN H. unfold t_lookahead in *. destruct c. 2:{ destruct (HN _ H) as (H1 & H2). split; [|exact H2]. cbn [Nat.mul]. lia. }
  rewrite result_bind in H. apply bind_Ok in H. destruct H as (r & Hr & H). rewrite (cost_bind _ _ _ _ r Hr). destruct (c_subs _ _ _ Hr) as (H1 & H2). destruct r as [adv [|]]; cbn [fst] in H2.
  - injection H as <-. rewrite cost_free. split; [cbn [Nat.mul]; lia|]. intros adv' ri' HH. discriminate.
  - destruct adv as [n|].
    + injection H as <-. rewrite cost_free. split; [cbn [Nat.mul]; lia|]. intros adv' ri' [= <- <-]. split; [lia|]. replace (w + n - w) with n by lia. apply H2. reflexivity.
    + destruct (HN _ H) as (H3 & H4). split; [cbn [Nat.mul]; lia|exact H4].
Qed.
Ltac leaf := match goal with H : result (free (Ok _)) = Ok _ |- _ => injection H as <-; rewrite ?cost_free; split; [try reflexivity; lia|first [apply good_w|apply good_b]] end.
Ltac cifs := repeat match goal with H : result (if ?c then _ else _) = Ok _ |- _ => destruct c; try leaf end.
Lemma c_rules : forall cu la le ll ri w a dec, result (t_p_rules cu la le ll ri w a true) = Ok dec ->
  cost (t_p_rules cu la le ll ri w a true) <= (if is cu _Ignore then 0 else 3 * (1 + ig a)) /\ good w a dec.
Proof.
  intros cu la le ll ri w a dec H. unfold t_p_rules in *. change (N.lor _Extend (N.lor _Format _ZWJ)) with _Ignore in *.
  destruct (N.eqb _ _); [leaf|]. destruct (_ && _); [leaf|]. destruct (is (N.lor _ _) _); [leaf|]. destruct (_ && _); [leaf|]. destruct (is (N.land _ _) _); [leaf|]. destruct (is cu _Ignore); [leaf|]. destruct (_ && _); [leaf|].
  revert H. apply (c_look 2). intros x H. do 2 (destruct (_ && _); [leaf|]).
  revert H. apply (c_look 1). intros y H. do 3 (destruct (_ && _); [leaf|]).
  revert H. apply (c_look 0). intros z H. cifs.
Qed.

Lemma c_loop : forall fuel data s n, result (t_p_loop fuel data true s) = Ok (Some n) ->
  p_pos s <= n /\ cost (t_p_loop fuel data true s) + 3 * wt (skipn n data) <= 1 * (n - p_pos s + 1) + 3 * wt (skipn (p_pos s) data) + 3 * hd_ (skipn n data).
Proof.
  induction fuel as [|fuel IH]; intros data s n H; [discriminate|]. cbn [t_p_loop] in *. destruct (Nat.eqb_spec (p_pos s) (length data)) as [E|E].
  { cbn [negb] in *. injection H as <-. rewrite cost_free. lia. }
  cbv zeta in *. rewrite result_bind, result_free in H. unfold slice_from in *. destruct (Nat.ltb_spec (length data) (p_pos s)) as [El|El]; [discriminate|]. cbn [bind] in H.
  rewrite (cost_bind _ _ _ _ (skipn (p_pos s) data)) by reflexivity. rewrite cost_free. rewrite result_bind, result_steps in H. apply bind_Ok in H. destruct H as ([v w] & Hl & H).
  rewrite (cost_bind _ _ _ _ (v, w)) by exact Hl. rewrite cost_steps. destruct (Nat.eqb_spec w 0) as [W|W].
  { injection H as <-. rewrite cost_free, skipn_all. change (wt []) with 0. lia. }
  assert (Hne : skipn (p_pos s) data <> []). { intros E'. apply (f_equal (@length N)) in E'. rewrite skipn_length in E'. cbn in E'. lia. }
  rewrite result_bind, result_free in H. apply bind_Ok in H. destruct H as (after & Ha & H). rewrite (cost_bind _ _ _ _ after) by exact Ha. rewrite cost_free. destruct (length data <? p_pos s + w); [discriminate|]. injection Ha as <-.
  rewrite result_bind in H. apply bind_Ok in H. destruct H as (dec & Hr & H). rewrite (cost_bind _ _ _ _ dec Hr). apply c_rules in Hr. destruct Hr as (CR & GD).
  assert (HD : hd_ (skipn (p_pos s) data) = if is v _Ignore then 0 else 1 + ig (skipn (p_pos s + w) data)) by (rewrite (hd_eq _ _ _ _ _ Hne Hl W), skipn_skipn, (Nat.add_comm w); reflexivity).
  assert (TL : tl_ (skipn (p_pos s) data) = wt (skipn (p_pos s + w) data)) by (rewrite (tl_eq _ _ _ _ _ Hne Hl W), skipn_skipn, (Nat.add_comm w); reflexivity).
  assert (CR' : cost (t_p_rules (v) (p_current s) (if negb (is (p_current s) _Ignore) then p_current s else p_lastEx s)
     (if negb (is (p_current s) _Ignore) then p_lastEx s else p_lastLastEx s) (p_ri s) w (skipn (p_pos s + w) data) true) <= 3 * hd_ (skipn (p_pos s) data)).
  { rewrite HD. destruct (is v _Ignore) eqn:EV; lia. }
  pose proof (wt_split phrases_lookup ign (skipn (p_pos s) data)) as WS. destruct dec as [adv ri| |].
  - apply IH in H. cbn [p_pos] in H. destruct (GD _ _ eq_refl) as (G1 & G2). rewrite skipn_skipn in G2. replace (adv - w + (p_pos s + w)) with (p_pos s + adv) in G2 by lia.
    destruct H as (H1 & H2). split; [lia|]. assert (HM : 1 * (n - p_pos s + 1) >= 1 * (n - (p_pos s + adv) + 1) + 1).
    { replace (n - p_pos s + 1) with ((n - (p_pos s + adv) + 1) + 1 + (adv - 1)) by lia. lia. }
    lia.
  - injection H as <-. rewrite cost_free. split; [lia|]. rewrite Nat.sub_diag. lia.
  - discriminate.
Qed.
Lemma loop_some : forall fuel data s, result (t_p_loop fuel data true s) <> Ok None.
Proof.
  induction fuel as [|fuel IH]; intros data s H; [discriminate|]. cbn [t_p_loop] in H. destruct (Nat.eqb _ _); [discriminate|]. cbv zeta in H. rewrite result_bind in H. apply bind_Ok in H. destruct H as (d & _ & H).
  rewrite result_bind in H. apply bind_Ok in H. destruct H as ([v w] & _ & H). destruct (Nat.eqb w 0); [discriminate|].
  rewrite result_bind in H. apply bind_Ok in H. destruct H as (a & _ & H). rewrite result_bind in H. apply bind_Ok in H. destruct H as (dec & Hr & H). destruct dec as [adv ri| |]; [exact (IH _ _ H)|discriminate|].
  clear - Hr. unfold t_p_rules in Hr.
  assert (L : forall c p a w ri tn, result tn <> Ok PMore -> result (t_lookahead c p a true w ri tn) <> Ok PMore).
  { clear. intros c p a w ri tn HN H. unfold t_lookahead in H. destruct c; [|exact (HN H)]. rewrite result_bind, r_sub in H. apply bind_Ok in H. destruct H as ([adv [|]] & Hs & H).
    - clear - Hs. unfold subsequent in Hs. revert Hs. generalize (S (length a)) 0. intros fuel. induction fuel as [|fuel IH]; intros i Hs; [discriminate|]. cbn [subsequent_loop] in Hs. destruct (i <? length a); [|discriminate].
      apply bind_Ok in Hs. destruct Hs as (d & _ & Hs). apply bind_Ok in Hs. destruct Hs as ([v w] & _ & Hs). destruct (Nat.eqb w 0); [discriminate|]. destruct (is v _Ignore); [exact (IH _ Hs)|]. destruct (is v p); discriminate.
    - destruct adv; [discriminate|exact (HN H)]. }
  revert Hr. repeat match goal with |- result (if ?c then _ else _) = _ -> _ => destruct c; try discriminate end.
  apply L. intros Hr. revert Hr. repeat match goal with |- result (if ?c then _ else _) = _ -> _ => destruct c; try discriminate end.
  apply L. intros Hr. revert Hr. repeat match goal with |- result (if ?c then _ else _) = _ -> _ => destruct c; try discriminate end.
  apply L. intros Hr. revert Hr. repeat match goal with |- result (if ?c then _ else _) = _ -> _ => destruct c; try discriminate end.
Qed.
Lemma c_split : forall d o, d <> [] -> result (t_splitFunc d true) = Ok o -> exists n, so_advance o = Z.of_nat n /\ 0 < n /\
  cost (t_splitFunc d true) + 3 * tl_ (skipn n d) <= 2 * n + 3 * tl_ d.
Proof.
  intros d o Hd H. unfold t_splitFunc in *. destruct d as [|b s]; [congruence|]. set (d := b :: s) in *. cbn [is_nil] in *. change (is_nil d) with false in *. cbv iota in *.
  rewrite result_bind, result_free in H. change (slice_from d 0) with (Ok d) in *. cbn [bind] in H. rewrite (cost_bind _ _ _ _ d) by reflexivity. rewrite cost_free.
  rewrite result_bind, result_steps in H. apply bind_Ok in H. destruct H as ([v w] & Hl & H). rewrite (cost_bind _ _ _ _ (v, w)) by exact Hl. rewrite cost_steps. destruct (Nat.eqb_spec w 0) as [W|W].
  { cbn [negb] in *. rewrite result_bind, result_free in H. apply bind_Ok in H. destruct H as (t & Ht & H). injection H as <-. rewrite (cost_bind _ _ _ _ t) by exact Ht. rewrite !cost_free. exists (length d). split; [reflexivity|].
    split; [cbn; lia|]. rewrite skipn_all. change (tl_ []) with 0. assert (1 <= length d) by (cbn; lia). lia. }
  rewrite result_bind in H. apply bind_Ok in H. destruct H as (r & Hr & H). rewrite (cost_bind _ _ _ _ r Hr). destruct r as [n|]; [|exfalso; exact (loop_some _ _ _ Hr)].
  rewrite result_bind, result_free in H. apply bind_Ok in H. destruct H as (t & Ht & H). injection H as <-. rewrite (cost_bind _ _ _ _ t) by exact Ht. rewrite !cost_free. apply c_loop in Hr. cbn [p_pos] in Hr. destruct Hr as (H1 & H2).
  exists n. split; [reflexivity|]. split; [lia|]. rewrite (tl_eq _ _ _ _ _ Hd Hl W). pose proof (wt_split phrases_lookup ign (skipn n d)) as WS.
  lia.
Qed.


(** ** The fast path: a run of ASCII letters, digits and spaces; all but its last byte belong to the token before the rules are asked *)
Lemma alnum_lookup : forall b s, isASCIIAlphanumericOrSpace b = true -> exists v, phrases_lookup (b :: s) = Ok (v, 1).
Proof.
  intros b s H.
  assert (Hlt : (b < 0x80)%N).
  { unfold isASCIIAlphanumericOrSpace in H. rewrite !orb_true_iff, !andb_true_iff, !N.leb_le, N.eqb_eq in H. lia. }
  assert (C : forallb (fun b => match phrases_lookup [b] with Ok (v, 1%nat) => true | _ => false end) (upto 0 128) = true) by (vm_compute; reflexivity).
  rewrite forallb_forall in C. specialize (C b (in_upto 0 128 b ltac:(simpl; lia))).
  destruct (phrases_lookup [b]) as [[v [|[|w]]]| |] eqn:E; try discriminate. exists v.
  destruct (p_lk [b] ltac:(discriminate)) as (v' & w' & Hl & _ & Hst). rewrite E in Hl. injection Hl as <- <-. exact (Hst ltac:(lia) s).
Qed.
Lemma tl_wt : forall d, tl_ d <= wt d.
Proof. intros d. rewrite (wt_split phrases_lookup ign d). lia. Qed.
Lemma tl_run : forall d k, k <= alnum_space_run d -> tl_ (skipn k d) <= tl_ d.
Proof.
  induction d as [|b d IH]; intros [|k] H; cbn [alnum_space_run skipn] in *; try lia. destruct (isASCIIAlphanumericOrSpace b) eqn:E; [|lia].
  destruct (alnum_lookup b d E) as (v & Hl). rewrite (tl_eq _ _ (b :: d) v 1 ltac:(discriminate) Hl ltac:(lia)). cbn [skipn]. specialize (IH k ltac:(lia)). pose proof (tl_wt d). lia.
Qed.
Definition phi (it : iter) : nat := 6 * (length (it_data it) - it_pos it) + 3 * tl_ (skipn (it_pos it) (it_data it)).
Lemma c_next_split : forall it it', result (t_next_split it) = Ok (true, it') -> it_pos it < length (it_data it) ->
  it_data it' = it_data it /\ it_pos it < it_pos it' <= length (it_data it)
  /\ cost (t_next_split it) + 3 * tl_ (skipn (it_pos it') (it_data it)) <= 2 * (it_pos it' - it_pos it) + 3 * tl_ (skipn (it_pos it) (it_data it)).
Proof.
  intros it it' H Hp. unfold t_next_split in *. rewrite result_bind, result_free in H. unfold slice_from in *. destruct (Nat.ltb_spec (length (it_data it)) (it_pos it)); [lia|]. cbn [bind] in H.
  rewrite (cost_bind _ _ _ _ (skipn (it_pos it) (it_data it))) by reflexivity. rewrite cost_free. rewrite result_bind in H. apply bind_Ok in H. destruct H as (o & Ho & H). rewrite (cost_bind _ _ _ _ o Ho).
  assert (Hne : skipn (it_pos it) (it_data it) <> []). { intros E'. apply (f_equal (@length N)) in E'. rewrite skipn_length in E'. cbn in E'. lia. }
  destruct (c_split _ _ Hne Ho) as (n & Hn & Hpos & HC). rewrite Hn in *. destruct (so_err o); [discriminate|]. destruct (Z.of_nat n <=? 0)%Z eqn:Ez; [discriminate|]. rewrite Nat2Z.id in *. cbv zeta in *.
  destruct (Nat.ltb_spec (length (it_data it)) (it_pos it + n)); [discriminate|]. injection H as <-. rewrite cost_free. cbn [with_pos it_data it_pos]. split; [reflexivity|]. split; [lia|].
  rewrite skipn_skipn, (Nat.add_comm n) in HC. replace (it_pos it + n - it_pos it) with n by lia. lia.
Qed.
Lemma run_le : forall d, alnum_space_run d <= length d.
Proof. induction d as [|b d IH]; [cbn; lia|]. cbn [alnum_space_run length]. destruct (isASCIIAlphanumericOrSpace b); lia. Qed.
Lemma c_Next : forall it it', result (t_Next it) = Ok (true, it') -> cost (t_Next it) + 1 + phi it' <= phi it.
Proof.
  intros it it' H. unfold t_Next in *. destruct (Nat.leb_spec (length (it_data it)) (it_pos it)) as [|Hp]; [discriminate|]. cbv zeta in *. cbn [with_pos it_data it_pos it_start] in *.
  unfold slice_from in *. destruct (Nat.ltb_spec (length (it_data it)) (it_pos it)); [discriminate|]. rewrite result_bind, result_free in H. cbn [bind] in H.
  rewrite (cost_bind _ _ _ _ (skipn (it_pos it) (it_data it))) by reflexivity. rewrite cost_free. set (d := skipn (it_pos it) (it_data it)) in *.
  rewrite result_bind, result_steps in H. cbn [bind] in H. rewrite (cost_bind _ _ _ _ (alnum_space_run d)) by reflexivity. rewrite cost_steps.
  pose proof (run_le d) as HR. assert (HL : length d = length (it_data it) - it_pos it) by (unfold d; rewrite skipn_length; reflexivity).
  destruct (Nat.leb_spec (length (it_data it)) (it_pos it + alnum_space_run d)).
  { injection H as <-. rewrite cost_free. unfold phi. cbn [with_pos it_data it_pos]. rewrite (skipn_all2 (it_data it)) by lia. change (tl_ []) with 0. lia. }
  set (k := if it_pos it <? it_pos it + alnum_space_run d then it_pos it + alnum_space_run d - 1 else it_pos it + alnum_space_run d) in *.
  assert (HK : exists m, k = it_pos it + m /\ m <= alnum_space_run d <= m + 1).
  { unfold k. destruct (Nat.ltb_spec (it_pos it) (it_pos it + alnum_space_run d)); [exists (alnum_space_run d - 1)|exists (alnum_space_run d)]; lia. }
  clearbody k. destruct HK as (m & -> & Hm). apply c_next_split in H; [|cbn; lia]. cbn [with_pos it_data it_pos] in H. destruct H as (E1 & E2 & E3). unfold phi. rewrite E1. fold d.
  pose proof (tl_run d m ltac:(lia)) as HT. unfold d in HT at 1. rewrite skipn_skipn, (Nat.add_comm m) in HT. lia.
Qed.
Lemma c_false : forall it it', result (t_Next it) = Ok (false, it') -> cost (t_Next it) = 0.
Proof.
  intros it it' HN. unfold t_Next in *. destruct (_ <=? _); [reflexivity|]. exfalso. cbv zeta in HN. rewrite result_bind in HN. apply bind_Ok in HN. destruct HN as (d & _ & HN). rewrite result_bind in HN. apply bind_Ok in HN. destruct HN as (n & _ & HN).
  destruct (_ <=? _); [discriminate|]. unfold t_next_split in HN. rewrite result_bind in HN. apply bind_Ok in HN. destruct HN as (? & _ & HN). rewrite result_bind in HN. apply bind_Ok in HN. destruct HN as (o & _ & HN).
  destruct (so_err o); [discriminate|]. destruct (so_advance o <=? 0)%Z; [discriminate|]. cbv zeta in HN. destruct (_ <? _); discriminate.
Qed.
Lemma p_linear : forall d fuel l, result (tcollect t_Next Value fuel (FromBytes d)) = Ok l -> cost (tcollect t_Next Value fuel (FromBytes d)) <= 12 * length d + 1.
Proof.
  intros d fuel l H. pose proof (tcollect_cost _ _ t_Next Value (fun _ => True) phi 0) as HC.
  assert (HB : cost (tcollect t_Next Value fuel (FromBytes d)) <= phi (FromBytes d) + 0 + 1).
  { eapply HC; [| |exact I|exact H].
    - intros it it' _ HN. split; [exact I|]. apply c_Next. exact HN.
    - intros it it' _ HN. rewrite (c_false _ _ HN). lia. }
  unfold phi in HB. cbn [FromBytes it_data it_pos skipn] in HB. pose proof (tl_wt d). pose proof (wt_bound phrases_lookup ign d). lia.
Qed.
