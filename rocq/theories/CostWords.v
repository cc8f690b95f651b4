(** The counting functions of CountWords.v: same results, and a linear bound on the steps. *)
From Verif Require Import Base ListFacts Trie TableWords Utf8 BitFacts Cost CostScan Engine EngineMore Words WordsEngine WordsIter CountWords Lk SpecIter SpecApi.
Local Open Scope nat_scope.

(** ** Results *)
Lemma r_sub_loop : forall fuel p d e i, result (t_subsequent_loop fuel p d e i) = subsequent_loop fuel p d e i.
Proof.
  induction fuel as [|fuel IH]; intros p d e i; [reflexivity|]. cbn [t_subsequent_loop subsequent_loop]. destruct (i <? length d); [|destruct e; reflexivity].
  rewrite result_bind. apply bind_ext; [reflexivity|]. intros d'. rewrite result_bind. apply bind_ext; [reflexivity|]. intros [v w]. destruct (Nat.eqb w 0); [destruct e; reflexivity|].
  destruct (is v _Ignore); [apply IH|]. destruct (is v p); reflexivity.
Qed.
Lemma r_sub : forall p d e, result (t_subsequent p d e) = subsequent p d e.
Proof. intros. apply r_sub_loop. Qed.
Lemma r_contain : forall l r, result (t_runesContain l r) = Ok (runesContain l r).
Proof. induction l as [|x l IH]; intros r; [reflexivity|]. cbn [t_runesContain runesContain]. rewrite result_bind, result_steps. cbn [bind]. destruct (x =? r)%N; [reflexivity|apply IH]. Qed.
Lemma r_leading : forall j d v, result (t_leadingBits j d v) = Ok (leadingBits j d v).
Proof. intros [jj|] d v; [|reflexivity]. unfold t_leadingBits, leadingBits. rewrite result_bind, result_steps. cbn [bind]. rewrite result_bind, r_contain. reflexivity. Qed.
Lemma r_middle : forall j d v, result (t_middleBits j d v) = Ok (middleBits j d v).
Proof. intros [jj|] d v; [|reflexivity]. unfold t_middleBits, middleBits. rewrite result_bind, result_steps. cbn [bind]. rewrite result_bind, r_contain. reflexivity. Qed.
Lemma r_look : forall c p a e w ri tn n, result tn = n -> result (t_lookahead c p a e w ri tn) = lookahead c p a e w ri n.
Proof. intros c p a e w ri tn n H. unfold t_lookahead, lookahead. destruct c; [|exact H]. rewrite result_bind. apply bind_ext; [apply r_sub|]. intros [adv [|]]; [reflexivity|]. destruct adv; [reflexivity|exact H]. Qed.
Ltac ifs := repeat match goal with |- result (if ?c then _ else _) = (if ?c then _ else _) => destruct c; try reflexivity end.
Lemma r_rules : forall cu la le ll ri w a e, result (t_w_rules cu la le ll ri w a e) = w_rules cu la le ll ri w a e.
Proof. intros. unfold t_w_rules, w_rules. ifs. apply r_look. ifs. apply r_look. ifs. apply r_look. ifs. Qed.
Lemma r_loop : forall fuel j data e s, result (t_w_loop fuel j data e s) = w_loop fuel j data e s.
Proof.
  induction fuel as [|fuel IH]; intros j data e s; [reflexivity|]. cbn [t_w_loop w_loop]. destruct (Nat.eqb _ _). { destruct e; reflexivity. }
  cbv zeta. rewrite result_bind. apply bind_ext; [reflexivity|]. intros d. rewrite result_bind. apply bind_ext; [reflexivity|]. intros [v w].
  destruct (Nat.eqb w 0). { destruct e; reflexivity. } rewrite result_bind, r_middle. cbn [bind]. rewrite result_bind. apply bind_ext; [reflexivity|]. intros a.
  rewrite result_bind. apply bind_ext; [apply r_rules|]. intros [adv ri| |]; [apply IH|reflexivity|reflexivity].
Qed.
Lemma r_split : forall j d e, result (t_joinersSplitFunc j d e) = joinersSplitFunc j d e.
Proof.
  intros j d e. unfold t_joinersSplitFunc, joinersSplitFunc. destruct (is_nil d); [reflexivity|]. rewrite result_bind. apply bind_ext; [reflexivity|]. intros d'. rewrite result_bind. apply bind_ext; [reflexivity|]. intros [v w].
  destruct (Nat.eqb w 0). { destruct e; [|reflexivity]. cbn [negb]. rewrite result_bind. reflexivity. }
  rewrite result_bind, r_leading. cbn [bind]. cbv zeta. rewrite result_bind. apply bind_ext; [apply r_loop|]. intros [n|]; [rewrite result_bind|]; reflexivity.
Qed.
Lemma r_next_split : forall ts it, (forall d e, result (ts d e) = it_split it d e) -> result (t_next_split ts it) = next_split it.
Proof.
  intros ts it HS. unfold t_next_split, next_split. rewrite result_bind. apply bind_ext; [reflexivity|]. intros d. rewrite result_bind. apply bind_ext; [apply HS|]. intros o.
  destruct (so_err o); [reflexivity|]. destruct (so_advance o <=? 0)%Z; [reflexivity|]. cbv zeta. destruct (_ <? _); reflexivity.
Qed.
Lemma r_Next : forall ts it, (forall d e, result (ts d e) = it_split it d e) -> result (t_Next ts it) = Next it.
Proof.
  intros ts it HS. unfold t_Next, Next. destruct (_ <=? _); [reflexivity|]. cbv zeta. rewrite result_bind. apply bind_ext; [reflexivity|]. intros b.
  destruct (isASCIIAlphanumeric b); [|apply r_next_split; exact HS]. rewrite result_bind. apply bind_ext; [reflexivity|]. intros d. rewrite result_bind, result_steps. cbn [bind]. destruct (_ <=? _); [reflexivity|].
  rewrite result_bind. apply bind_ext; [reflexivity|]. intros b'. destruct (b' =? 0x20)%N; [reflexivity|apply r_next_split; exact HS].
Qed.

(** ** Bounds *)
Notation ign := (fun v => is v _Ignore).
Notation ig := (ig words_lookup ign).
Notation wt := (wt words_lookup ign).
Notation hd_ := (hd_ words_lookup ign).
Notation tl_ := (tl_ words_lookup ign).
Lemma c_subs : forall p d r, result (t_subsequent p d true) = Ok r -> cost (t_subsequent p d true) <= 1 + ig d /\ (forall a, fst r = Some a -> wt (skipn a d) = wt d).
Proof.
  intros p d r H. unfold t_subsequent in *. change t_subsequent_loop with (g_sub words_lookup ign) in *. apply c_sub in H; [|lia]. cbn [skipn] in H. destruct H as (H1 & H2). split; [exact H1|]. intros a Ha. apply H2. exact Ha.
Qed.
Definition good (w : nat) (after : bytes) (dec : wdecision) : Prop := forall adv ri, dec = WJoin adv ri -> w <= adv /\ wt (skipn (adv - w) after) = wt after.
Lemma good_w : forall w after ri, good w after (WJoin w ri).
Proof. intros w after ri adv ri' [= <- <-]. rewrite Nat.sub_diag. auto. Qed.
Lemma good_b : forall w after, good w after WBreak.
Proof. intros w after adv ri H. discriminate. Qed.
Lemma c_look : forall k c p a w ri tn dec, (forall x, result tn = Ok x -> cost tn <= k * (1 + ig a) /\ good w a x) -> result (t_lookahead c p a true w ri tn) = Ok dec ->
  cost (t_lookahead c p a true w ri tn) <= S k * (1 + ig a) /\ good w a dec.
Proof.
  intros k c p a w ri tn dec HN H. unfold t_lookahead in *. destruct c. 2:{ destruct (HN _ H) as (H1 & H2). split; [|exact H2]. cbn [Nat.mul]. lia. }
  rewrite result_bind in H. apply bind_Ok in H. destruct H as (r & Hr & H). rewrite (cost_bind _ _ _ _ r Hr). destruct (c_subs _ _ _ Hr) as (H1 & H2). destruct r as [adv [|]]; cbn [fst] in H2.
  - injection H as <-. rewrite cost_free. split; [cbn [Nat.mul]; lia|]. intros adv' ri' HH. discriminate.
  - destruct adv as [n|].
    + injection H as <-. rewrite cost_free. split; [cbn [Nat.mul]; lia|]. intros adv' ri' [= <- <-]. split; [lia|]. replace (w + n - w) with n by lia. apply H2. reflexivity.
    + destruct (HN _ H) as (H3 & H4). split; [cbn [Nat.mul]; lia|exact H4].
Qed.
Ltac leaf := match goal with H : result (free (Ok _)) = Ok _ |- _ => injection H as <-; rewrite ?cost_free; split; [try reflexivity; lia|first [apply good_w|apply good_b]] end.
Ltac cifs := repeat match goal with H : result (if ?c then _ else _) = Ok _ |- _ => destruct c; try leaf end.
Lemma c_rules : forall cu la le ll ri w a dec, result (t_w_rules cu la le ll ri w a true) = Ok dec ->
  cost (t_w_rules cu la le ll ri w a true) <= (if is cu _Ignore then 0 else 3 * (1 + ig a)) /\ good w a dec.
Proof.
  intros cu la le ll ri w a dec H. unfold t_w_rules in *. change (N.lor _Extend (N.lor _Format _ZWJ)) with _Ignore in *.
  destruct (_ && _); [leaf|]. destruct (is (N.land _ _) _); [leaf|]. destruct (_ && _); [leaf|]. destruct (is (N.lor _ _) _); [leaf|]. destruct (_ && _); [leaf|]. destruct (is cu _Ignore); [leaf|].
  revert H. apply (c_look 2). intros x H. do 2 (destruct (_ && _); [leaf|]).
  revert H. apply (c_look 1). intros y H. do 2 (destruct (_ && _); [leaf|]).
  revert H. apply (c_look 0). intros z H. cifs.
Qed.
Definition nM (j : option Joiners) : nat := match j with Some jj => length (Middle jj) | None => 0 end.
Definition nL (j : option Joiners) : nat := match j with Some jj => length (Leading jj) | None => 0 end.
Lemma c_contain : forall l r, cost (t_runesContain l r) <= length l.
Proof. induction l as [|x l IH]; intros r; [cbn; lia|]. cbn [t_runesContain length]. rewrite (cost_bind _ _ _ _ tt) by reflexivity. rewrite cost_steps. destruct (x =? r)%N; [rewrite cost_free; lia|]. specialize (IH r). lia. Qed.
Lemma c_middle : forall j d v, cost (t_middleBits j d v) <= 1 + nM j.
Proof.
  intros [jj|] d v; [|cbn; lia]. unfold t_middleBits. rewrite (cost_bind _ _ _ _ (fst (DecodeRune d))) by reflexivity. rewrite cost_steps. rewrite (cost_bind _ _ _ _ _ (r_contain _ _)), cost_free.
  pose proof (c_contain (Middle jj) (fst (DecodeRune d))). cbn [nM]. lia.
Qed.
Lemma c_leading : forall j d v, cost (t_leadingBits j d v) <= 1 + nL j.
Proof.
  intros [jj|] d v; [|cbn; lia]. unfold t_leadingBits. rewrite (cost_bind _ _ _ _ (fst (DecodeRune d))) by reflexivity. rewrite cost_steps. rewrite (cost_bind _ _ _ _ _ (r_contain _ _)), cost_free.
  pose proof (c_contain (Leading jj) (fst (DecodeRune d))). cbn [nL]. lia.
Qed.
Lemma middle_ign : forall j d v, is v _Ignore = true -> is (middleBits j d v) _Ignore = true.
Proof. intros [jj|] d v H; [|exact H]. unfold middleBits. destruct (runesContain _ _); [|exact H]. rewrite is_lor_l, H. reflexivity. Qed.

Lemma c_loop : forall j fuel data s n, result (t_w_loop fuel j data true s) = Ok (Some n) ->
  w_pos s <= n /\ cost (t_w_loop fuel j data true s) + 3 * wt (skipn n data) <= (2 + nM j) * (n - w_pos s + 1) + 3 * wt (skipn (w_pos s) data) + 3 * hd_ (skipn n data).
Proof.
  intros j. induction fuel as [|fuel IH]; intros data s n H; [discriminate|]. cbn [t_w_loop] in *. destruct (Nat.eqb_spec (w_pos s) (length data)) as [E|E].
  { cbn [negb] in *. injection H as <-. rewrite cost_free. lia. }
  cbv zeta in *. rewrite result_bind, result_free in H. unfold slice_from in *. destruct (Nat.ltb_spec (length data) (w_pos s)) as [El|El]; [discriminate|]. cbn [bind] in H.
  rewrite (cost_bind _ _ _ _ (skipn (w_pos s) data)) by reflexivity. rewrite cost_free. rewrite result_bind, result_steps in H. apply bind_Ok in H. destruct H as ([v w] & Hl & H).
  rewrite (cost_bind _ _ _ _ (v, w)) by exact Hl. rewrite cost_steps. destruct (Nat.eqb_spec w 0) as [W|W].
  { injection H as <-. rewrite cost_free, skipn_all. change (wt []) with 0. lia. }
  assert (Hne : skipn (w_pos s) data <> []). { intros E'. apply (f_equal (@length N)) in E'. rewrite skipn_length in E'. cbn in E'. lia. }
  rewrite result_bind, r_middle in H. cbn [bind] in H. rewrite (cost_bind _ _ _ _ _ (r_middle _ _ _)). pose proof (c_middle j (skipn (w_pos s) data) v) as CM.
  rewrite result_bind, result_free in H. apply bind_Ok in H. destruct H as (after & Ha & H). rewrite (cost_bind _ _ _ _ after) by exact Ha. rewrite cost_free. destruct (length data <? w_pos s + w); [discriminate|]. injection Ha as <-.
  rewrite result_bind in H. apply bind_Ok in H. destruct H as (dec & Hr & H). rewrite (cost_bind _ _ _ _ dec Hr). apply c_rules in Hr. destruct Hr as (CR & GD).
  assert (HD : hd_ (skipn (w_pos s) data) = if is v _Ignore then 0 else 1 + ig (skipn (w_pos s + w) data)) by (rewrite (hd_eq _ _ _ _ _ Hne Hl W), skipn_skipn, (Nat.add_comm w); reflexivity).
  assert (TL : tl_ (skipn (w_pos s) data) = wt (skipn (w_pos s + w) data)) by (rewrite (tl_eq _ _ _ _ _ Hne Hl W), skipn_skipn, (Nat.add_comm w); reflexivity).
  assert (CR' : cost (t_w_rules (middleBits j (skipn (w_pos s) data) v) (w_current s) (if negb (is (w_current s) _Ignore) then w_current s else w_lastEx s)
     (if negb (is (w_current s) _Ignore) then w_lastEx s else w_lastLastEx s) (w_ri s) w (skipn (w_pos s + w) data) true) <= 3 * hd_ (skipn (w_pos s) data)).
  { rewrite HD. destruct (is v _Ignore) eqn:EV; [rewrite (middle_ign j _ v EV) in CR; lia|]. destruct (is (middleBits j _ v) _Ignore); lia. }
  pose proof (wt_split words_lookup ign (skipn (w_pos s) data)) as WS. destruct dec as [adv ri| |].
  - apply IH in H. cbn [w_pos] in H. destruct (GD _ _ eq_refl) as (G1 & G2). rewrite skipn_skipn in G2. replace (adv - w + (w_pos s + w)) with (w_pos s + adv) in G2 by lia.
    destruct H as (H1 & H2). split; [lia|]. assert (HM : (2 + nM j) * (n - w_pos s + 1) >= (2 + nM j) * (n - (w_pos s + adv) + 1) + (2 + nM j)).
    { replace (n - w_pos s + 1) with ((n - (w_pos s + adv) + 1) + 1 + (adv - 1)) by lia. generalize (2 + nM j) (n - (w_pos s + adv) + 1) (adv - 1). intros K x y. nia. }
    lia.
  - injection H as <-. rewrite cost_free. split; [lia|]. rewrite Nat.sub_diag. lia.
  - discriminate.
Qed.
Lemma loop_some : forall j fuel data s, result (t_w_loop fuel j data true s) <> Ok None.
Proof.
  intros j. induction fuel as [|fuel IH]; intros data s H; [discriminate|]. cbn [t_w_loop] in H. destruct (Nat.eqb _ _); [discriminate|]. cbv zeta in H. rewrite result_bind in H. apply bind_Ok in H. destruct H as (d & _ & H).
  rewrite result_bind in H. apply bind_Ok in H. destruct H as ([v w] & _ & H). destruct (Nat.eqb w 0); [discriminate|]. rewrite result_bind in H. apply bind_Ok in H. destruct H as (c & _ & H).
  rewrite result_bind in H. apply bind_Ok in H. destruct H as (a & _ & H). rewrite result_bind in H. apply bind_Ok in H. destruct H as (dec & Hr & H). destruct dec as [adv ri| |]; [exact (IH _ _ H)|discriminate|].
  clear - Hr. unfold t_w_rules in Hr.
  assert (L : forall c p a w ri tn, result tn <> Ok WMore -> result (t_lookahead c p a true w ri tn) <> Ok WMore).
  { clear. intros c p a w ri tn HN H. unfold t_lookahead in H. destruct c; [|exact (HN H)]. rewrite result_bind, r_sub in H. apply bind_Ok in H. destruct H as ([adv [|]] & Hs & H).
    - clear - Hs. unfold subsequent in Hs. revert Hs. generalize (S (length a)) 0. intros fuel. induction fuel as [|fuel IH]; intros i Hs; [discriminate|]. cbn [subsequent_loop] in Hs. destruct (i <? length a); [|discriminate].
      apply bind_Ok in Hs. destruct Hs as (d & _ & Hs). apply bind_Ok in Hs. destruct Hs as ([v w] & _ & Hs). destruct (Nat.eqb w 0); [discriminate|]. destruct (is v _Ignore); [exact (IH _ Hs)|]. destruct (is v p); discriminate.
    - destruct adv; [discriminate|exact (HN H)]. }
  revert Hr. repeat match goal with |- result (if ?c then _ else _) = _ -> _ => destruct c; try discriminate end.
  apply L. intros Hr. revert Hr. repeat match goal with |- result (if ?c then _ else _) = _ -> _ => destruct c; try discriminate end.
  apply L. intros Hr. revert Hr. repeat match goal with |- result (if ?c then _ else _) = _ -> _ => destruct c; try discriminate end.
  apply L. intros Hr. revert Hr. repeat match goal with |- result (if ?c then _ else _) = _ -> _ => destruct c; try discriminate end.
Qed.
Lemma c_split : forall j d o, d <> [] -> result (t_joinersSplitFunc j d true) = Ok o -> exists n, so_advance o = Z.of_nat n /\ 0 < n /\
  cost (t_joinersSplitFunc j d true) + 3 * tl_ (skipn n d) <= (4 + nL j + nM j) * n + 3 * tl_ d.
Proof.
  intros j d o Hd H. unfold t_joinersSplitFunc in *. destruct d as [|b s]; [congruence|]. set (d := b :: s) in *. cbn [is_nil] in *. change (is_nil d) with false in *. cbv iota in *.
  rewrite result_bind, result_free in H. change (slice_from d 0) with (Ok d) in *. cbn [bind] in H. rewrite (cost_bind _ _ _ _ d) by reflexivity. rewrite cost_free.
  rewrite result_bind, result_steps in H. apply bind_Ok in H. destruct H as ([v w] & Hl & H). rewrite (cost_bind _ _ _ _ (v, w)) by exact Hl. rewrite cost_steps. destruct (Nat.eqb_spec w 0) as [W|W].
  { cbn [negb] in *. rewrite result_bind, result_free in H. apply bind_Ok in H. destruct H as (t & Ht & H). injection H as <-. rewrite (cost_bind _ _ _ _ t) by exact Ht. rewrite !cost_free. exists (length d). split; [reflexivity|].
    split; [cbn; lia|]. rewrite skipn_all. change (tl_ []) with 0. assert (1 <= length d) by (cbn; lia). nia. }
  rewrite result_bind, r_leading in H. cbn [bind] in H. rewrite (cost_bind _ _ _ _ _ (r_leading _ _ _)). pose proof (c_leading j d v) as CL.
  rewrite result_bind in H. apply bind_Ok in H. destruct H as (r & Hr & H). rewrite (cost_bind _ _ _ _ r Hr). destruct r as [n|]; [|exfalso; exact (loop_some _ _ _ _ Hr)].
  rewrite result_bind, result_free in H. apply bind_Ok in H. destruct H as (t & Ht & H). injection H as <-. rewrite (cost_bind _ _ _ _ t) by exact Ht. rewrite !cost_free. apply c_loop in Hr. cbn [w_pos] in Hr. destruct Hr as (H1 & H2).
  exists n. split; [reflexivity|]. split; [lia|]. rewrite (tl_eq _ _ _ _ _ Hd Hl W). pose proof (wt_split words_lookup ign (skipn n d)) as WS.
  assert ((2 + nM j) * (n - w + 1) <= (2 + nM j) * n) by (apply Nat.mul_le_mono_l; lia). assert (1 * (2 + nL j) <= n * (2 + nL j)) by (apply Nat.mul_le_mono_r; lia). lia.
Qed.

(** ** The fast path reads no byte for nothing: a token that begins with a run of ASCII letters and digits holds the run *)
Lemma run_loop : forall j d fuel st n, In (ws_current st) alV -> eloop (WE j) fuel d true st = Ok (Some n) -> alnum_run d <= n.
Proof.
  intros j. induction d as [|b d IH]; intros fuel st n Hc H; [cbn; lia|]. destruct fuel as [|fuel]; [discriminate|]. cbn [alnum_run]. destruct (isASCIIAlphanumeric b) eqn:E; [|lia].
  cbn [eloop is_nil] in H. change (e_lk (WE j)) with (lkM j) in H. change (e_rules (WE j)) with w_erules in H. destruct (alnum_lookup b d E) as (v & Hl & Hv). unfold lkM in H. rewrite Hl in H. cbn [bind Nat.eqb] in H.
  destruct (al_join st (middleBits j (b :: d) v) (b :: d) 1 true Hc (middleBits_al j (b :: d) v Hv) ltac:(simpl; lia)) as (st' & Hr' & Hc').
  rewrite Hr' in H. cbn [bind] in H. rewrite slice_from_ok in H by (simpl; lia). cbn [skipn bind] in H. apply bind_Ok in H. destruct H as (r & Hr & H). destruct r as [m|]; [|discriminate]. injection H as <-.
  apply IH in Hr; [lia|]. rewrite Hc'. apply middleBits_al. exact Hv.
Qed.
Lemma run_split : forall j b s o, isASCIIAlphanumeric b = true -> joinersSplitFunc j (b :: s) true = Ok o -> (Z.of_nat (S (alnum_run s)) <= so_advance o)%Z.
Proof.
  intros j b s o E H. rewrite <- w_split_engine in H. unfold esplit in H. cbn [is_nil] in H. change (e_lk0 (WE j)) with (lkL j) in H. unfold lkL in H. destruct (alnum_lookup b s E) as (v & Hl & Hv). rewrite Hl in H. cbn [bind Nat.eqb] in H.
  rewrite slice_from_ok in H by (cbn; lia). cbn [skipn bind] in H. apply bind_Ok in H. destruct H as (r & Hr & H). destruct r as [n|].
  - apply bind_Ok in H. destruct H as (t & _ & H). injection H as <-. cbn [e_done so_advance]. apply run_loop in Hr; [lia|]. apply leadingBits_al. exact Hv.
  - exfalso. destruct (so_eof _ (w_split_ok j) (b :: s) ltac:(discriminate)) as (n & Hn & HS). rewrite <- w_split_engine in HS. unfold esplit in HS. cbn [is_nil] in HS. change (e_lk0 (WE j)) with (lkL j) in HS. unfold lkL in HS.
    rewrite Hl in HS. cbn [bind Nat.eqb] in HS. rewrite slice_from_ok in HS by (cbn; lia). cbn [skipn bind] in HS. rewrite Hr in HS. cbn [bind] in HS. injection HS as HS _. lia.
Qed.
Lemma tl_wt : forall d, tl_ d <= wt d.
Proof. intros d. rewrite (wt_split words_lookup ign d). lia. Qed.
Lemma tl_alnum : forall b s, isASCIIAlphanumeric b = true -> tl_ (b :: s) = wt s.
Proof. intros b s E. destruct (alnum_lookup b s E) as (v & Hl & _). rewrite (tl_eq _ _ (b :: s) v 1 ltac:(discriminate) Hl ltac:(lia)). reflexivity. Qed.
Lemma tl_run : forall s, tl_ (skipn (alnum_run s) s) <= wt s.
Proof.
  induction s as [|b s IH]; [cbn; lia|]. cbn [alnum_run]. destruct (isASCIIAlphanumeric b) eqn:E; [|cbn [skipn]; apply tl_wt]. cbn [skipn]. pose proof (tl_wt (b :: s)) as H. rewrite (tl_alnum _ _ E) in H. lia.
Qed.

Definition K (j : option Joiners) : nat := 8 + nL j + nM j.
Definition phi (j : option Joiners) (it : iter) : nat := K j * (length (it_data it) - it_pos it) + 3 * tl_ (skipn (it_pos it) (it_data it)).
Lemma c_next_split : forall j it it', result (t_next_split (t_joinersSplitFunc j) it) = Ok (true, it') -> it_pos it < length (it_data it) ->
  it_data it' = it_data it /\ it_pos it < it_pos it' <= length (it_data it)
  /\ (forall b s, skipn (it_pos it) (it_data it) = b :: s -> isASCIIAlphanumeric b = true -> S (alnum_run s) <= it_pos it' - it_pos it)
  /\ cost (t_next_split (t_joinersSplitFunc j) it) + 3 * tl_ (skipn (it_pos it') (it_data it)) <= (4 + nL j + nM j) * (it_pos it' - it_pos it) + 3 * tl_ (skipn (it_pos it) (it_data it)).
Proof.
  intros j it it' H Hp. unfold t_next_split in *. rewrite result_bind, result_free in H. unfold slice_from in *. destruct (Nat.ltb_spec (length (it_data it)) (it_pos it)); [lia|]. cbn [bind] in H.
  rewrite (cost_bind _ _ _ _ (skipn (it_pos it) (it_data it))) by reflexivity. rewrite cost_free. rewrite result_bind in H. apply bind_Ok in H. destruct H as (o & Ho & H). rewrite (cost_bind _ _ _ _ o Ho).
  assert (Hne : skipn (it_pos it) (it_data it) <> []). { intros E'. apply (f_equal (@length N)) in E'. rewrite skipn_length in E'. cbn in E'. lia. }
  destruct (c_split j _ _ Hne Ho) as (n & Hn & Hpos & HC). rewrite Hn in *. destruct (so_err o); [discriminate|]. destruct (Z.of_nat n <=? 0)%Z eqn:Ez; [discriminate|]. rewrite Nat2Z.id in *. cbv zeta in *.
  destruct (Nat.ltb_spec (length (it_data it)) (it_pos it + n)); [discriminate|]. injection H as <-. rewrite cost_free. cbn [with_pos it_data it_pos]. split; [reflexivity|]. split; [lia|]. split.
  - intros b s E EB. rewrite E in Ho. rewrite r_split in Ho. apply run_split in Ho; [|exact EB]. rewrite Hn in Ho. lia.
  - rewrite skipn_skipn, (Nat.add_comm n) in HC. replace (it_pos it + n - it_pos it) with n by lia. lia.
Qed.
Lemma c_Next : forall j it it', result (t_Next (t_joinersSplitFunc j) it) = Ok (true, it') -> cost (t_Next (t_joinersSplitFunc j) it) + 1 + phi j it' <= phi j it.
Proof.
  intros j it it' H. unfold t_Next in *. destruct (Nat.leb_spec (length (it_data it)) (it_pos it)) as [|Hp]; [discriminate|]. cbv zeta in *. cbn [with_pos it_data it_pos it_start] in *.
  destruct (skipn (it_pos it) (it_data it)) as [|b s] eqn:ES. { apply (f_equal (@length N)) in ES. rewrite skipn_length in ES. cbn in ES. lia. }
  assert (H0 : byte_at (it_data it) (it_pos it) = Ok b).
  { unfold byte_at. rewrite <- (firstn_skipn (it_pos it) (it_data it)), ES. rewrite nth_error_app2 by (rewrite firstn_length; lia). rewrite firstn_length, Nat.min_l by lia. rewrite Nat.sub_diag. reflexivity. }
  rewrite H0 in *. rewrite result_bind, result_steps in H. cbn [bind] in H. rewrite (cost_bind _ _ _ _ b) by reflexivity. rewrite cost_steps.
  assert (HS : forall it'', it'' = with_pos it (it_pos it) (it_pos it) -> result (t_next_split (t_joinersSplitFunc j) it'') = Ok (true, it') ->
    cost (t_next_split (t_joinersSplitFunc j) it'') + (if isASCIIAlphanumeric b then alnum_run s else 0) + 4 + phi j it' <= phi j it).
  { intros it'' -> HN. apply c_next_split in HN; [|exact Hp]. cbn [with_pos it_data it_pos] in HN. destruct HN as (E1 & E2 & E3 & E4). unfold phi. rewrite E1. unfold K.
    assert (R : (if isASCIIAlphanumeric b then alnum_run s else 0) + 1 <= it_pos it' - it_pos it). { destruct (isASCIIAlphanumeric b) eqn:EB; [|lia]. specialize (E3 b s ES EB). lia. }
    replace (length (it_data it) - it_pos it) with ((it_pos it' - it_pos it) + (length (it_data it) - it_pos it')) by lia. rewrite Nat.mul_add_distr_l. 
    replace ((8 + nL j + nM j) * (it_pos it' - it_pos it)) with ((4 + nL j + nM j) * (it_pos it' - it_pos it) + 4 * (it_pos it' - it_pos it)) by lia. lia. }
  destruct (isASCIIAlphanumeric b) eqn:EB.
  2:{ specialize (HS _ eq_refl H). lia. }
  unfold slice_from in *. destruct (Nat.ltb_spec (length (it_data it)) (it_pos it + 1)); [discriminate|]. rewrite result_bind, result_free in H. cbn [bind] in H.
  rewrite (cost_bind _ _ _ _ (skipn (it_pos it + 1) (it_data it))) by reflexivity. rewrite cost_free. assert (ES' : skipn (it_pos it + 1) (it_data it) = s). { rewrite Nat.add_comm, <- skipn_skipn, ES. reflexivity. }
  rewrite ES' in *. rewrite result_bind, result_steps in H. cbn [bind] in H. rewrite (cost_bind _ _ _ _ (alnum_run s)) by reflexivity. rewrite cost_steps.
  pose proof (alnum_run_le s) as HRL. pose proof (f_equal (@length N) ES) as HL. rewrite skipn_length in HL. cbn [length] in HL.
  assert (HOT : forall it'', it'' = with_pos (with_pos it (it_pos it) (it_pos it)) (it_pos it + 1 + alnum_run s) (it_pos it) -> (alnum_run s) + 4 + phi j it'' <= phi j it).
  { intros it'' ->. unfold phi. cbn [with_pos it_data it_pos]. rewrite ES, (tl_alnum _ _ EB). replace (it_pos it + 1 + alnum_run s) with (alnum_run s + (it_pos it + 1)) by lia. rewrite <- skipn_skipn, ES'.
    pose proof (tl_run s). unfold K. replace (length (it_data it) - it_pos it) with (S (alnum_run s) + (length (it_data it) - (alnum_run s + (it_pos it + 1)))) by lia. rewrite Nat.mul_add_distr_l. nia. }
  destruct (Nat.leb_spec (length (it_data it)) (it_pos it + 1 + alnum_run s)).
  { injection H as <-. rewrite cost_free. specialize (HOT _ eq_refl). cbn [with_pos] in HOT |- *. lia. }
  rewrite result_bind, result_steps in H. apply bind_Ok in H. destruct H as (b' & Hb & H). rewrite (cost_bind _ _ _ _ b') by exact Hb. rewrite cost_steps. destruct (b' =? 0x20)%N.
  { injection H as <-. rewrite cost_free. specialize (HOT _ eq_refl). cbn [with_pos] in HOT |- *. lia. }
  specialize (HS _ eq_refl H). lia.
Qed.
Lemma c_false : forall ts it it', result (t_Next ts it) = Ok (false, it') -> cost (t_Next ts it) = 0.
Proof.
  intros ts it it' HN. unfold t_Next in *. destruct (_ <=? _); [reflexivity|]. exfalso. cbv zeta in HN. rewrite result_bind, result_steps in HN. apply bind_Ok in HN. destruct HN as (b & _ & HN).
  assert (S : forall x, result (t_next_split ts x) <> Ok (false, it')).
  { intros x Hx. unfold t_next_split in Hx. rewrite result_bind in Hx. apply bind_Ok in Hx. destruct Hx as (? & _ & Hx). rewrite result_bind in Hx. apply bind_Ok in Hx. destruct Hx as (o & _ & Hx).
    destruct (so_err o); [discriminate|]. destruct (so_advance o <=? 0)%Z; [discriminate|]. cbv zeta in Hx. destruct (_ <? _); discriminate. }
  destruct (isASCIIAlphanumeric b); [|exact (S _ HN)]. rewrite result_bind in HN. apply bind_Ok in HN. destruct HN as (? & _ & HN). rewrite result_bind in HN. apply bind_Ok in HN. destruct HN as (? & _ & HN).
  destruct (_ <=? _); [discriminate|]. rewrite result_bind in HN. apply bind_Ok in HN. destruct HN as (b' & _ & HN). destruct (b' =? 0x20)%N; [discriminate|exact (S _ HN)].
Qed.
Lemma w_linear : forall j d fuel l, result (tcollect (t_Next (t_joinersSplitFunc j)) Value fuel (setJoiners (FromBytes d) j)) = Ok l ->
  cost (tcollect (t_Next (t_joinersSplitFunc j)) Value fuel (setJoiners (FromBytes d) j)) <= (14 + nL j + nM j) * length d + 1.
Proof.
  intros j d fuel l H. pose proof (tcollect_cost _ _ (t_Next (t_joinersSplitFunc j)) Value (fun _ => True) (phi j) 0) as HC.
  assert (HB : cost (tcollect (t_Next (t_joinersSplitFunc j)) Value fuel (setJoiners (FromBytes d) j)) <= phi j (setJoiners (FromBytes d) j) + 0 + 1).
  { eapply HC; [| |exact I|exact H].
    - intros it it' _ HN. split; [exact I|]. apply c_Next. exact HN.
    - intros it it' _ HN. rewrite (c_false _ _ _ HN). lia. }
  unfold phi in HB. cbn [setJoiners FromBytes Split it_data it_pos skipn] in HB. rewrite Nat.sub_0_r in HB. pose proof (tl_wt d). pose proof (wt_bound words_lookup ign d). unfold K in HB. nia.
Qed.
