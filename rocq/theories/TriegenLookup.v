(** The lookup in the generated tables follows the trie. *)
From Verif Require Import Base Trie SpecUtf8 LookupOnly ListFacts SpecTriegen Triegen TriegenMany SpecTrieHash TriegenFacts TriegenIns TriegenBuild TriegenSize TriegenTables.
Local Open Scope N_scope.

Lemma shaped_len : forall b r, shaped (b :: r) -> length (b :: r) = announced b.
Proof.
  intros b [|c r] S; [|exact (proj2 (proj2 S))]. cbn [shaped] in S. unfold announced. destruct (N.ltb_spec b 0xC2); [reflexivity|lia].
Qed.
Lemma shaped_prefix : forall s s' r r', shaped s -> shaped s' -> s ++ r = s' ++ r' -> s = s'.
Proof.
  intros [|b s] [|b' s'] r r' S S' E; try contradiction. injection E as -> E. pose proof (shaped_len _ _ S) as L. pose proof (shaped_len _ _ S') as L'. cbn [length] in L, L'.
  f_equal. assert (Q : length s = length s') by lia. apply (f_equal (firstn (length s))) in E. rewrite firstn_app, firstn_all, Nat.sub_diag, app_nil_r in E. rewrite E, Q.
  rewrite firstn_app, firstn_all, Nat.sub_diag, app_nil_r. reflexivity.
Qed.

Definition getp (s : bytes) (on : option node) : N := match on with None => 0 | Some n => get_path s n end.

(** If every access of the lookup follows the trie, so does the lookup. *)
Section Steps.
  Variable t : node.
  Variable lv : N -> N -> res N.
  Variable tr : trie.
  (** Block i stands for this node of depth k, or for nothing. *)
  Variable state : nat -> option node -> N -> Prop.
  Hypothesis step_value : forall on i c, state 0 on i -> cont c -> lv i c = Ok (getp [c] on).
  Hypothesis step_index : forall k on i c, state (S k) on i -> cont c ->
    exists on' i', arr_get (t_index tr) (u32 (u32 (N.shiftl i 6) + c)) = Ok i' /\ state k on' i' /\ forall c2 r, getp (c :: c2 :: r) on = getp (c2 :: r) on'.
  Hypothesis step_root : forall c, 0xC2 <= c < 0xF8 ->
    exists on i, arr_get (t_index tr) (t_utf8Start tr + c) = Ok i /\ state (depth (N.to_nat (c - 0xC0))) on i /\ forall c2 r, get t (c :: c2 :: r) = getp (c2 :: r) on.
  Hypothesis step_ascii : forall c, c < 0x80 -> arr_get (t_values tr) (t_ascii tr + c) = Ok (nth (N.to_nat c) (values t) 0).

  Lemma notCont_cont : forall c, notCont c = false -> cont c.
  Proof. intros c Hc. apply cont_range in Hc. exact Hc. Qed.
  Lemma notCont_not : forall c, notCont c = true -> ~ cont c.
  Proof. intros c Hc C. unfold notCont, cont in *. apply orb_true_iff in Hc as [Hc|Hc]; [apply N.ltb_lt in Hc|apply N.leb_le in Hc]; lia. Qed.

  Definition answer (d : bytes) (v : N) (w : nat) : Prop :=
    (exists s rest, shaped s /\ d = s ++ rest /\ v = get t s /\ w = length s) \/ (v = 0 /\ forall s rest, shaped s -> d <> s ++ rest).

  Lemma no_shape_len : forall c r n, announced c = n -> (length (c :: r) < n)%nat -> forall s rest, shaped s -> c :: r <> s ++ rest.
  Proof.
    intros c r n A L [|c' s] rest S E; [destruct S|]. injection E as <- E. pose proof (shaped_len _ _ S) as Q. rewrite A in Q. subst r. cbn [length] in *. rewrite app_length in L. lia.
  Qed.
  Lemma no_shape_lead : forall c r, 0x80 <= c -> (c < 0xC2 \/ 0xF8 <= c) -> forall s rest, shaped s -> c :: r <> s ++ rest.
  Proof.
    intros c r L B [|c' [|c2 s]] rest S E; [destruct S| |]; injection E as <- E; cbn [shaped] in S; lia.
  Qed.
  Lemma no_shape_cont : forall c r k x, (1 < announced c)%nat -> (S k < announced c)%nat -> nth_error r k = Some x -> notCont x = true -> forall s rest, shaped s -> c :: r <> s ++ rest.
  Proof.
    intros c r k x A1 A X N [|c' s] rest S E; [destruct S|]. injection E as <- E. pose proof (shaped_len _ _ S) as Q. cbn [length] in Q. destruct s as [|c2 s]; [cbn [length] in Q; lia|].
    destruct S as (_ & F & _). subst r. rewrite nth_error_app1 in X by lia. apply nth_error_In in X. rewrite Forall_forall in F. exact (notCont_not _ N (F _ X)).
  Qed.

  Lemma announced_2 : forall c, 0xC2 <= c -> c < 0xE0 -> announced c = 2%nat.
  Proof. intros c A B. unfold announced. destruct (N.ltb_spec c 0xC2); [lia|]. destruct (N.ltb_spec c 0xE0); [reflexivity|lia]. Qed.
  Lemma announced_3 : forall c, 0xE0 <= c -> c < 0xF0 -> announced c = 3%nat.
  Proof. intros c A B. unfold announced. destruct (N.ltb_spec c 0xC2); [lia|]. destruct (N.ltb_spec c 0xE0); [lia|]. destruct (N.ltb_spec c 0xF0); [reflexivity|lia]. Qed.
  Lemma announced_4 : forall c, 0xF0 <= c -> c < 0xF8 -> announced c = 4%nat.
  Proof. intros c A B. unfold announced. destruct (N.ltb_spec c 0xC2); [lia|]. destruct (N.ltb_spec c 0xE0); [lia|]. destruct (N.ltb_spec c 0xF0); [lia|]. destruct (N.ltb_spec c 0xF8); [reflexivity|lia]. Qed.

  Lemma steps_answer : forall d, d <> [] -> exists v w, lookup_with lv tr d = Ok (v, w) /\ answer d v w.
  Proof.
    intros [|c0 r] Hd; [contradiction Hd; reflexivity|]. unfold lookup_with. unfold byte_at at 1. cbn [nth_error bind].
    destruct (N.ltb_spec c0 0x80) as [H0|H0].
    { rewrite (step_ascii c0 H0). cbn [bind]. do 2 eexists. split; [reflexivity|]. left. exists [c0], r. repeat split. exact H0. }
    destruct (N.ltb_spec c0 0xC2) as [H1|H1].
    { do 2 eexists. split; [reflexivity|]. right. split; [reflexivity|]. apply no_shape_lead; [exact H0|left; exact H1]. }
    destruct (N.ltb_spec c0 0xE0) as [H2|H2].
    { pose proof (announced_2 c0 H1 H2) as A. destruct (Nat.ltb_spec (length (c0 :: r)) 2) as [L|L].
      { do 2 eexists. split; [reflexivity|]. right. split; [reflexivity|]. exact (no_shape_len c0 r 2 A L). }
      destruct (step_root c0 ltac:(lia)) as (on & i & E & S & G). rewrite E. cbn [bind].
      destruct r as [|c1 r]; [cbn [length] in L; lia|]. unfold byte_at at 1. cbn [nth_error bind].
      destruct (notCont c1) eqn:N1.
      { do 2 eexists. split; [reflexivity|]. right. split; [reflexivity|]. apply (no_shape_cont c0 (c1 :: r) 0 c1); [lia|lia|reflexivity|exact N1]. }
      apply notCont_cont in N1. replace (depth (N.to_nat (c0 - 0xC0))) with 0%nat in S by (unfold depth; destruct (Nat.ltb_spec (N.to_nat (c0 - 0xC0)) 32); [reflexivity|lia]).
      rewrite (step_value on i c1 S N1). cbn [bind]. do 2 eexists. split; [reflexivity|]. left. exists [c0; c1], r. repeat split; [lia|lia|constructor; [exact N1|constructor]|rewrite A; reflexivity|]. symmetry. apply G. }
    destruct (N.ltb_spec c0 0xF0) as [H3|H3].
    { pose proof (announced_3 c0 H2 H3) as A. destruct (Nat.ltb_spec (length (c0 :: r)) 3) as [L|L].
      { do 2 eexists. split; [reflexivity|]. right. split; [reflexivity|]. exact (no_shape_len c0 r 3 A L). }
      destruct (step_root c0 ltac:(lia)) as (on & i & E & S & G). rewrite E. cbn [bind].
      destruct r as [|c1 [|c2 r]]; try (cbn [length] in L; lia). unfold byte_at at 1. cbn [nth_error bind].
      destruct (notCont c1) eqn:N1.
      { do 2 eexists. split; [reflexivity|]. right. split; [reflexivity|]. apply (no_shape_cont c0 (c1 :: c2 :: r) 0 c1); [lia|lia|reflexivity|exact N1]. }
      apply notCont_cont in N1. replace (depth (N.to_nat (c0 - 0xC0))) with 1%nat in S by (unfold depth; destruct (Nat.ltb_spec (N.to_nat (c0 - 0xC0)) 32); [lia|]; destruct (Nat.ltb_spec (N.to_nat (c0 - 0xC0)) 48); [reflexivity|lia]).
      destruct (step_index 0 on i c1 S N1) as (on1 & i1 & E1 & S1 & G1). rewrite E1. cbn [bind]. unfold byte_at at 1. cbn [nth_error bind].
      destruct (notCont c2) eqn:N2.
      { do 2 eexists. split; [reflexivity|]. right. split; [reflexivity|]. apply (no_shape_cont c0 (c1 :: c2 :: r) 1 c2); [lia|lia|reflexivity|exact N2]. }
      apply notCont_cont in N2. rewrite (step_value on1 i1 c2 S1 N2). cbn [bind]. do 2 eexists. split; [reflexivity|]. left. exists [c0; c1; c2], r.
      repeat split; [lia|lia|repeat (constructor; [assumption|]); constructor|rewrite A; reflexivity|]. rewrite G, G1. reflexivity. }
    destruct (N.ltb_spec c0 0xF8) as [H4|H4].
    { pose proof (announced_4 c0 H3 H4) as A. destruct (Nat.ltb_spec (length (c0 :: r)) 4) as [L|L].
      { do 2 eexists. split; [reflexivity|]. right. split; [reflexivity|]. exact (no_shape_len c0 r 4 A L). }
      destruct (step_root c0 ltac:(lia)) as (on & i & E & S & G). rewrite E. cbn [bind].
      destruct r as [|c1 [|c2 [|c3 r]]]; try (cbn [length] in L; lia). unfold byte_at at 1. cbn [nth_error bind].
      destruct (notCont c1) eqn:N1.
      { do 2 eexists. split; [reflexivity|]. right. split; [reflexivity|]. apply (no_shape_cont c0 (c1 :: c2 :: c3 :: r) 0 c1); [lia|lia|reflexivity|exact N1]. }
      apply notCont_cont in N1. replace (depth (N.to_nat (c0 - 0xC0))) with 2%nat in S by (unfold depth; destruct (Nat.ltb_spec (N.to_nat (c0 - 0xC0)) 32); [lia|]; destruct (Nat.ltb_spec (N.to_nat (c0 - 0xC0)) 48); [lia|reflexivity]).
      destruct (step_index 1 on i c1 S N1) as (on1 & i1 & E1 & S1 & G1). rewrite E1. cbn [bind]. unfold byte_at at 1. cbn [nth_error bind].
      destruct (notCont c2) eqn:N2.
      { do 2 eexists. split; [reflexivity|]. right. split; [reflexivity|]. apply (no_shape_cont c0 (c1 :: c2 :: c3 :: r) 1 c2); [lia|lia|reflexivity|exact N2]. }
      apply notCont_cont in N2. destruct (step_index 0 on1 i1 c2 S1 N2) as (on2 & i2 & E2 & S2 & G2). rewrite E2. cbn [bind]. unfold byte_at at 1. cbn [nth_error bind].
      destruct (notCont c3) eqn:N3.
      { do 2 eexists. split; [reflexivity|]. right. split; [reflexivity|]. apply (no_shape_cont c0 (c1 :: c2 :: c3 :: r) 2 c3); [lia|lia|reflexivity|exact N3]. }
      apply notCont_cont in N3. rewrite (step_value on2 i2 c3 S2 N3). cbn [bind]. do 2 eexists. split; [reflexivity|]. left. exists [c0; c1; c2; c3], r.
      repeat split; [lia|lia|repeat (constructor; [assumption|]); constructor|rewrite A; reflexivity|]. rewrite G, G1, G2. reflexivity. }
    do 2 eexists. split; [reflexivity|]. right. split; [reflexivity|]. apply no_shape_lead; [exact H0|right; exact H4].
  Qed.
End Steps.

Lemma get_block : forall blocks n block j, Forall (fun r => (length r <= 64)%nat) blocks -> nth_error blocks n = Some block -> j < 64 ->
  arr_get (arr_of (N.of_nat (length blocks * blockSize)) (print_blocks blocks)) (N.of_nat n * 64 + j) = Ok (nth (N.to_nat j) block 0).
Proof.
  intros blocks n block j F E Hj. assert (L : (n < length blocks)%nat) by (apply nth_error_Some; rewrite E; discriminate).
  rewrite print_get; [|exact F|unfold blockSize; nia]. unfold blk. destruct (divmod (N.of_nat n) j 64 ltac:(discriminate) Hj) as [-> ->]. rewrite Nnat.Nat2N.id.
  rewrite (nth_error_nth _ _ [] E). reflexivity.
Qed.
Lemma addr : forall i c, i < 0x3FFFFFE -> cont c -> u32 (u32 (N.shiftl i 6) + c) = N.of_nat (N.to_nat i + 2) * 64 + (c - 0x80).
Proof.
  intros i c Hi Hc. unfold cont in Hc. unfold u32. rewrite N.shiftl_mul_pow2. change (2 ^ 6) with 64. change 0xFFFFFFFF with (N.ones 32). rewrite !N.land_ones. change (2 ^ 32) with 4294967296.
  rewrite (N.mod_small (i * 64)) by lia. rewrite N.mod_small by lia. lia.
Qed.

Section Tables.
  Variable t : node.
  Variable b : builder.
  Variable row : list N.
  (** The blocks of the root and of the ASCII values begin here (at nothing, if the trie is the only one). *)
  Variables r0 a0 : nat.
  Hypothesis W : wf_root t.
  Hypothesis Srow : nth_error (b_index b) (r0 + 3) = Some row.
  Hypothesis Lrow : length row = 64%nat.
  Hypothesis Crow : forall p oc, nth_error (children t) p = Some oc -> match oc with None => nth p row 0 = 0 | Some c => repr (depth p) b c (nth p row 0) end.
  Hypothesis I3 : forall j, (j < 3)%nat -> nth_error (b_index b) j = Some [].
  Hypothesis V0 : nth_error (b_values b) a0 = Some (firstn blockSize (values t)).
  Hypothesis V1 : nth_error (b_values b) (S a0) = Some (skipn blockSize (values t)).
  Hypothesis V2 : nth_error (b_values b) 2 = Some (repeat 0 blockSize).
  Hypothesis Sm : small b.
  Hypothesis Cn : count b <= 0x4000000.

  Let Values : arr := fst (tables b).
  Let Index : arr := snd (tables b).
  Let tr : trie := {| t_values := Values; t_index := Index; t_ascii := N.of_nat a0 * 64; t_utf8Start := N.of_nat r0 * 64 |}.

  Lemma vget : forall n block j, nth_error (b_values b) n = Some block -> j < 64 -> arr_get Values (N.of_nat n * 64 + j) = Ok (nth (N.to_nat j) block 0).
  Proof. intros n block j E Hj. apply get_block; [exact (proj2 (proj2 Sm))|exact E|exact Hj]. Qed.
  Lemma iget : forall n block j, nth_error (b_index b) n = Some block -> j < 64 -> arr_get Index (N.of_nat n * 64 + j) = Ok (nth (N.to_nat j) block 0).
  Proof. intros n block j E Hj. apply get_block; [exact (proj1 (proj2 Sm))|exact E|exact Hj]. Qed.

  Definition state (k : nat) (on : option node) (i : N) : Prop := match on with None => i = 0 | Some n => wf k n /\ repr k b n i end.


  Lemma state_small : forall k on i, state k on i -> i < 0x3FFFFFE.
  Proof.
    intros k [n|] i S; [|cbn in S; subst; reflexivity]. destruct S as [_ R]. unfold count in Cn. destruct k as [|k].
    - cbn [repr] in R. assert (L : (N.to_nat i + 2 < length (b_values b))%nat) by (apply nth_error_Some; rewrite R; discriminate). lia.
    - destruct R as (_ & r & R & _). assert (L : (N.to_nat i + 2 < length (b_index b))%nat) by (apply nth_error_Some; rewrite R; discriminate). lia.
  Qed.

  Lemma step_value : forall on i c, state 0 on i -> cont c -> lookupValue Values i c = Ok (getp [c] on).
  Proof.
    intros on i c S Hc. pose proof (state_small _ _ _ S) as Hi. unfold lookupValue. rewrite addr by assumption. destruct on as [n|]; cbn [state getp get_path] in *.
    - destruct S as [_ R]. apply (vget _ _ _ R). unfold cont in Hc. lia.
    - subst i. cbn [N.to_nat Nat.add]. rewrite (vget 2 _ _ V2) by (unfold cont in Hc; lia). rewrite nth_repeat_0. reflexivity.
  Qed.

  Lemma step_index : forall k on i c, state (S k) on i -> cont c ->
    exists on' i', arr_get Index (u32 (u32 (N.shiftl i 6) + c)) = Ok i' /\ state k on' i' /\ forall c2 r, getp (c :: c2 :: r) on = getp (c2 :: r) on'.
  Proof.
    intros k on i c S Hc. pose proof (state_small _ _ _ S) as Hi. rewrite addr by assumption. assert (Hj : c - 0x80 < 64) by (unfold cont in Hc; lia). destruct on as [n|]; cbn [state] in S.
    - destruct S as [Wn R]. destruct R as (_ & r & R & L & C). destruct Wn as (_ & Wl & Wc).
      destruct (nth_error (children n) (N.to_nat (c - 0x80))) as [oc|] eqn:E; [|apply nth_error_None in E; lia].
      exists oc, (nth (N.to_nat (c - 0x80)) r 0). rewrite (iget _ _ _ R Hj). split; [reflexivity|]. specialize (C _ _ E). split.
      + destruct oc as [c'|]; [split; [exact (Wc _ _ E)|exact C]|exact C].
      + intros c2 r2. change (getp (c :: c2 :: r2) (Some n)) with (match nth_error (children n) (N.to_nat (c mod 64)) with Some (Some c') => get_path (c2 :: r2) c' | _ => 0 end).
        rewrite cont_mod by exact Hc. rewrite E. destruct oc; reflexivity.
    - subst i. exists None, 0. cbn [N.to_nat Nat.add]. rewrite (iget 2 _ _ (I3 2%nat ltac:(lia)) Hj). split; [destruct (N.to_nat (c - 0x80)); reflexivity|]. split; reflexivity.
  Qed.

  Lemma step_root : forall c, 0xC2 <= c < 0xF8 ->
    exists on i, arr_get Index (N.of_nat r0 * 64 + c) = Ok i /\ state (depth (N.to_nat (c - 0xC0))) on i /\ forall c2 r, get t (c :: c2 :: r) = getp (c2 :: r) on.
  Proof.
    intros c Hc. assert (Hj : c - 0xC0 < 64) by lia. pose proof (iget _ row (c - 0xC0) Srow Hj) as Ig. replace (N.of_nat (r0 + 3) * 64 + (c - 0xC0)) with (N.of_nat r0 * 64 + c) in Ig by lia.
    destruct W as (_ & Wl & Wc). destruct (nth_error (children t) (N.to_nat (c - 0xC0))) as [oc|] eqn:E; [|apply nth_error_None in E; lia].
    exists oc, (nth (N.to_nat (c - 0xC0)) row 0). rewrite Ig. split; [reflexivity|]. pose proof (Crow _ _ E) as C. split.
    - destruct oc as [c'|]; [split; [exact (Wc _ _ E)|exact C]|exact C].
    - intros c2 r2. change (get t (c :: c2 :: r2)) with (match nth_error (children t) (N.to_nat (c mod 64)) with Some (Some c') => get_path (c2 :: r2) c' | _ => 0 end).
      rewrite mod_hi by lia. rewrite E. destruct oc; reflexivity.
  Qed.

  Lemma step_ascii : forall c, c < 0x80 -> arr_get Values (N.of_nat a0 * 64 + c) = Ok (nth (N.to_nat c) (values t) 0).
  Proof.
    intros c Hc. destruct W as (Wv & _ & _). destruct (N.lt_ge_cases c 64) as [L|L].
    - rewrite (vget _ _ _ V0 L). f_equal. rewrite <- (firstn_skipn blockSize (values t)) at 2. rewrite app_nth1; [reflexivity|]. rewrite firstn_length. unfold blockSize. lia.
    - replace (N.of_nat a0 * 64 + c) with (N.of_nat (S a0) * 64 + (c - 64)) by lia. rewrite (vget _ _ _ V1) by lia. f_equal. rewrite <- (firstn_skipn blockSize (values t)) at 2.
      assert (Lf : length (firstn blockSize (values t)) = 64%nat) by (rewrite firstn_length; unfold blockSize; lia).
      rewrite app_nth2 by lia. rewrite Lf. f_equal. lia.
  Qed.

  Lemma lookup_answer : forall d, d <> [] -> exists v w, lookup_in tr d = Ok (v, w) /\ answer t d v w.
  Proof. exact (steps_answer t _ tr state step_value step_index step_root step_ascii). Qed.
End Tables.

(** A lookup that answers the trie answers the assignment. *)
Lemma answer_looks_up : forall l t (f : bytes -> res (N * nat)), assignable l -> inserts NewTrie l = Ok t ->
  (wf_root t -> forall d, d <> [] -> exists v w, f d = Ok (v, w) /\ answer t d v w) -> looks_up Ok f l.
Proof.
  intros l t f A E F d Hd. destruct (inserts_get l NewTrie wf_new A) as (t' & E' & Wt & G & O). rewrite E in E'. injection E' as <-.
  destruct (F Wt d Hd) as (v & w & L & An). exists v, w. split; [exact L|]. split.
  - intros cp rest Sc Ed. pose proof (utf8_shaped cp Sc) as Sh. destruct An as [(s & r & Ss & Es & -> & ->)|[_ N]].
    + assert (s = utf8 cp) by (apply (shaped_prefix s (utf8 cp) r rest Ss Sh); congruence). subst s. split; [|reflexivity].
      rewrite (G cp Sc), get_new. destruct (N.eqb_spec (assigned l cp) 0) as [Q|Q]; cbn [negb]; congruence.
    + exfalso. exact (N _ _ Sh Ed).
  - intros Hv. destruct An as [(s & r & Ss & Es & Ev & _)|[Q _]]; [|contradiction].
    assert (Hs : get t s <> 0) by congruence. destruct (O s Ss Hs) as [(cp & Sc & ->)|Q]; [exists cp, r; split; assumption|]. contradiction Q. apply get_new.
Qed.

Lemma Gen_looks_up : forall H l t, assignable l -> inserts NewTrie l = Ok t -> distinct H t ->
  looks_up Ok (lookup (g_values (Gen H t)) (g_index (Gen H t))) l.
Proof.
  intros H l t A E D. apply (answer_looks_up l t _ A E). intros Wt d Hd.
  pose proof (root_ok H t Wt D) as R. pose proof (root_size H t Wt) as S. unfold Gen. destruct (buildTrie H t) as [h b]. cbn [g_values g_index].
  destruct R as (_ & row & Sr & Lr & Cr & I3 & V0 & V1 & V2). destruct S as [Sm Cn].
  assert (Cn' : count b <= 0x4000000) by (apply N.le_trans with 266311; [exact Cn|discriminate]).
  exact (lookup_answer t b row 0 0 Wt Sr Lr Cr I3 V0 V1 V2 Sm Cn' d Hd).
Qed.
