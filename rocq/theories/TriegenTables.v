(** Facts about the arrays that are printed, and the lookup in them. *)
From Verif Require Import Base Trie SpecUtf8 LookupOnly ListFacts SpecTriegen Triegen TriegenFacts TriegenIns TriegenBuild TriegenSize.
Local Open Scope N_scope.

Lemma tget_Lf : forall p, tget p Lf = 0.
Proof. intros [p|p|]; reflexivity. Qed.
Lemma tget_tset : forall p q x t, tget p (tset q x t) = if Pos.eqb p q then x else tget p t.
Proof.
  induction p as [p IH|p IH|]; intros [q|q|] x [|l v r]; cbn [tset tget Pos.eqb]; try reflexivity; try (rewrite IH; destruct (Pos.eqb p q); try reflexivity; apply tget_Lf); try apply tget_Lf.
Qed.

Lemma succ_pos_eqb : forall a b, Pos.eqb (N.succ_pos a) (N.succ_pos b) = (a =? b).
Proof.
  intros a b. destruct (N.eqb_spec a b) as [->|Hn]; [apply Pos.eqb_refl|]. apply Pos.eqb_neq. intros E. apply Hn. 
  assert (Q : N.pos (N.succ_pos a) = N.pos (N.succ_pos b)) by (f_equal; exact E). rewrite !N.succ_pos_spec in Q. lia.
Qed.

(** An array whose entries agree with a function, and list all its non-zero values, is that function. *)
Lemma arr_fold : forall (f : N -> N) l t k, (forall e, In e l -> snd e = f (fst e)) ->
  tget (N.succ_pos k) (fold_left (fun t e => tset (N.succ_pos (fst e)) (snd e) t) l t) = if existsb (fun e => k =? fst e) l then f k else tget (N.succ_pos k) t.
Proof.
  intros f. induction l as [|e l IH]; intros t k HF; [reflexivity|]. cbn [fold_left existsb]. rewrite IH by (intros e' He; apply HF; right; exact He).
  destruct (existsb (fun e => k =? fst e) l); [rewrite orb_true_r; reflexivity|]. rewrite orb_false_r, tget_tset, succ_pos_eqb.
  destruct (N.eqb_spec k (fst e)) as [->|]; [apply HF; left; reflexivity|reflexivity].
Qed.

Lemma arr_of_get : forall (f : N -> N) n l k, (forall e, In e l -> snd e = f (fst e)) -> (f k <> 0 -> In (k, f k) l) -> k < n -> arr_get (arr_of n l) k = Ok (f k).
Proof.
  intros f n l k HF HC Hk. unfold arr_get, arr_of. cbn [arr_len arr_tree]. apply N.ltb_lt in Hk. rewrite Hk, (arr_fold f) by exact HF. f_equal.
  destruct (existsb (fun e => k =? fst e) l) eqn:E; [reflexivity|]. rewrite tget_Lf. destruct (N.eq_dec (f k) 0) as [->|Hn]; [reflexivity|]. exfalso.
  specialize (HC Hn). assert (X : existsb (fun e => k =? fst e) l = true) by (apply existsb_exists; exists (k, f k); split; [exact HC|apply N.eqb_refl]). rewrite E in X. discriminate.
Qed.

(** What an array made of blocks holds. *)
Definition blk (blocks : list (list N)) (k : N) : N := nth (N.to_nat (k mod 64)) (nth (N.to_nat (k / 64)) blocks []) 0.

Lemma divmod64 : forall n i, (i < 64)%nat -> N.of_nat (n * blockSize + i) / 64 = N.of_nat n /\ N.of_nat (n * blockSize + i) mod 64 = N.of_nat i.
Proof.
  intros n i Hi. unfold blockSize. replace (N.of_nat (n * 64 + i)) with (N.of_nat n * 64 + N.of_nat i) by lia. apply divmod; [discriminate|lia].
Qed.

Lemma in_combine_seq : forall (A : Type) (l : list A) s i x d, In (i, x) (combine (seq s (length l)) l) <-> (s <= i < s + length l)%nat /\ x = nth (i - s) l d.
Proof.
  intros A. induction l as [|y l IH]; intros s i x d; cbn [length seq combine In nth].
  - split; [intros []|intros [Q _]; lia].
  - rewrite (IH (S s) i x d). split.
    + intros [Q|[Q ->]]; [injection Q as <- <-; split; [lia|rewrite Nat.sub_diag; reflexivity]|]. split; [lia|]. replace (i - s)%nat with (S (i - S s)) by lia. reflexivity.
    + intros [Q ->]. destruct (Nat.eq_dec i s) as [->|Hn]; [left; rewrite Nat.sub_diag; reflexivity|right]. split; [lia|]. replace (i - s)%nat with (S (i - S s)) by lia. reflexivity.
Qed.

Lemma in_print_block : forall n block k v, In (k, v) (print_block n block) <-> exists i, (i < length block)%nat /\ k = N.of_nat (n * blockSize + i) /\ v = nth i block 0 /\ v <> 0.
Proof.
  intros n block k v. unfold print_block. rewrite filter_In. cbn [snd]. rewrite negb_true_iff, N.eqb_neq.
  assert (E : combine (map (fun i => N.of_nat (n * blockSize + i)) (seq 0 (length block))) block = map (fun e => (N.of_nat (n * blockSize + fst e), snd e)) (combine (seq 0 (length block)) block)).
  { generalize (seq 0 (length block)) as l. clear. induction block as [|y b IH]; intros [|x l]; cbn [map combine]; try reflexivity. rewrite IH. reflexivity. }
  rewrite E, in_map_iff. split.
  - intros [([i x] & Q & Hi) Hv]. cbn [fst snd] in Q. injection Q as <- <-. apply (in_combine_seq _ _ _ _ _ 0) in Hi as [Hi ->]. rewrite Nat.sub_0_r in *. exists i. repeat split; [lia|exact Hv].
  - intros (i & Hi & -> & -> & Hv). split; [|exact Hv]. exists (i, nth i block 0). split; [reflexivity|]. apply (in_combine_seq _ _ _ _ _ 0). rewrite Nat.sub_0_r. split; [lia|reflexivity].
Qed.

Lemma in_print_blocks : forall blocks k v, In (k, v) (print_blocks blocks) <-> exists n i, (n < length blocks)%nat /\ (i < length (nth n blocks []))%nat /\ k = N.of_nat (n * blockSize + i) /\ v = nth i (nth n blocks []) 0 /\ v <> 0.
Proof.
  intros blocks k v. unfold print_blocks. rewrite in_concat. split.
  - intros (l & Hl & Hk). apply in_map_iff in Hl as ([n block] & <- & He). cbn [fst snd] in Hk. apply (in_combine_seq _ _ _ _ _ []) in He as [Hn ->]. rewrite Nat.sub_0_r in *.
    apply in_print_block in Hk as (i & Hi & -> & -> & Hv). exists n, i. repeat split; [lia|exact Hi|exact Hv].
  - intros (n & i & Hn & Hi & -> & -> & Hv). exists (print_block n (nth n blocks [])). split.
    + apply in_map_iff. exists (n, nth n blocks []). split; [reflexivity|]. apply (in_combine_seq _ _ _ _ _ []). rewrite Nat.sub_0_r. split; [lia|reflexivity].
    + apply in_print_block. exists i. repeat split; [exact Hi|exact Hv].
Qed.

Lemma print_get : forall blocks k, Forall (fun r => (length r <= 64)%nat) blocks -> k < N.of_nat (length blocks * blockSize) ->
  arr_get (arr_of (N.of_nat (length blocks * blockSize)) (print_blocks blocks)) k = Ok (blk blocks k).
Proof.
  intros blocks k F Hk. assert (FL : forall n, (length (nth n blocks []) <= 64)%nat).
  { intros n. destruct (Nat.lt_ge_cases n (length blocks)) as [L|L]; [|rewrite nth_overflow by exact L; cbn; lia]. rewrite Forall_forall in F. apply F. apply nth_In. exact L. }
  apply arr_of_get; [| |exact Hk].
  - intros [k' v] He. apply in_print_blocks in He as (n & i & Hn & Hi & -> & -> & _). cbn [fst snd]. unfold blk. destruct (divmod64 n i) as [-> ->]; [specialize (FL n); lia|]. rewrite !Nnat.Nat2N.id. reflexivity.
  - intros Hv. apply in_print_blocks. unfold blk in *. exists (N.to_nat (k / 64)), (N.to_nat (k mod 64)).
    pose proof (N.div_mod k 64 ltac:(discriminate)) as E. pose proof (N.mod_lt k 64 ltac:(discriminate)) as M.
    assert (Q : k / 64 < N.of_nat (length blocks)) by (apply N.div_lt_upper_bound; [discriminate|]; unfold blockSize in Hk; lia).
    set (q := k / 64) in *. set (m := k mod 64) in *. clearbody q m. rename Hv into Hq. unfold blockSize. repeat split; try assumption; try lia.
    destruct (Nat.lt_ge_cases (N.to_nat m) (length (nth (N.to_nat q) blocks []))) as [L|L]; [exact L|]. rewrite nth_overflow in Hq by exact L. contradiction Hq. reflexivity.
Qed.
