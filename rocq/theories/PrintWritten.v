(** The text that the generator writes for a family of properties, read as Go. *)
From Coq Require Import String.
From Verif Require Import Base Trie SpecUtf8 ListFacts SpecData SpecTriegen Triegen TriegenFacts TriegenIns TriegenBuild TriegenSize TriegenExt TriegenTables TriegenCheck SpecGenerate GenMain GenParse GenFacts.
From Verif Require Import SpecGoSource Print PrintFacts PrintTokens PrintRead PrintGen.
From Coq Require Import Permutation.
Local Open Scope N_scope.

(** * Arrays *)
Definition array_of (ds : list decl) (n : bytes) (a : arr) : Prop := exists f, array_is ds n (arr_len a) f /\ forall i, i < arr_len a -> arr_get a i = Ok (f i).
Lemma element_blk : forall blocks k, Forall (fun r => (length r <= 64)%nat) blocks -> k < N.of_nat (length blocks) * 64 -> element (pblocks 0 blocks) k (blk blocks k).
Proof.
  intros blocks k F Hk. rewrite <- pblocks_ok. assert (FL : forall n, (length (nth n blocks []) <= 64)%nat).
  { intros n. destruct (Nat.lt_ge_cases n (length blocks)) as [L|L]; [|rewrite nth_overflow by exact L; cbn; lia]. rewrite Forall_forall in F. apply F. apply nth_In. exact L. }
  destruct (N.eq_dec (blk blocks k) 0) as [Z|Z].
  - right. split; [exact Z|]. intros x I. apply in_print_blocks in I as (n & i & Hn & Hi & -> & -> & Nz). apply Nz. unfold blk in Z. destruct (divmod64 n i) as [E1 E2]; [specialize (FL n); lia|]. rewrite E1, E2, !Nnat.Nat2N.id in Z. exact Z.
  - left. apply in_print_blocks. unfold blk in *. exists (N.to_nat (k / 64)), (N.to_nat (k mod 64)).
    pose proof (N.div_mod k 64 ltac:(discriminate)) as E. pose proof (N.mod_lt k 64 ltac:(discriminate)) as M.
    assert (Q : k / 64 < N.of_nat (length blocks)) by (apply N.div_lt_upper_bound; [discriminate|]; lia).
    set (q := k / 64) in *. set (m := k mod 64) in *. clearbody q m. unfold blockSize. repeat split; try assumption; try lia.
    destruct (Nat.lt_ge_cases (N.to_nat m) (length (nth (N.to_nat q) blocks []))) as [L|L]; [exact L|]. rewrite nth_overflow in Z by exact L. contradiction Z. reflexivity.
Qed.
Lemma array_of_blocks : forall ds n t blocks, Forall (fun r => (length r <= 64)%nat) blocks -> In (Var n (N.of_nat (length blocks) * 64) t (pblocks 0 blocks)) ds ->
  array_of ds n (arr_of (N.of_nat (length blocks * blockSize)) (print_blocks blocks)).
Proof.
  intros ds n t blocks F I. assert (E : N.of_nat (length blocks * blockSize) = N.of_nat (length blocks) * 64) by (unfold blockSize; lia).
  exists (blk blocks). split.
  - exists t, (pblocks 0 blocks). cbn [arr_of arr_len]. rewrite E. split; [exact I|]. intros k Hk. apply element_blk; assumption.
  - intros k Hk. cbn [arr_of arr_len] in Hk. apply print_get; assumption.
Qed.

(** Entries of the array are entries of the blocks. *)
Lemma get_entry : forall blocks row v, Forall (fun r => (length r <= 64)%nat) blocks -> In row blocks -> In v row ->
  exists k, arr_get (arr_of (N.of_nat (length blocks * blockSize)) (print_blocks blocks)) k = Ok v.
Proof.
  intros blocks row v F Ir Iv. assert (L : (length row <= 64)%nat) by (rewrite Forall_forall in F; exact (F row Ir)). apply (In_nth _ _ []) in Ir as (n & Hn & <-). apply (In_nth _ _ 0) in Iv as (i & Hi & <-).
  exists (N.of_nat (n * blockSize + i)). rewrite print_get; [|exact F|unfold blockSize; nia]. unfold blk. destruct (divmod64 n i ltac:(lia)) as [-> ->]. rewrite !Nnat.Nat2N.id. reflexivity.
Qed.

(** * Families *)
Lemma generates_trie : forall props t, family props -> generates props (Ok t) -> full_root t /\ vb (2 ^ N.of_nat (length props)) t.
Proof.
  intros props t F G. inversion G as [v1 v2 P1 P2 E]. destruct (generates_visit _ _ _ F P1 P2) as [A _]. unfold trie_of in E. split; [exact (inserts_full v2 NewTrie t full_new A E)|].
  refine (inserts_vb _ v2 NewTrie t _ (new_vb _ _) E); [|apply N.neq_0_lt_0, N.pow_nonzero; discriminate]. intros [r v] I. cbn [snd].
  apply (Permutation_in _ (Permutation_sym P2)) in I. apply (rget_in _ _ _ (iotasByRune_nodup _ _)) in I. rewrite (rget_visit props v1 r P1) in I. rewrite <- I. exact (proj2 (combined_carries props r F)).
Qed.

Definition printable (n : bytes) : Prop := Forall (fun c => wordy c = true) n /\ exists c, In c n /\ c <> 0x5F.
Lemma printable_good : forall n, printable n -> good_name n.
Proof.
  intros n [F (c & I & Q)]. split; [apply forallb_forall; rewrite Forall_forall in F; exact F|]. intros E. assert (J : In c (no_underscores n)); [|rewrite E in J; destruct J]. unfold no_underscores. apply filter_In. split; [exact I|]. apply negb_true_iff, N.eqb_neq. exact Q.
Qed.

Lemma powers_nth : forall names i k n, nth_error names k = Some n -> In (const_name n, 2 ^ (i + N.of_nat k)) (powers i names).
Proof.
  induction names as [|m names IH]; intros i k n E; [destruct k; discriminate E|]. destruct k as [|k]; cbn [nth_error powers] in *.
  - injection E as ->. left. rewrite N.add_0_r. reflexivity.
  - right. replace (i + N.of_nat (S k)) with (i + 1 + N.of_nat k) by lia. apply IH. exact E.
Qed.
Lemma width_le : forall n, (n <= 64)%nat -> N.of_nat n <= property_width n.
Proof. intros n L. unfold property_width. destruct (Nat.ltb_spec n 8); [lia|]. destruct (Nat.ltb_spec n 16); [lia|]. destruct (Nat.ltb_spec n 32); lia. Qed.
Lemma width_8 : forall n, (8 <= n)%nat -> 16 <= property_width n.
Proof. intros n L. unfold property_width. destruct (Nat.ltb_spec n 8); [lia|]. destruct (Nat.ltb_spec n 16); [lia|]. destruct (Nat.ltb_spec n 32); lia. Qed.
Lemma width_ge8 : forall n, 8 <= property_width n.
Proof. intros n. unfold property_width. destruct (Nat.ltb_spec n 8); [lia|]. destruct (Nat.ltb_spec n 16); [lia|]. destruct (Nat.ltb_spec n 32); lia. Qed.

Lemma written : forall H p props t out, family props -> props <> [] -> Forall printable (map fst props) -> NoDup (map no_underscores (map fst props)) -> generates props (Ok t) ->
  (8 <= length props)%nat \/ (forall i v, arr_get (g_index (Gen H t)) i = Ok v -> v < 256) ->
  tokens out = tokens (writeTrie H p (sortStrings (map fst props)) t) ->
  exists ds, read_go out = Some ds /\ package_is ds (package_name p) /\ In (Type_ (str "property") (inttype (length props))) ds /\
    (forall n rs i, In (n, rs) props -> rank (map fst props) n i -> constant_is ds (const_name n) (2 ^ N.of_nat i)) /\
    array_of ds (values_name p) (g_values (Gen H t)) /\ array_of ds (index_name p) (g_index (Gen H t)).
Proof.
  intros H p props t out F NE Pr Nd G Fit E. destruct (generates_trie props t F G) as [Ft Vt].
  pose proof (root_held H (2 ^ N.of_nat (length props)) t ltac:(apply N.neq_0_lt_0, N.pow_nonzero; discriminate) Ft Vt) as R. pose proof (root_size H t (proj1 Ft)) as S.
  pose proof (sort_perm (map fst props)) as P. unfold writeTrie in E. unfold Gen in *. destruct (buildTrie H t) as [h b]. cbn [g_values g_index tables fst snd] in *. destruct R as [R1 R2]. destruct S as [(_ & Si & Sv) _].
  set (names := sortStrings (map fst props)) in *.
  assert (Ln : length names = length props) by (rewrite <- (Permutation_length P); apply map_length).
  destruct F as (N1 & L & Sc).
  assert (Fv : rows_fit (property_width (length names)) (b_values b)).
  { apply Forall_forall. intros row I. split; [rewrite Forall_forall in Sv; exact (Sv row I)|]. apply Forall_forall. intros v Iv. eapply N.lt_le_trans; [exact (R1 row v I Iv)|]. rewrite Ln. apply N.pow_le_mono_r; [discriminate|]. exact (width_le _ L). }
  assert (Fi : rows_fit (property_width (length names)) (b_index b)).
  { apply Forall_forall. intros row I. split; [rewrite Forall_forall in Si; exact (Si row I)|]. apply Forall_forall. intros v Iv. rewrite Ln. destruct Fit as [Fit|Fit].
    - eapply N.lt_le_trans; [exact (R2 row v I Iv)|]. change 65536 with (2 ^ 16). apply N.pow_le_mono_r; [discriminate|]. exact (width_8 _ Fit).
    - destruct (get_entry (b_index b) row v Si I Iv) as (k & Ek). eapply N.lt_le_trans; [exact (Fit k v Ek)|]. change 256 with (2 ^ 8). apply N.pow_le_mono_r; [discriminate|]. apply width_ge8. }
  exists (file_decls p names (b_values b) (b_index b)). split; [|split; [|split; [|split; [|split]]]].
  - eapply read_file; [| | | |exact Fv|exact Fi|exact E].
    + intros Q. rewrite Q in Ln. destruct props; [exact (NE eq_refl)|discriminate Ln].
    + apply Forall_forall. intros n I. apply printable_good. rewrite Forall_forall in Pr. apply Pr. exact (Permutation_in _ (Permutation_sym P) I).
    + apply (Permutation_NoDup (Permutation_map no_underscores P)). exact Nd.
    + rewrite Ln. exact L.
  - left. reflexivity.
  - right. left. rewrite Ln. reflexivity.
  - intros n rs i I Rk. destruct (position props n rs N1 I) as (k & Ek & _). rewrite (rank_position _ _ _ _ N1 Ek Rk). exists (str "property"), (powers 0 names). split; [right; right; left; reflexivity|]. exact (powers_nth names 0 k n Ek).
  - eapply array_of_blocks; [exact Sv|]. do 5 right. left. reflexivity.
  - eapply array_of_blocks; [exact Si|]. do 6 right. left. reflexivity.
Qed.
