(** The text that is written depends only on the two arrays, the size and the checksum. *)
From Coq Require Import String.
From Verif Require Import Base Trie SpecData SpecTriegen Triegen TriegenFacts TriegenSize TriegenTables TriegenRun TriegenCheck GenMain GenParse.
From Verif Require Import SpecGoSource Print PrintCheck.
Local Open Scope N_scope.

Lemma entries_zeros : forall per digits k i boff nl, print_entries per digits i boff nl (repeat 0 k) = [].
Proof. intros per digits. induction k as [|k IH]; intros i boff nl; [reflexivity|]. cbn [repeat print_entries N.eqb]. apply IH. Qed.
Lemma entries_pad : forall per digits k values i boff nl, print_entries per digits i boff nl (values ++ repeat 0 k) = print_entries per digits i boff nl values.
Proof.
  intros per digits k. induction values as [|v r IH]; intros i boff nl; [apply entries_zeros|]. cbn [app print_entries]. cbv zeta. destruct (v =? 0); [apply IH|]. rewrite IH. reflexivity.
Qed.

Lemma nth_run : forall n lo j, (j < n)%nat -> nth j (run lo n) 0 = lo + N.of_nat j.
Proof. induction n as [|n IH]; intros lo j L; [lia|]. destruct j as [|j]; cbn [run nth]; [lia|]. rewrite IH by lia. lia. Qed.
Definition blocks_of (a : arr) : list (list N) := map (blockof a) (run 0 (N.to_nat (arr_len a / 64))).
Lemma block_padded : forall blocks n, Forall (fun r => (length r <= 64)%nat) blocks -> (n < length blocks)%nat ->
  blockof (arr_of (N.of_nat (length blocks * blockSize)) (print_blocks blocks)) (N.of_nat n) = nth n blocks [] ++ repeat 0 (64 - length (nth n blocks [])).
Proof.
  intros blocks n F Hn. set (a := arr_of _ _). assert (L : (length (nth n blocks []) <= 64)%nat) by (rewrite Forall_forall in F; apply F; apply nth_In; exact Hn).
  apply (nth_ext _ _ 0 0). { rewrite blockof_len, app_length, repeat_length. lia. }
  intros j Hj. rewrite blockof_len in Hj. unfold blockof.
  rewrite (nth_indep _ 0 ((fun j => tget (N.succ_pos (N.of_nat n * 64 + j)) (arr_tree a)) 0)) by (rewrite map_length, run_len; exact Hj).
  rewrite (map_nth (fun j => tget (N.succ_pos (N.of_nat n * 64 + j)) (arr_tree a))), (nth_run 64 0 j Hj), N.add_0_l.
  pose proof (print_get blocks (N.of_nat n * 64 + N.of_nat j) F) as G. fold a in G. specialize (G ltac:(unfold blockSize; nia)). clearbody a.
  unfold arr_get in G. destruct (_ <? _); [|discriminate G]. injection G as G. rewrite G. unfold blk.
  replace (N.of_nat n * 64 + N.of_nat j) with (N.of_nat (n * blockSize + j)) by (unfold blockSize; lia). destruct (divmod64 n j Hj) as [-> ->]. rewrite !Nnat.Nat2N.id.
  destruct (Nat.lt_ge_cases j (length (nth n blocks []))) as [Q|Q]; [rewrite app_nth1 by exact Q; reflexivity|]. rewrite app_nth2 by exact Q. rewrite nth_overflow by exact Q. symmetry. apply nth_repeat.
Qed.
Lemma blocks_len : forall n l, length (blocks_of (arr_of (N.of_nat (n * blockSize)) l)) = n.
Proof. intros n l. unfold blocks_of. rewrite map_length, run_len. cbn [arr_of arr_len]. unfold blockSize. rewrite Nnat.Nat2N.inj_mul. change (N.of_nat 64) with 64. rewrite N.div_mul by discriminate. lia. Qed.
Lemma blocks_nth : forall blocks n, Forall (fun r => (length r <= 64)%nat) blocks -> (n < length blocks)%nat ->
  nth n (blocks_of (arr_of (N.of_nat (length blocks * blockSize)) (print_blocks blocks))) [] = nth n blocks [] ++ repeat 0 (64 - length (nth n blocks [])).
Proof.
  intros blocks n F Hn. rewrite <- (block_padded blocks n F Hn). set (a := arr_of _ _). unfold blocks_of.
  assert (E : N.to_nat (arr_len a / 64) = length blocks) by (unfold a; cbn [arr_of arr_len]; unfold blockSize; rewrite Nnat.Nat2N.inj_mul; change (N.of_nat 64) with 64; rewrite N.div_mul by discriminate; lia).
  rewrite E. rewrite (nth_indep _ [] (blockof a 0)) by (rewrite map_length, run_len; exact Hn). rewrite (map_nth (blockof a)), (nth_run _ 0 n Hn), N.add_0_l. reflexivity.
Qed.
Lemma print_all_ext : forall f bs bs' n, length bs = length bs' -> (forall k m, (k < length bs)%nat -> f m (nth k bs []) = f m (nth k bs' [])) -> print_all f n bs = print_all f n bs'.
Proof.
  intros f. induction bs as [|b bs IH]; intros [|b' bs'] n L E; try discriminate L; [reflexivity|]. cbn [print_all]. f_equal.
  - f_equal. exact (E 0%nat n ltac:(cbn [length]; lia)).
  - apply IH; [injection L as L; exact L|]. intros k m Hk. exact (E (S k) m ltac:(cbn [length]; lia)).
Qed.
Lemma array_same : forall name comment per digits size blocks, Forall (fun r => (length r <= 64)%nat) blocks ->
  array_text name comment (print_rows per digits) size blocks = array_text name comment (print_rows per digits) size (blocks_of (arr_of (N.of_nat (length blocks * blockSize)) (print_blocks blocks))).
Proof.
  intros name comment per digits size blocks F. unfold array_text. rewrite blocks_len. cbv zeta. do 2 f_equal. do 3 f_equal. f_equal.
  apply print_all_ext; [rewrite blocks_len; reflexivity|]. intros k m Hk. rewrite (blocks_nth blocks k F Hk). unfold print_rows. rewrite entries_pad. reflexivity.
Qed.

Lemma intSize_in : forall v, In (intSize v) [1; 2; 4; 8].
Proof. intros v. unfold intSize. destruct (v <? 2 ^ 8); [left; reflexivity|]. destruct (v <? 2 ^ 16); [right; left; reflexivity|]. destruct (v <? 2 ^ 32); cbn [In]; auto. Qed.
Lemma text_of : forall H p names t vs is size checksum, wf_root t -> Gen H t = {| g_values := vs; g_index := is; g_size := size; g_checksum := checksum |} ->
  exists vsize isize, In vsize [1; 2; 4; 8] /\ In isize [1; 2; 4; 8] /\ arr_len is * isize + arr_len vs * vsize = size /\
    writeTrie H p names t = edits (package_name p) (file_text p names size checksum vsize isize (blocks_of vs) (blocks_of is)).
Proof.
  intros H p names t vs is size checksum Wt G. pose proof (root_size H t Wt) as S. unfold Gen in G. unfold writeTrie. destruct (buildTrie H t) as [h b]. destruct S as [(_ & Si & Sv) _].
  injection G as G1 G2 G3 G4. eexists. eexists. split; [apply (intSize_in (maxValue t 0))|]. split; [apply (intSize_in (N.max (b_maxHandle b + 1) (N.of_nat (length (b_index b) - 1 - blockOffset))))|]. split.
  - rewrite <- G3. unfold Size. cbv zeta. cbn [tables fst snd] in *. subst vs is. reflexivity.
  - cbv zeta. rewrite G3, G4. f_equal. unfold file_text. cbv zeta. cbn [tables fst snd] in G1, G2. unfold printValues, printIndex. rewrite (array_same _ _ 6 4 _ _ Sv), (array_same _ _ 8 2 _ _ Si), G1, G2. reflexivity.
Qed.

(** The sizes of an entry follow from the total. *)
Definition sizes_are (vl il size vsize isize : N) : bool :=
  forallb (fun v => forallb (fun i => negb (il * i + vl * v =? size) || ((v =? vsize) && (i =? isize))) [1; 2; 4; 8]) [1; 2; 4; 8].
Lemma same_text : forall H p names t vs is size checksum vsize isize lines, wf_root t -> Gen H t = {| g_values := vs; g_index := is; g_size := size; g_checksum := checksum |} ->
  sizes_are (arr_len vs) (arr_len is) size vsize isize = true -> check_text p names size checksum vsize isize (blocks_of vs) (blocks_of is) lines = true ->
  same_but_layout (writeTrie H p names t) (source_text lines).
Proof.
  intros H p names t vs is size checksum vsize isize lines Wt G Sz C. destruct (text_of H p names t _ _ _ _ Wt G) as (v & i & Iv & Ii & E & ->).
  unfold sizes_are in Sz. rewrite forallb_forall in Sz. specialize (Sz v Iv). rewrite forallb_forall in Sz. specialize (Sz i Ii). rewrite E, N.eqb_refl in Sz. cbn [negb orb] in Sz. apply andb_true_iff in Sz as [S1 S2].
  apply N.eqb_eq in S1, S2. subst v i. exact (check_text_ok _ _ _ _ _ _ _ _ _ C).
Qed.
