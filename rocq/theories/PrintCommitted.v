(** Reading the committed files, and files that do not compile. *)
From Coq Require Import String.
From Verif Require Import Base Trie SpecUtf8 ListFacts SpecData SpecTriegen SpecTrieHash Triegen TriegenFacts TriegenSize TriegenExt TriegenIns TriegenTables TriegenRun TriegenCheck SpecGenerate GenMain GenParse GenFacts DataFacts Crc64.
From Verif Require Import SpecGoSource Print PrintFacts PrintTokens PrintRead PrintGen PrintWritten PrintCheck PrintSame.
From Coq Require Import Permutation.
Local Open Scope N_scope.

(** * Arrays of whole blocks *)
Lemma blk_blocks : forall a k, arr_len a = arr_len a / 64 * 64 -> k < arr_len a -> blk (blocks_of a) k = tget (N.succ_pos k) (arr_tree a).
Proof.
  intros a k Hl Hk. unfold blk, blocks_of. pose proof (N.div_mod k 64 ltac:(discriminate)) as E. pose proof (N.mod_lt k 64 ltac:(discriminate)) as M.
  assert (Q : k / 64 < arr_len a / 64) by (apply N.div_lt_upper_bound; [discriminate|]; lia). set (q := k / 64) in *. set (m := k mod 64) in *. clearbody q m.
  rewrite (nth_indep _ [] (blockof a 0)) by (rewrite map_length, run_len; lia). rewrite (map_nth (blockof a)), nth_run by lia. rewrite N.add_0_l, Nnat.N2Nat.id. unfold blockof.
  rewrite (nth_indep _ 0 ((fun j => tget (N.succ_pos (q * 64 + j)) (arr_tree a)) 0)) by (rewrite map_length, run_len; lia).
  rewrite (map_nth (fun j => tget (N.succ_pos (q * 64 + j)) (arr_tree a))), nth_run by lia. rewrite N.add_0_l, Nnat.N2Nat.id. rewrite E. do 3 f_equal. lia.
Qed.
Lemma blocks_of_len : forall a, arr_len a = arr_len a / 64 * 64 -> N.of_nat (length (blocks_of a)) * 64 = arr_len a.
Proof. intros a Hl. unfold blocks_of. rewrite map_length, run_len. lia. Qed.
Lemma blocks_of_64 : forall a, Forall (fun r => (length r <= 64)%nat) (blocks_of a).
Proof. intros a. apply Forall_forall. intros r I. apply in_map_iff in I as (k & <- & _). rewrite blockof_len. lia. Qed.
Lemma array_of_array : forall ds n t a, arr_len a = arr_len a / 64 * 64 -> In (Var n (N.of_nat (length (blocks_of a)) * 64) t (pblocks 0 (blocks_of a))) ds -> array_of ds n a.
Proof.
  intros ds n t a Hl I. pose proof (blocks_of_len a Hl) as L. exists (blk (blocks_of a)). split.
  - exists t, (pblocks 0 (blocks_of a)). rewrite <- L at 1. split; [exact I|]. intros k Hk. apply element_blk; [apply blocks_of_64|]. rewrite L. exact Hk.
  - intros k Hk. rewrite (blk_blocks a k Hl Hk). unfold arr_get. apply N.ltb_lt in Hk. rewrite Hk. reflexivity.
Qed.

(** * A committed file *)
Definition fits_b (w : N) (blocks : list (list N)) : bool := forallb (forallb (fun v => v <? 2 ^ w)) blocks.
Lemma fits_b_ok : forall w a, fits_b w (blocks_of a) = true -> rows_fit w (blocks_of a).
Proof.
  intros w a E. apply Forall_forall. intros r I. split; [pose proof (blocks_of_64 a) as F; rewrite Forall_forall in F; exact (F r I)|]. unfold fits_b in E. rewrite forallb_forall in E. specialize (E r I). rewrite forallb_forall in E. apply Forall_forall. intros v Iv. apply N.ltb_lt. exact (E v Iv).
Qed.
Definition names_b (names : list bytes) : bool := forallb (fun n => forallb wordy n && negb (is_nil (no_underscores n))) names && no_repeats (map no_underscores names) && (length names <=? 64)%nat && negb (is_nil names).
Definition tables_b (w : N) (vs is : arr) : bool := (arr_len vs =? arr_len vs / 64 * 64) && (arr_len is =? arr_len is / 64 * 64) && fits_b w (blocks_of vs) && fits_b w (blocks_of is).
Lemma committed : forall p names size checksum vsize isize vs is lines, names_b names = true -> tables_b (property_width (length names)) vs is = true ->
  check_text p names size checksum vsize isize (blocks_of vs) (blocks_of is) lines = true ->
  exists ds, read_go (source_text lines) = Some ds /\ package_is ds (package_name p) /\ In (Type_ (str "property") (inttype (length names))) ds /\
    (forall n v, constant_is ds n v <-> In (n, v) (powers 0 names)) /\ array_of ds (values_name p) vs /\ array_of ds (index_name p) is.
Proof.
  intros p names size checksum vsize isize vs is lines Nb Tb C. apply check_text_ok in C as [C _].
  unfold names_b in Nb. apply andb_true_iff in Nb as [Nb N4]. apply andb_true_iff in Nb as [Nb N3]. apply andb_true_iff in Nb as [N1 N2].
  unfold tables_b in Tb. apply andb_true_iff in Tb as [Tb T4]. apply andb_true_iff in Tb as [Tb T3]. apply andb_true_iff in Tb as [T1 T2]. apply N.eqb_eq in T1, T2.
  exists (file_decls p names (blocks_of vs) (blocks_of is)). split; [|split; [|split; [|split; [|split]]]].
  - eapply read_file; [| | | |exact (fits_b_ok _ _ T3)|exact (fits_b_ok _ _ T4)|symmetry; exact C].
    + destruct names; [discriminate N4|discriminate].
    + apply Forall_forall. intros n I. rewrite forallb_forall in N1. specialize (N1 n I). apply andb_true_iff in N1 as [Q1 Q2]. split; [exact Q1|]. destruct (no_underscores n); [discriminate Q2|discriminate].
    + apply no_repeats_ok. exact N2.
    + apply Nat.leb_le. exact N3.
  - left. reflexivity.
  - right. left. reflexivity.
  - intros n v. split.
    + intros (t & cs & I & J). unfold file_decls in I. cbn [In] in I. repeat match type of I with _ \/ _ => destruct I as [I|I] end; try discriminate I; [injection I as <- <-; exact J|destruct I].
    + intros I. exists (str "property"), (powers 0 names). split; [right; right; left; reflexivity|exact I].
  - eapply array_of_array; [exact T1|]. do 5 right. left. reflexivity.
  - eapply array_of_array; [exact T2|]. do 6 right. left. reflexivity.
Qed.

(** * The text for a family *)
Lemma sorted_names : forall d props, sorted_b (map fst d) = true -> holds d props -> sortStrings (map fst props) = map fst d.
Proof.
  intros d props S [P _]. pose proof (sorted_nodup _ (sorted_b_ok _ S)) as Nd. apply sorted_unique; [apply sort_sorted; exact (Permutation_NoDup P Nd)|apply sorted_b_ok; exact S|].
  apply perm_trans with (map fst props); [apply Permutation_sym, sort_perm|apply Permutation_sym; exact P].
Qed.
Lemma generates_full : forall d props t, sorted_b (map fst d) = true -> (length d <= 64)%nat -> holds d props -> generates props (Ok t) -> full_root t.
Proof. intros d props t S L HO G. exact (proj1 (generates_trie props t (holds_family d props S L HO) G)). Qed.

(** * Files that do not compile *)
Lemma unfit : forall H p props t out, family props -> props <> [] -> Forall printable (map fst props) -> generates props (Ok t) ->
  (length props < 8)%nat -> (exists i v, arr_get (g_index (Gen H t)) i = Ok v /\ 256 <= v) ->
  tokens out = tokens (writeTrie H p (sortStrings (map fst props)) t) -> read_go out = None.
Proof.
  intros H p props t out F NE Pr G L (i & v & Gi & Hv) E. destruct (generates_trie props t F G) as [Ft _]. pose proof (root_size H t (proj1 Ft)) as S.
  pose proof (sort_perm (map fst props)) as P. unfold writeTrie in E. unfold Gen in Gi. destruct (buildTrie H t) as [h b]. cbn [g_index tables snd] in Gi. destruct S as [(_ & Si & Sv) _].
  set (names := sortStrings (map fst props)) in *.
  assert (Ln : length names = length props) by (rewrite <- (Permutation_length P); apply map_length).
  assert (Gn : Forall good_name names) by (apply Forall_forall; intros n I; apply printable_good; rewrite Forall_forall in Pr; apply Pr; exact (Permutation_in _ (Permutation_sym P) I)).
  assert (Nn : names <> []) by (intros Q; rewrite Q in Ln; destruct props; [exact (NE eq_refl)|discriminate Ln]).
  unfold read_go. cbv zeta. unfold toks in *. rewrite E. change (tokens (edits (package_name p) ?x)) with (toks p x). rewrite (toks_file _ _ _ _ _ _ _ _ Gn), plain_file, file_declarations by assumption.
  match goal with |- (if forallb ?f ?l && _ then _ else _) = _ => assert (B : forallb f l = false) end; [|rewrite B; reflexivity].
  apply not_true_iff_false. intros A. rewrite forallb_forall in A.
  specialize (A (Var (index_name p) (N.of_nat (length (b_index b)) * 64) (str "property") (pblocks 0 (b_index b))) ltac:(do 6 right; left; reflexivity)).
  assert (T : type_of (file_decls p names (b_values b) (b_index b)) (str "property") = Some 8).
  { unfold file_decls. cbn [type_of]. assert (W : width_of (inttype (length names)) = Some (property_width (length names))) by exact (width_inttype _). 
    change (same (str "property") (str "property")) with true. cbv iota. rewrite W. unfold property_width. rewrite Ln. apply Nat.ltb_lt in L. rewrite L. reflexivity. }
  cbn [sound] in A. rewrite T in A. apply andb_true_iff in A as [_ A]. rewrite forallb_forall in A.
  assert (Hi : i < N.of_nat (length (b_index b) * blockSize)) by (unfold arr_get in Gi; cbn [arr_of arr_len] in Gi; destruct (N.ltb_spec i (N.of_nat (length (b_index b) * blockSize))) as [Q|Q]; [exact Q|discriminate Gi]).
  rewrite (print_get _ _ Si Hi) in Gi. injection Gi as Gi. destruct (element_blk (b_index b) i Si ltac:(unfold blockSize in Hi; lia)) as [I|[Z _]]; [|lia].
  specialize (A _ I). cbn [fst snd fits] in A. apply andb_true_iff in A as [_ A]. apply N.ltb_lt in A. change (2 ^ 8) with 256 in A. lia.
Qed.
Lemma index_small : forall H t w, wf_root t -> (let '(_, b) := buildTrie H t in forallb (forallb (fun v => v <? w)) (b_index b)) = true -> 0 < w -> forall i v, arr_get (g_index (Gen H t)) i = Ok v -> v < w.
Proof.
  intros H t w Wt B W i v Gi. pose proof (root_size H t Wt) as S. unfold Gen in Gi. destruct (buildTrie H t) as [h b]. cbn [g_index tables snd] in Gi. destruct S as [(_ & Si & Sv) _].
  assert (Hi : i < N.of_nat (length (b_index b) * blockSize)) by (unfold arr_get in Gi; cbn [arr_of arr_len] in Gi; destruct (N.ltb_spec i (N.of_nat (length (b_index b) * blockSize))) as [Q|Q]; [exact Q|discriminate Gi]).
  rewrite (print_get _ _ Si Hi) in Gi. injection Gi as <-. unfold blk. set (row := nth (N.to_nat (i / 64)) (b_index b) []).
  destruct (nth_in_or_default (N.to_nat (i mod 64)) row 0) as [I|Z]; [|rewrite Z; exact W]. unfold row in *. destruct (nth_in_or_default (N.to_nat (i / 64)) (b_index b) []) as [I2|Z]; [|rewrite Z in I; destruct I].
  rewrite forallb_forall in B. specialize (B _ I2). rewrite forallb_forall in B. apply N.ltb_lt. exact (B _ I).
Qed.
Lemma index_large : forall H t w, wf_root t -> (let '(_, b) := buildTrie H t in existsb (existsb (fun v => w <=? v)) (b_index b)) = true -> exists i v, arr_get (g_index (Gen H t)) i = Ok v /\ w <= v.
Proof.
  intros H t w Wt B. pose proof (root_size H t Wt) as S. unfold Gen. destruct (buildTrie H t) as [h b]. cbn [g_index tables snd]. destruct S as [(_ & Si & Sv) _].
  apply existsb_exists in B as (row & Ir & B). apply existsb_exists in B as (v & Iv & B). apply N.leb_le in B. destruct (get_entry (b_index b) row v Si Ir Iv) as (k & E). exists k, v. split; assumption.
Qed.
