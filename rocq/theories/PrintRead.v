(** Reading the printed text: it declares the package, the constants and the two arrays. *)
From Coq Require Import String.
From Verif Require Import Base Trie Triegen SpecData GenMain GenParse SpecGoSource TriegenCheck Print PrintFacts PrintTokens.
Local Open Scope N_scope.

Lemma lex_word_blank : forall w e r, w <> [] -> forallb wordy w = true -> lex [] e false (w ++ 32 :: r) = W w :: lex [] (ends_word w) false r.
Proof.
  intros w e r NE F. rewrite lex_word by exact F. rewrite app_nil_r. cbn [lex]. change (32 =? 10) with false. change (wordy 32) with false. change (blank 32) with true. cbv iota.
  destruct (rev w) as [|x y] eqn:R; [apply (f_equal (@rev N)) in R; rewrite rev_involutive in R; contradiction|]. cbn [flush app ended]. rewrite <- R, rev_involutive. reflexivity.
Qed.
Lemma lex_word_nl : forall w e r, w <> [] -> forallb wordy w = true -> lex [] e false (w ++ 10 :: r) = W w :: newline (ends_word w) ++ lex [] false false r.
Proof.
  intros w e r NE F. rewrite lex_word by exact F. rewrite app_nil_r. cbn [lex]. change (10 =? 10) with true. cbv iota.
  destruct (rev w) as [|x y] eqn:R; [apply (f_equal (@rev N)) in R; rewrite rev_involutive in R; contradiction|]. cbn [flush app ended]. rewrite <- R, rev_involutive. reflexivity.
Qed.

(** * The arrays *)
Lemma lacks_entries : forall x per digits boff values i nl, hexy x = false -> lacks x [9; 10; 0x3A; 0x2C; 0x20] = true -> lacks x (print_entries per digits i boff nl values) = true.
Proof.
  intros x per digits boff values. induction values as [|v r IH]; intros i nl X L; [reflexivity|]. cbn [print_entries].
  assert (L' := L). cbn [lacks forallb] in L'. rewrite !andb_true_iff in L'. destruct L' as (L1 & L2 & L3 & L4 & L5 & _).
  destruct (v =? 0); [apply IH; assumption|]. rewrite !lacks_app. rewrite IH by assumption. rewrite !(lacks_hexy x (fmt_0x _ _)) by (try exact X; apply fmt_0x_hexy).
  assert (A : lacks x (if (i mod per =? 0)%nat || nl then [10] else []) = true) by (destruct ((i mod per =? 0)%nat || nl); cbn [lacks forallb]; rewrite ?L2; reflexivity).
  apply andb_true_iff; split; [exact A|]. assert (B : lacks x [9] = true) by (cbn [lacks forallb]; rewrite L1; reflexivity). rewrite B.
  assert (C : lacks x (str ":") = true) by (change (str ":") with [0x3A]; cbn [lacks forallb]; rewrite L3; reflexivity). rewrite C.
  assert (D : lacks x (str ", ") = true) by (change (str ", ") with [0x2C; 0x20]; cbn [lacks forallb]; rewrite L4, L5; reflexivity). rewrite D. reflexivity.
Qed.
Lemma lacks_rows : forall x per digits n values, hexy x = false -> lacks x [9; 10; 0x3A; 0x2C; 0x20] = true -> lacks x (str "// Block , offset ") = true -> lacks x (ln (print_rows per digits n values)) = true.
Proof.
  intros x per digits n values X L S. unfold ln, print_rows. rewrite !lacks_app. rewrite lacks_entries by assumption. rewrite !(lacks_hexy x (fmt_x _)) by (try exact X; apply fmt_x_hexy).
  assert (A : lacks x (str "// Block ") = true /\ lacks x (str ", offset ") = true).
  { change (str "// Block , offset ") with (str "// Block " ++ str ", offset ") in S. rewrite lacks_app in S. apply andb_true_iff in S. exact S. }
  destruct A as [A B]. rewrite A, B. cbn [lacks forallb] in L |- *. rewrite !andb_true_iff in L. destruct L as (L1 & L2 & _). rewrite L1, L2. reflexivity.
Qed.
Lemma pattern1_y : forall p, In 0x79 (pattern1 (package_name p)).
Proof. intros p. unfold pattern1. apply in_or_app. left. vm_compute. tauto. Qed.
Lemma edits_lacks : forall p s, lacks 0x79 s = true -> lacks 0x2A s = true -> lacks 0x2E s = true -> edits (package_name p) s = s.
Proof. intros p s A B C. apply edits_same; [apply (no_occ 0x79); [apply pattern1_y|apply lacks_ok; exact A]|apply lacks_ok; exact B|apply lacks_ok; exact C]. Qed.
Lemma toks_row : forall p per digits n values, toks p (ln (print_rows per digits n values)) = concat (map (entry_toks digits) (pblock (n * 64) values)).
Proof. intros. unfold toks. rewrite edits_lacks by (apply lacks_rows; reflexivity). apply tokens_row. Qed.
Lemma closed_print_all : forall f blocks n, closed (print_all f n blocks).
Proof. intros f. induction blocks as [|b r IH]; intros n; [left; reflexivity|]. cbn [print_all]. apply closed_app; [apply closed_ln|apply IH]. Qed.
Lemma toks_print_all : forall p per digits blocks n, toks p (print_all (print_rows per digits) n blocks) = concat (map (entry_toks digits) (pblocks (n * 64) blocks)).
Proof.
  intros p per digits. induction blocks as [|b r IH]; intros n; [apply toks_nil|]. cbn [print_all pblocks]. rewrite toks_app by apply closed_ln. rewrite toks_row, IH.
  replace ((n + 1) * 64) with (n * 64 + 64) by lia. rewrite map_app, concat_app. reflexivity.
Qed.
Lemma elements_ok : forall digits es rest, elements (concat (map (entry_toks digits) es) ++ M 0x7D :: M 0x3B :: rest) = Some (es, rest).
Proof.
  intros digits. induction es as [|[k v] es IH]; intros rest; [reflexivity|]. cbn [map concat entry_toks fst snd app]. cbn [elements]. rewrite !number_fmt_0x, IH. reflexivity.
Qed.

Definition var_toks (name : bytes) (len : N) : list tok := [W (str "var"); W name; M 0x3D; M 0x5B; W (dec len); M 0x5D; W (str "property"); M 0x7B].
Lemma dec_not_nil : forall n, dec n <> [].
Proof. intros n. unfold dec. apply radix_not_nil. Qed.
Lemma tokens_var : forall name len, name <> [] -> forallb wordy name = true -> tokens (ln (str "var " ++ name ++ str " = [" ++ dec len ++ str "]property {")) = var_toks name len.
Proof.
  intros name len NE F. unfold tokens, ln. rewrite <- !app_assoc. change (str "var " ++ ?x) with (str "var" ++ 32 :: x). rewrite lex_word_blank by (discriminate || reflexivity).
  change (str " = [" ++ ?x) with (32 :: 0x3D :: 32 :: 0x5B :: x). rewrite lex_word_blank by assumption. unfold var_toks. f_equal. f_equal.
  cbn [lex]. change (0x3D =? 10) with false. change (32 =? 10) with false. change (0x5B =? 10) with false. change (wordy 0x3D) with false. change (wordy 32) with false. change (wordy 0x5B) with false.
  change (blank 0x3D) with false. change (blank 32) with true. change (blank 0x5B) with false. change (0x3D =? 0x2F) with false. change (0x5B =? 0x2F) with false. cbv iota. cbn [flush app andb]. f_equal. f_equal.
  change (str "]property {" ++ [10]) with (0x5D :: str "property {" ++ [10]). rewrite lex_word_mark; [reflexivity|apply dec_not_nil|apply hexy_wordy, dec_hexy|reflexivity|reflexivity|discriminate|discriminate].
Qed.
Lemma pattern1_T : forall p, In 0x54 (pattern1 (package_name p)).
Proof. intros p. unfold pattern1. apply in_or_app. right. apply in_or_app. left. apply in_or_app. right. vm_compute. tauto. Qed.
Lemma toks_same_T : forall p s, lacks 0x54 s = true -> lacks 0x2A s = true -> lacks 0x2E s = true -> toks p s = tokens s.
Proof. intros p s A B C. unfold toks. rewrite edits_same; [reflexivity|apply (no_occ 0x54); [apply pattern1_T|apply lacks_ok; exact A]|apply lacks_ok; exact B|apply lacks_ok; exact C]. Qed.
Lemma toks_array : forall p name comment per digits size blocks, name <> [] -> forallb wordy name = true -> lacks 0x54 name = true -> toks p (ln comment) = [] ->
  toks p (array_text name comment (print_rows per digits) size blocks) = var_toks name (N.of_nat (length blocks) * 64) ++ concat (map (entry_toks digits) (pblocks 0 blocks)) ++ [M 0x7D; M 0x3B].
Proof.
  intros p name comment per digits size blocks NE F LT HC. unfold array_text. change (N.of_nat blockSize) with 64. cbv zeta.
  assert (L : forall x, wordy x = false -> lacks x name = true).
  { intros x X. unfold lacks. rewrite forallb_forall in *. intros c I. specialize (F c I). destruct (N.eqb_spec c x) as [->|_]; [congruence|reflexivity]. }
  rewrite toks_cat by (repeat (apply Forall_cons; [first [apply closed_ln|apply closed_print_all]|]); apply Forall_nil).
  cbn [map concat]. rewrite HC. rewrite (toks_print_all p per digits blocks 0). change (0 * 64) with 0.
  assert (E0 : toks p (ln []) = []) by (destruct p; vm_compute; reflexivity). rewrite E0.
  assert (E1 : toks p (ln (str "}")) = [M 0x7D; M 0x3B]) by (destruct p; vm_compute; reflexivity). rewrite E1.
  assert (D : forall x n, hexy x = false -> lacks x (dec n) = true) by (intros x n X; apply lacks_hexy; [exact X|apply dec_hexy]).
  rewrite (toks_same_T p (ln (str "// " ++ _))).
  2,3,4 : unfold ln; rewrite !lacks_app, !D by reflexivity; rewrite ?LT, ?L by reflexivity; reflexivity.
  change (str "// " ++ ?x) with (str "//" ++ str " " ++ x). rewrite tokens_comment by (apply lacks_ok; rewrite !lacks_app, !D by reflexivity; rewrite ?LT, ?L by reflexivity; reflexivity).
  rewrite toks_same_T by (unfold ln; rewrite !lacks_app, !D by reflexivity; rewrite ?LT, ?L by reflexivity; reflexivity).
  rewrite tokens_var by assumption. reflexivity.
Qed.

(** * The constants *)
Definition const_name (n : bytes) : bytes := str "_" ++ no_underscores n.
Definition good_name (n : bytes) : Prop := forallb wordy n = true /\ no_underscores n <> [].
Lemma const_name_wordy : forall n, forallb wordy n = true -> forallb wordy (const_name n) = true.
Proof.
  intros n F. unfold const_name. rewrite forallb_app. apply andb_true_iff. split; [reflexivity|]. unfold no_underscores. rewrite forallb_forall in *. intros c I. apply filter_In in I as [I _]. exact (F c I).
Qed.
Lemma const_name_ends : forall n, ends_word (const_name n) = true.
Proof. intros n. unfold const_name. change (str "_") with [0x5F]. cbn [app]. generalize (no_underscores n). intros l. unfold ends_word, same. cbn [keywords map existsb]. reflexivity. Qed.
Lemma const_name_identifier : forall n, good_name n -> identifier (const_name n) = true.
Proof.
  intros n [F NE]. unfold identifier. rewrite (const_name_wordy n F), const_name_ends. unfold const_name. change (str "_") with [0x5F]. cbn [app].
  destruct (no_underscores n) as [|c l]; [congruence|]. reflexivity.
Qed.
Lemma wordy_lacks : forall x s, forallb wordy s = true -> wordy x = false -> lacks x s = true.
Proof. intros x s F X. unfold lacks. rewrite forallb_forall in *. intros c I. specialize (F c I). destruct (N.eqb_spec c x) as [->|_]; [congruence|reflexivity]. Qed.
Lemma toks_const1 : forall p n, good_name n -> toks p (ln (str "_" ++ no_underscores n ++ str " property = 1 << iota")) =
  [W (const_name n); W (str "property"); M 0x3D; W (str "1"); M 0x3C; M 0x3C; W (str "iota"); M 0x3B].
Proof.
  intros p n [F NE]. rewrite app_assoc. fold (const_name n). pose proof (const_name_wordy n F) as Fw. unfold toks. rewrite edits_same.
  - unfold tokens, ln. rewrite <- app_assoc. change (str " property = 1 << iota" ++ [10]) with (32 :: str "property = 1 << iota" ++ [10]).
    rewrite lex_word_blank; [rewrite const_name_ends; reflexivity|discriminate|exact Fw].
  - unfold ln. rewrite <- app_assoc. replace (pattern1 (package_name p)) with ((str "type " ++ package_name p ++ str "Trie ") ++ 0x73 :: str "truct") by (destruct p; reflexivity).
    apply (no_occ2 32); [apply in_or_app; left; vm_compute; tauto|apply lacks_ok, wordy_lacks; [exact Fw|reflexivity]|apply lacks_ok; reflexivity].
  - apply lacks_ok. unfold ln. rewrite !lacks_app, (wordy_lacks _ _ Fw) by reflexivity. reflexivity.
  - apply lacks_ok. unfold ln. rewrite !lacks_app, (wordy_lacks _ _ Fw) by reflexivity. reflexivity.
Qed.
Lemma toks_const : forall p n, good_name n -> toks p (ln (str "_" ++ no_underscores n)) = [W (const_name n); M 0x3B].
Proof.
  intros p n [F NE]. fold (const_name n). pose proof (const_name_wordy n F) as Fw. unfold toks. rewrite edits_same.
  - unfold tokens, ln. rewrite lex_word_nl; [rewrite const_name_ends; reflexivity|discriminate|exact Fw].
  - apply (no_occ 32); [unfold pattern1; apply in_or_app; left; vm_compute; tauto|]. apply lacks_ok. unfold ln. rewrite lacks_app, (wordy_lacks _ _ Fw) by reflexivity. reflexivity.
  - apply lacks_ok. unfold ln. rewrite !lacks_app, (wordy_lacks _ _ Fw) by reflexivity. reflexivity.
  - apply lacks_ok. unfold ln. rewrite !lacks_app, (wordy_lacks _ _ Fw) by reflexivity. reflexivity.
Qed.
Definition const_toks (names : list bytes) : list tok :=
  match names with
  | [] => []
  | n :: r => [W (const_name n); W (str "property"); M 0x3D; W (str "1"); M 0x3C; M 0x3C; W (str "iota"); M 0x3B] ++ concat (map (fun n => [W (const_name n); M 0x3B]) r)
  end.
Lemma closed_const_lines : forall names, closed (const_lines names).
Proof.
  intros [|n r]; [left; reflexivity|]. apply closed_app; [apply closed_ln|]. apply closed_cat. apply Forall_forall. intros s I. apply in_map_iff in I as (m & <- & _). apply closed_ln.
Qed.
Lemma toks_const_lines : forall p names, Forall good_name names -> toks p (const_lines names) = const_toks names.
Proof.
  intros p [|n r] G; [apply toks_nil|]. inversion G as [|? ? Gn Gr]; subst. cbn [const_lines const_toks]. rewrite toks_app by apply closed_ln. rewrite toks_const1 by exact Gn. f_equal.
  rewrite toks_cat by (apply Forall_forall; intros s I; apply in_map_iff in I as (m & <- & _); apply closed_ln). rewrite map_map. f_equal.
  apply map_ext_in. intros m I. apply toks_const. rewrite Forall_forall in Gr. exact (Gr m I).
Qed.
(** The values of the constants. *)
Fixpoint powers (i : N) (names : list bytes) : list (bytes * N) := match names with [] => [] | n :: r => (const_name n, 2 ^ i) :: powers (i + 1) r end.
Lemma consts_ok : forall rest names i, Forall good_name names -> consts i (concat (map (fun n => [W (const_name n); M 0x3B]) names) ++ M 0x29 :: M 0x3B :: rest) = Some (powers i names, rest).
Proof.
  intros rest. induction names as [|n r IH]; intros i G; [reflexivity|]. inversion G as [|? ? Gn Gr]; subst. cbn [map concat app consts powers]. rewrite (const_name_identifier n Gn), (IH _ Gr). reflexivity.
Qed.

(** * The rest of the text does not depend on the tables *)
Definition head_toks (p : package) (names : list bytes) : list tok :=
  [W (str "package"); W (package_name p); M 0x3B; W (str "type"); W (str "property"); W (inttype (length names)); M 0x3B; W (str "const"); M 0x28] ++ const_toks names ++ [M 0x29; M 0x3B].
Lemma toks_head : forall p names, Forall good_name names -> toks p (head_text p names) = head_toks p names.
Proof.
  intros p names G. unfold head_text. rewrite toks_cat by (repeat (apply Forall_cons; [first [apply closed_ln|apply closed_const_lines]|]); apply Forall_nil).
  cbn [map concat]. rewrite toks_const_lines by exact G. unfold head_toks.
  assert (E : forall k, toks p (ln (str "package " ++ package_name p)) ++ toks p (ln []) ++ toks p (ln (str "// generated by github.com/clipperhouse/uax29/v2")) ++ toks p (ln (str "// from " ++ url p)) ++ toks p (ln [])
    ++ toks p (ln (str "type property " ++ inttype k)) ++ toks p (ln []) ++ toks p (ln (str "const (")) = [W (str "package"); W (package_name p); M 0x3B; W (str "type"); W (str "property"); W (inttype k); M 0x3B; W (str "const"); M 0x28]).
  { intros k. unfold inttype. destruct p; (destruct (k <? 8)%nat; [vm_compute; reflexivity|]; destruct (k <? 16)%nat; [vm_compute; reflexivity|]; destruct (k <? 32)%nat; vm_compute; reflexivity). }
  rewrite <- E. rewrite <- !app_assoc. assert (E1 : toks p (ln (str ")")) = [M 0x29; M 0x3B]) by (destruct p; vm_compute; reflexivity). rewrite E1. reflexivity.
Qed.
Lemma lacks_psize : forall x n, hexy x = false -> lacks x (str " bytes (. KiB)") = true -> lacks x (psize n) = true.
Proof.
  intros x n X S. change (str " bytes (. KiB)") with (str " bytes (" ++ str "." ++ str " KiB)") in S. rewrite !lacks_app, !andb_true_iff in S. destruct S as (S1 & S2 & S3).
  unfold psize. rewrite !lacks_app, S1, S2, S3. rewrite !(lacks_hexy x) by (try exact X; try apply pad_hexy; apply dec_hexy). reflexivity.
Qed.
Definition size_line (name : bytes) (size checksum : N) : bytes := str "// " ++ name ++ str "Trie. Total size: " ++ psize size ++ str ". Checksum: " ++ pad 8 (hex checksum) ++ str ".".
Lemma toks_size_line : forall p size checksum, toks p (ln (size_line (package_name p) size checksum)) = [].
Proof.
  intros p size checksum. assert (X : forall x, hexy x = false -> lacks x (pad 8 (hex checksum)) = true) by (intros x X; apply lacks_hexy; [exact X|apply pad_hexy, hex_hexy]).
  unfold toks. rewrite edits_none.
  - unfold size_line. change (str "// " ++ ?x) with (str "//" ++ str " " ++ x). apply tokens_comment. apply lacks_ok. rewrite !lacks_app, (lacks_psize 10), (X 10) by reflexivity. destruct p; reflexivity.
  - unfold size_line, ln. rewrite (app_assoc (package_name p)), (app_assoc (str "// ")), <- app_assoc.
    replace (pattern1 (package_name p)) with ((str "type " ++ package_name p) ++ 0x54 :: str "rie struct") by (destruct p; reflexivity).
    apply (no_occ2 0x79); [apply in_or_app; left; vm_compute; tauto|apply lacks_ok; destruct p; vm_compute; reflexivity|]. apply lacks_ok. rewrite !lacks_app, (lacks_psize 0x54), (X 0x54) by reflexivity. reflexivity.
  - apply (no_occ 0x2A); [unfold pattern2; apply in_or_app; left; vm_compute; tauto|]. apply lacks_ok. unfold size_line, ln. rewrite !lacks_app, (lacks_psize 0x2A), (X 0x2A) by reflexivity. destruct p; reflexivity.
  - apply (no_occ 0x2A); [unfold pattern3; apply in_or_app; left; vm_compute; tauto|]. apply lacks_ok. unfold size_line, ln. rewrite !lacks_app, (lacks_psize 0x2A), (X 0x2A) by reflexivity. destruct p; reflexivity.
  - apply (no_occ 0x56); [vm_compute; tauto|]. apply lacks_ok. unfold size_line, ln. rewrite !lacks_app, (lacks_psize 0x56), (X 0x56) by reflexivity. destruct p; reflexivity.
Qed.
(** What follows the line with the size, up to the arrays. *)
Definition trie_rest (name title : bytes) : bytes :=
  cat [ln (str "type " ++ name ++ str "Trie struct { }"); ln [];
       ln (str "// func new" ++ title ++ str "Trie(i int) *" ++ name ++ str "Trie { ");
       ln (str "// " ++ [9] ++ str "return &" ++ name ++ str "Trie{}"); ln (str "// }"); ln [];
       ln (str "// lookupValue determines the type of block n and looks up the value for b.");
       ln (str "func (t *" ++ name ++ str "Trie) lookupValue(n uint32, b byte) property {");
       ln ([9] ++ str "switch { "); ln ([9; 9] ++ str "default:"); ln ([9; 9; 9] ++ str "return property(" ++ name ++ str "Values[n<<6+uint32(b)])"); ln ([9] ++ str "}"); ln (str "}")].
Definition value_toks (p : package) : list tok := toks p (trie_rest (package_name p) (package_title p)).
Lemma toks_trie_head : forall p size checksum, toks p (trie_head (package_name p) (package_title p) size checksum) = value_toks p.
Proof.
  intros p size checksum. change (trie_head (package_name p) (package_title p) size checksum) with (ln [] ++ ln (size_line (package_name p) size checksum) ++ trie_rest (package_name p) (package_title p)).
  rewrite !toks_app by apply closed_ln. rewrite toks_size_line. assert (E0 : toks p (ln []) = []) by (destruct p; vm_compute; reflexivity). rewrite E0. reflexivity.
Qed.
Definition lookup_toks (p : package) : list tok := toks p (lookup_text (package_name p)).
Lemma closed_lookup : forall p, closed (lookup_text (package_name p)).
Proof. intros p. right. destruct p; (eexists; unfold lookup_text; cbv zeta; vm_compute; match goal with |- ?l = _ => let a := eval vm_compute in (removelast l) in instantiate (1 := a) end; reflexivity). Qed.
Lemma closed_head : forall p names, closed (head_text p names).
Proof. intros p names. apply closed_cat. repeat (apply Forall_cons; [first [apply closed_ln|apply closed_const_lines]|]); apply Forall_nil. Qed.
Lemma closed_trie_head : forall p size checksum, closed (trie_head (package_name p) (package_title p) size checksum).
Proof. intros p size checksum. apply closed_cat. repeat (apply Forall_cons; [apply closed_ln|]); apply Forall_nil. Qed.
Lemma closed_array : forall name comment f size blocks, closed (array_text name comment f size blocks).
Proof. intros. apply closed_cat. repeat (apply Forall_cons; [first [apply closed_ln|apply closed_print_all]|]); apply Forall_nil. Qed.

(** All tokens of the file. *)
Definition array_toks (name : bytes) (digits : nat) (blocks : list (list N)) : list tok :=
  var_toks name (N.of_nat (length blocks) * 64) ++ concat (map (entry_toks digits) (pblocks 0 blocks)) ++ [M 0x7D; M 0x3B].
Definition values_name (p : package) : bytes := package_name p ++ str "Values".
Definition index_name (p : package) : bytes := package_name p ++ str "Index".
Definition file_toks (p : package) (names : list bytes) (values index : list (list N)) : list tok :=
  head_toks p names ++ lookup_toks p ++ value_toks p ++ array_toks (values_name p) 4 values ++ array_toks (index_name p) 2 index.
Lemma toks_file : forall p names size checksum vsize isize values index, Forall good_name names ->
  toks p (file_text p names size checksum vsize isize values index) = file_toks p names values index.
Proof.
  intros p names size checksum vsize isize values index G. unfold file_text. cbv zeta. rewrite toks_app by apply closed_head. rewrite toks_app by apply closed_lookup. rewrite toks_app by apply closed_trie_head. rewrite toks_app by apply closed_array.
  rewrite toks_head by exact G. rewrite toks_trie_head. unfold file_toks, array_toks. do 3 f_equal.
  f_equal; (apply toks_array; [destruct p; discriminate|destruct p; reflexivity|destruct p; reflexivity|destruct p; vm_compute; reflexivity]).
Qed.

(** * Declarations *)
Lemma body_app : forall l d r0 rest, body d l = Some r0 -> body d (l ++ rest) = Some (r0 ++ rest).
Proof.
  induction l as [|t l IH]; intros d r0 rest E; [discriminate E|]. revert E.
  assert (G : forall t, body d (t :: l) = match t with M 0x7B => body (S d) l | M 0x7D => match d with O => None | 1%nat => match l with M 0x3B :: r' => Some r' | _ => None end | S d => body d l end | _ => body d l end) by reflexivity.
  assert (G' : forall t, body d (t :: l ++ rest) = match t with M 0x7B => body (S d) (l ++ rest) | M 0x7D => match d with O => None | 1%nat => match l ++ rest with M 0x3B :: r' => Some r' | _ => None end | S d => body d (l ++ rest) end | _ => body d (l ++ rest) end) by reflexivity.
  cbn [app]. rewrite G, G'. clear G G'. intros E.
  destruct t as [w|c]; [apply IH; exact E|].
  destruct (N.eq_dec c 0x7B) as [->|N1]; [apply IH; exact E|].
  destruct (N.eq_dec c 0x7D) as [->|N2].
  - destruct d as [|[|d]]; [discriminate E| |apply IH; exact E]. destruct l as [|[w|c] l]; [discriminate E|discriminate E|]. cbn [app].
    destruct (N.eq_dec c 0x3B) as [->|N3]; [injection E as <-; reflexivity|]. exfalso. revert E N3. clear.
    intros E N3. repeat (match type of E with match ?x with _ => _ end = _ => destruct x end; try discriminate E); apply N3; reflexivity.
  - assert (K : forall (A : Type) (x y z : A), match c with 0x7B => x | 0x7D => y | _ => z end = z).
    { intros A x y z. clear - N1 N2. repeat (match goal with |- match ?q with _ => _ end = _ => destruct q; try reflexivity end); exfalso; (apply N1; reflexivity) || (apply N2; reflexivity). }
    rewrite K in E. rewrite K. apply IH. exact E.
Qed.
Lemma decl_lookup : forall p rest, declaration (lookup_toks p ++ rest) = Some (Func (str "lookup"), rest).
Proof.
  intros p rest. assert (E : exists c r, lookup_toks p = W (str "func") :: W (str "lookup") :: M 0x5B :: r /\ body 0 (M 0x5B :: r) = Some [] /\ c = 0).
  { exists 0. destruct p; eexists; (split; [vm_compute; reflexivity|split; [vm_compute; reflexivity|reflexivity]]). }
  destruct E as (c & r & E & B & _). rewrite E. pose proof (body_app _ _ _ rest B) as B'. cbn [app] in B' |- *. unfold declaration. rewrite B'. reflexivity.
Qed.
Lemma decl_value : forall p rest, declaration (value_toks p ++ rest) = Some (Func (str "lookupValue"), rest).
Proof.
  intros p rest. assert (E : exists c r, value_toks p = W (str "func") :: W (str "lookupValue") :: M 0x28 :: r /\ body 0 (M 0x28 :: r) = Some [] /\ c = 0).
  { exists 0. destruct p; eexists; (split; [vm_compute; reflexivity|split; [vm_compute; reflexivity|reflexivity]]). }
  destruct E as (c & r & E & B & _). rewrite E. pose proof (body_app _ _ _ rest B) as B'. cbn [app] in B' |- *. unfold declaration. rewrite B'. reflexivity.
Qed.
Lemma decl_array : forall name digits blocks rest, identifier name = true ->
  declaration (array_toks name digits blocks ++ rest) = Some (Var name (N.of_nat (length blocks) * 64) (str "property") (pblocks 0 blocks), rest).
Proof.
  intros name digits blocks rest I. unfold array_toks, var_toks. rewrite <- !app_assoc. cbn [app]. unfold declaration. rewrite I. change (is_word (str "var") "var") with true. change (identifier (str "property")) with true. cbn [andb].
  rewrite number_dec, elements_ok. reflexivity.
Qed.
Definition file_decls (p : package) (names : list bytes) (values index : list (list N)) : list decl :=
  [Package (package_name p); Type_ (str "property") (inttype (length names)); Const (str "property") (powers 0 names); Func (str "lookup"); Func (str "lookupValue");
   Var (values_name p) (N.of_nat (length values) * 64) (str "property") (pblocks 0 values); Var (index_name p) (N.of_nat (length index) * 64) (str "property") (pblocks 0 index)].
Lemma decl_const : forall names rest, names <> [] -> Forall good_name names ->
  declaration (W (str "const") :: M 0x28 :: const_toks names ++ M 0x29 :: M 0x3B :: rest) = Some (Const (str "property") (powers 0 names), rest).
Proof.
  intros [|n r] rest NE G; [congruence|]. inversion G as [|? ? Gn Gr]; subst. cbn [const_toks]. rewrite <- app_assoc. cbn [app]. unfold declaration.
  rewrite (const_name_identifier n Gn). change (is_word (str "const") "const") with true. change (identifier (str "property")) with true. change (is_word (str "1") "1") with true. change (is_word (str "iota") "iota") with true. cbn [andb].
  rewrite (consts_ok rest r 1 Gr). reflexivity.
Qed.
Lemma decl_package : forall p rest, declaration (W (str "package") :: W (package_name p) :: M 0x3B :: rest) = Some (Package (package_name p), rest).
Proof. intros p rest. destruct p; reflexivity. Qed.
Lemma decl_type : forall k rest, declaration (W (str "type") :: W (str "property") :: W (inttype k) :: M 0x3B :: rest) = Some (Type_ (str "property") (inttype k), rest).
Proof. intros k rest. unfold inttype. destruct (k <? 8)%nat; [reflexivity|]. destruct (k <? 16)%nat; [reflexivity|]. destruct (k <? 32)%nat; reflexivity. Qed.
Lemma file_declarations : forall p names values index, names <> [] -> Forall good_name names -> declarations (length (file_toks p names values index)) (file_toks p names values index) = Some (file_decls p names values index).
Proof.
  intros p names values index NE G.
  assert (F : (8 <= length (file_toks p names values index))%nat) by (unfold file_toks, head_toks; rewrite app_length; cbn [app length]; lia).
  revert F. generalize (length (file_toks p names values index)). intros fuel F.
  do 8 (destruct fuel as [|fuel]; [lia|]). clear F.
  assert (S : forall f l d r, l <> [] -> declaration l = Some (d, r) -> declarations (S f) l = match declarations f r with Some ds => Some (d :: ds) | None => None end).
  { intros f l d r NL E. destruct l; [congruence|]. cbn [declarations]. rewrite E. reflexivity. }
  unfold file_toks, head_toks. rewrite <- !app_assoc. cbn [app].
  erewrite (S _ (W (str "package") :: _)); [|discriminate|apply decl_package].
  erewrite (S _ (W (str "type") :: _)); [|discriminate|apply decl_type].
  erewrite (S _ (W (str "const") :: _)); [|discriminate|apply decl_const; assumption].
  erewrite S; [|destruct p; discriminate|apply decl_lookup].
  erewrite S; [|destruct p; discriminate|apply decl_value].
  erewrite S; [|discriminate|apply decl_array; destruct p; reflexivity].
  erewrite S; [|discriminate|rewrite <- (app_nil_r (array_toks _ _ index)); apply decl_array; destruct p; reflexivity].
  reflexivity.
Qed.

(** * The checks *)
Definition harmless (t : tok) : bool := match t with M c => negb ((c =? 0x22) || (c =? 0x27) || (c =? 0x60)) && negb (c =? 0x2F) | W _ => true end.
Lemma plain_ok : forall l, forallb harmless l = true -> plain l = true.
Proof.
  induction l as [|t l IH]; intros F; [reflexivity|]. cbn [forallb] in F. apply andb_true_iff in F as [T F]. destruct t as [w|c]; cbn [plain]; [exact (IH F)|].
  cbn [harmless] in T. apply andb_true_iff in T as [T1 T2]. apply negb_true_iff in T2. rewrite T1, T2, (IH F). reflexivity.
Qed.
Lemma harmless_entries : forall digits es, forallb harmless (concat (map (entry_toks digits) es)) = true.
Proof. intros digits. induction es as [|e es IH]; [reflexivity|]. cbn [map concat]. rewrite forallb_app, IH. reflexivity. Qed.
Lemma plain_file : forall p names values index, plain (file_toks p names values index) = true.
Proof.
  intros p names values index. apply plain_ok. unfold file_toks, head_toks, array_toks. rewrite !forallb_app, !harmless_entries.
  assert (C : forallb harmless (const_toks names) = true).
  { destruct names as [|n r]; [reflexivity|]. cbn [const_toks]. rewrite forallb_app. apply andb_true_iff. split; [reflexivity|]. induction r as [|m r IH]; [reflexivity|]. cbn [map concat]. rewrite forallb_app, IH. reflexivity. }
  rewrite C. assert (L : forallb harmless (lookup_toks p) = true) by (destruct p; vm_compute; reflexivity). assert (V : forallb harmless (value_toks p) = true) by (destruct p; vm_compute; reflexivity).
  rewrite L, V. reflexivity.
Qed.
Lemma increasing_weaken : forall es lo lo', lo' <= lo -> increasing lo es = true -> increasing lo' es = true.
Proof. intros [|[k v] es] lo lo' L E; [reflexivity|]. cbn [increasing] in *. apply andb_true_iff in E as [A B]. apply N.leb_le in A. rewrite B. apply andb_true_iff. split; [apply N.leb_le; lia|reflexivity]. Qed.
Lemma increasing_block : forall b k rest, increasing (k + N.of_nat (length b)) rest = true -> increasing k (pblock k b ++ rest) = true.
Proof.
  induction b as [|v b IH]; intros k rest R; [cbn [pblock app length] in *; rewrite N.add_0_r in R; exact R|]. cbn [pblock length] in *.
  assert (I : increasing (k + 1) (pblock (k + 1) b ++ rest) = true) by (apply IH; replace (k + 1 + N.of_nat (length b)) with (k + N.of_nat (S (length b))) by lia; exact R).
  destruct (v =? 0); [apply (increasing_weaken _ (k + 1)); [lia|exact I]|]. cbn [app increasing]. rewrite N.leb_refl, I. reflexivity.
Qed.
Lemma increasing_blocks : forall blocks k, Forall (fun b => (length b <= 64)%nat) blocks -> increasing k (pblocks k blocks) = true.
Proof.
  induction blocks as [|b r IH]; intros k F; [reflexivity|]. inversion F as [|? ? Fb Fr]; subst. cbn [pblocks]. apply increasing_block. apply (increasing_weaken _ (k + 64)); [lia|]. apply IH. exact Fr.
Qed.
Lemma in_pblock : forall b k i v, In (i, v) (pblock k b) -> k <= i < k + N.of_nat (length b) /\ v <> 0 /\ nth (N.to_nat (i - k)) b 0 = v.
Proof.
  induction b as [|x b IH]; intros k i v I; [destruct I|]. cbn [pblock length] in *.
  assert (R : In (i, v) (pblock (k + 1) b) -> k <= i < k + N.of_nat (S (length b)) /\ v <> 0 /\ nth (N.to_nat (i - k)) (x :: b) 0 = v).
  { intros J. apply IH in J as (B & NZ & Q). split; [lia|]. split; [exact NZ|]. replace (N.to_nat (i - k)) with (S (N.to_nat (i - (k + 1)))) by lia. exact Q. }
  destruct (N.eqb_spec x 0) as [_|NZ]; [exact (R I)|]. destruct I as [E|I]; [|exact (R I)]. injection E as <- <-. split; [lia|]. split; [exact NZ|]. rewrite N.sub_diag. reflexivity.
Qed.
Lemma in_pblocks : forall blocks k i v, Forall (fun b => (length b <= 64)%nat) blocks -> In (i, v) (pblocks k blocks) ->
  k <= i < k + N.of_nat (length blocks) * 64 /\ v <> 0 /\ exists b, In b blocks /\ In v b.
Proof.
  induction blocks as [|b r IH]; intros k i v F I; [destruct I|]. inversion F as [|? ? Fb Fr]; subst. cbn [pblocks length] in *. apply in_app_or in I as [I|I].
  - apply in_pblock in I as (B & NZ & Q). split; [lia|]. split; [exact NZ|]. exists b. split; [left; reflexivity|]. rewrite <- Q. apply nth_In. lia.
  - apply (IH _ _ _ Fr) in I as (B & NZ & b' & I1 & I2). split; [lia|]. split; [exact NZ|]. exists b'. split; [right; exact I1|exact I2].
Qed.
Lemma width_inttype : forall k, width_of (inttype k) = Some (property_width k).
Proof. intros k. unfold inttype, property_width. destruct (k <? 8)%nat; [reflexivity|]. destruct (k <? 16)%nat; [reflexivity|]. destruct (k <? 32)%nat; reflexivity. Qed.
Lemma same_ok : forall a b, same a b = true <-> a = b.
Proof. intros a b. unfold same. destruct (list_eq_dec N.eq_dec a b); split; congruence. Qed.
Lemma no_repeats_ok : forall l, NoDup l <-> no_repeats l = true.
Proof.
  induction l as [|x l IH]; [split; [reflexivity|constructor]|]. cbn [no_repeats]. rewrite andb_true_iff, negb_true_iff, <- IH. split.
  - intros D. inversion D as [|? ? N1 N2]; subst. split; [|exact N2]. destruct (existsb (same x) l) eqn:E; [|reflexivity]. apply existsb_exists in E as (y & I & S). apply same_ok in S. subst. contradiction.
  - intros [E D]. constructor; [|exact D]. intros I. assert (T : existsb (same x) l = true) by (apply existsb_exists; exists x; split; [exact I|apply same_ok; reflexivity]). congruence.
Qed.
Lemma nodup_mid : forall (A : Type) (a b c : list A), NoDup (a ++ c) -> NoDup b -> (forall x, In x b -> ~ In x (a ++ c)) -> NoDup (a ++ b ++ c).
Proof.
  intros A. induction a as [|x a IH]; intros b c D1 D2 H.
  - cbn [app] in *. induction b as [|y b IHb]; [exact D1|]. inversion D2 as [|? ? N1 N2]; subst. cbn [app]. constructor.
    + intros I. apply in_app_or in I as [I|I]; [contradiction|]. exact (H y (or_introl eq_refl) I).
    + apply IHb; [exact N2|]. intros z I. apply H. right. exact I.
  - cbn [app] in *. inversion D1 as [|? ? N1 N2]; subst. constructor.
    + intros I. apply in_app_or in I as [I|I]; [apply N1, in_or_app; left; exact I|]. apply in_app_or in I as [I|I]; [exact (H x I (or_introl eq_refl))|apply N1, in_or_app; right; exact I].
    + apply IH; [exact N2|exact D2|]. intros z I J. exact (H z I (or_intror J)).
Qed.
Lemma powers_names : forall names i, map fst (powers i names) = map const_name names.
Proof. induction names as [|n r IH]; intros i; [reflexivity|]. cbn [powers map fst]. rewrite IH. reflexivity. Qed.
Lemma powers_in : forall names i n v, In (n, v) (powers i names) -> exists k, v = 2 ^ (i + N.of_nat k) /\ nth_error (map const_name names) k = Some n /\ (k < length names)%nat.
Proof.
  induction names as [|m r IH]; intros i n v I; [destruct I|]. destruct I as [E|I].
  - injection E as <- <-. exists 0%nat. split; [f_equal; lia|]. split; [reflexivity|cbn; lia].
  - apply IH in I as (k & -> & E & L). exists (S k). split; [f_equal; lia|]. split; [exact E|cbn; lia].
Qed.
Definition clashing (p : package) (names : list bytes) : list bytes := predeclared ++ [str "property"] ++ map const_name names ++ [str "lookup"; str "lookupValue"; values_name p; index_name p].
Lemma clash_free : forall p names, NoDup (map no_underscores names) -> NoDup (clashing p names).
Proof.
  intros p names D. unfold clashing. rewrite app_assoc. apply nodup_mid.
  - apply no_repeats_ok. destruct p; vm_compute; reflexivity.
  - unfold const_name. rewrite <- (map_map no_underscores (fun n => str "_" ++ n)). apply FinFun.Injective_map_NoDup; [intros a b E; injection E as ->; reflexivity|exact D].
  - intros x I. apply in_map_iff in I as (n & <- & _). intros J.
    assert (Q : forallb (fun s => match s with c :: _ => negb (c =? 0x5F) | [] => true end) ((predeclared ++ [str "property"]) ++ [str "lookup"; str "lookupValue"; values_name p; index_name p]) = true) by (destruct p; vm_compute; reflexivity).
    rewrite forallb_forall in Q. specialize (Q _ J). discriminate Q.
Qed.

(** A text with the tokens of the printed one is a Go file with these declarations. *)
Definition rows_fit (w : N) (blocks : list (list N)) : Prop := Forall (fun b => (length b <= 64)%nat /\ Forall (fun v => v < 2 ^ w) b) blocks.
Lemma sound_var : forall ds name w blocks, type_of ds (str "property") = Some w -> rows_fit w blocks -> sound ds (Var name (N.of_nat (length blocks) * 64) (str "property") (pblocks 0 blocks)) = true.
Proof.
  intros ds name w blocks T F. cbn [sound]. assert (F1 : Forall (fun b => (length b <= 64)%nat) blocks) by (eapply Forall_impl; [|exact F]; intros b [B _]; exact B).
  rewrite increasing_blocks by exact F1. cbn [andb]. apply forallb_forall. intros [i v] I. cbn [fst snd]. apply (in_pblocks _ _ _ _ F1) in I as (B & _ & b & I1 & I2).
  rewrite T. cbn [fits]. unfold rows_fit in F. rewrite Forall_forall in F. destruct (F b I1) as [_ Fb]. rewrite Forall_forall in Fb. apply andb_true_iff. split; apply N.ltb_lt; [lia|exact (Fb v I2)].
Qed.
Lemma read_file : forall p names size checksum vsize isize values index out,
  names <> [] -> Forall good_name names -> NoDup (map no_underscores names) -> (length names <= 64)%nat ->
  rows_fit (property_width (length names)) values -> rows_fit (property_width (length names)) index ->
  tokens out = toks p (file_text p names size checksum vsize isize values index) ->
  read_go out = Some (file_decls p names values index).
Proof.
  intros p names size checksum vsize isize values index out NE G D L Fv Fi E. unfold read_go. cbv zeta. rewrite E, (toks_file _ _ _ _ _ _ _ _ G), plain_file, file_declarations by assumption.
  assert (T : type_of (file_decls p names values index) (str "property") = Some (property_width (length names))) by (unfold file_decls; cbn [type_of]; exact (width_inttype _)).
  assert (S : forallb (sound (file_decls p names values index)) (file_decls p names values index) = true).
  { set (ds := file_decls p names values index) in *. change ds with (file_decls p names values index) at 2. unfold file_decls. cbn [forallb]. rewrite !(sound_var ds _ _ _ T) by assumption.
    assert (C : sound ds (Const (str "property") (powers 0 names)) = true).
    { cbn [sound]. apply forallb_forall. intros [n v] I. cbn [snd]. apply powers_in in I as (k & -> & _ & Lk). rewrite T. cbn [fits]. apply N.ltb_lt. apply N.pow_lt_mono_r; [lia|]. unfold property_width.
      destruct (Nat.ltb_spec (length names) 8); [lia|]. destruct (Nat.ltb_spec (length names) 16); [lia|]. destruct (Nat.ltb_spec (length names) 32); lia. }
    rewrite C. reflexivity. }
  rewrite S. assert (R : no_repeats (predeclared ++ concat (map names_of (file_decls p names values index))) = true).
  { unfold file_decls. cbn [map names_of concat]. rewrite powers_names. cbn [app]. apply no_repeats_ok. exact (clash_free p names D). }
  rewrite R. reflexivity.
Qed.
