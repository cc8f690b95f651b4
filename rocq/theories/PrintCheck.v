(** Comparing printed text with a committed file, line by line. *)
From Coq Require Import String.
From Verif Require Import Base Trie SpecData SpecTriegen Triegen TriegenSize TriegenTables TriegenCheck GenMain GenParse.
From Verif Require Import SpecGoSource Print PrintFacts PrintTokens PrintRead.
Local Open Scope N_scope.

(** * Lines *)
Fixpoint split_lines (cur : bytes) (s : bytes) : list bytes :=
  match s with [] => match cur with [] => [] | _ => [rev cur] end | c :: r => if c =? 10 then rev (10 :: cur) :: split_lines [] r else split_lines (c :: cur) r end.
Lemma split_concat : forall s cur, concat (split_lines cur s) = rev cur ++ s.
Proof.
  induction s as [|c r IH]; intros cur; cbn [split_lines].
  - rewrite app_nil_r. destruct cur; [reflexivity|]. cbn [concat]. apply app_nil_r.
  - destruct (N.eqb_spec c 10) as [->|_]; [cbn [concat]; rewrite IH; cbn [rev app]; rewrite <- app_assoc; reflexivity|]. rewrite IH. cbn [rev]. rewrite <- app_assoc. reflexivity.
Qed.
Lemma split_closed : forall s cur, closed s -> (s <> [] \/ cur = []) -> Forall closed (split_lines cur s).
Proof.
  intros s cur [->|(a & ->)]; [intros [Q| ->]; [congruence|constructor]|]. intros _. revert cur. induction a as [|c a IH]; intros cur; cbn [app split_lines].
  - rewrite N.eqb_refl. constructor; [|constructor]. right. exists (rev cur). reflexivity.
  - destruct (c =? 10); [|apply IH]. constructor; [|apply IH]. right. exists (rev cur). reflexivity.
Qed.
Lemma tokens_lines : forall l, Forall closed l -> tokens (concat l) = concat (map tokens l).
Proof. induction 1 as [|s l C _ IH]; [reflexivity|]. cbn [concat map]. rewrite (tokens_app _ _ C), IH. reflexivity. Qed.
Lemma dense_newline : forall a b st, dense st (a ++ 10 :: b) = dense st (a ++ [10]) ++ dense true b.
Proof.
  induction a as [|c a IH]; intros b st; cbn [app dense].
  - change (blank 10) with false. rewrite N.eqb_refl. destruct st; cbn [app dense]; reflexivity.
  - destruct (blank c); [apply IH|]. destruct (c =? 10); [rewrite (IH b), app_assoc; reflexivity|]. rewrite (IH b). reflexivity.
Qed.
Lemma dense_app : forall a b, closed a -> dense true (a ++ b) = dense true a ++ dense true b.
Proof. intros a b [->|(a' & ->)]; [reflexivity|]. rewrite <- app_assoc. exact (dense_newline a' b true). Qed.
Lemma dense_lines : forall l, Forall closed l -> dense true (concat l) = concat (map (dense true) l).
Proof. induction 1 as [|s l C _ IH]; [reflexivity|]. cbn [concat map]. rewrite (dense_app _ _ C), IH. reflexivity. Qed.

Definition tok_eqb (a b : tok) : bool := match a, b with W v, W w => same v w | M c, M d => c =? d | _, _ => false end.
Fixpoint toks_eqb (a b : list tok) : bool := match a, b with [], [] => true | x :: a', y :: b' => tok_eqb x y && toks_eqb a' b' | _, _ => false end.
Lemma toks_eqb_ok : forall a b, toks_eqb a b = true -> a = b.
Proof.
  induction a as [|x a IH]; intros [|y b] E; try discriminate E; [reflexivity|]. cbn [toks_eqb] in E. apply andb_true_iff in E as [E1 E2]. rewrite (IH b E2). f_equal.
  destruct x, y; try discriminate E1; cbn [tok_eqb] in E1; [apply same_ok in E1; congruence|apply N.eqb_eq in E1; congruence].
Qed.
(** What a line amounts to. *)
Definition reading (s : bytes) : list tok * bytes := (tokens s, dense true s).
Definition empty (r : list tok * bytes) : bool := is_nil (fst r) && is_nil (snd r).
Definition readings (l : list bytes) : list (list tok * bytes) := filter (fun r => negb (empty r)) (map reading l).
Fixpoint readings_eqb (a b : list (list tok * bytes)) : bool :=
  match a, b with [], [] => true | (t, d) :: a', (t', d') :: b' => toks_eqb t t' && same d d' && readings_eqb a' b' | _, _ => false end.
Lemma readings_eqb_ok : forall a b, readings_eqb a b = true -> a = b.
Proof.
  induction a as [|[t d] a IH]; intros [|[t' d'] b] E; try discriminate E; [reflexivity|]. cbn [readings_eqb] in E. apply andb_true_iff in E as [E1 E2]. apply andb_true_iff in E1 as [E0 E1].
  rewrite (IH b E2), (toks_eqb_ok _ _ E0). apply same_ok in E1. rewrite E1. reflexivity.
Qed.
Lemma readings_concat : forall l, concat (map fst (readings l)) = concat (map tokens l) /\ concat (map snd (readings l)) = concat (map (dense true) l).
Proof.
  induction l as [|s l [I1 I2]]; [split; reflexivity|]. unfold readings in *. cbn [map filter]. destruct (empty (reading s)) eqn:E; cbn [negb].
  - unfold empty, reading in E. cbn [fst snd] in E. apply andb_true_iff in E as [E1 E2]. cbn [concat]. destruct (tokens s); [|discriminate E1]. destruct (dense true s); [|discriminate E2]. split; assumption.
  - cbn [map concat reading fst snd]. rewrite I1, I2. split; reflexivity.
Qed.
Lemma compared : forall a b, Forall closed a -> Forall closed b -> readings_eqb (readings a) (readings b) = true -> same_but_layout (concat a) (concat b).
Proof.
  intros a b Ca Cb E. apply readings_eqb_ok in E. destruct (readings_concat a) as [A1 A2]. destruct (readings_concat b) as [B1 B2].
  split; [rewrite !tokens_lines by assumption; congruence|rewrite !dense_lines by assumption; congruence].
Qed.

(** * The printed text in pieces *)
Fixpoint block_chunks (f : N -> list N -> bytes) (n : N) (blocks : list (list N)) : list bytes := match blocks with [] => [] | b :: r => ln (f n b) :: block_chunks f (n + 1) r end.
Lemma block_chunks_ok : forall f blocks n, print_all f n blocks = concat (block_chunks f n blocks).
Proof. intros f. induction blocks as [|b r IH]; intros n; [reflexivity|]. cbn [print_all block_chunks concat]. rewrite IH. reflexivity. Qed.
Definition array_chunks (name comment : bytes) (f : N -> list N -> bytes) (size : N) (blocks : list (list N)) : list bytes :=
  let n := N.of_nat (length blocks) in let entries := n * N.of_nat blockSize in
  [ln []; ln (str "// " ++ name ++ str ": " ++ dec n ++ str " blocks, " ++ dec entries ++ str " entries, " ++ dec (entries * size) ++ str " bytes"); ln comment;
       ln (str "var " ++ name ++ str " = [" ++ dec entries ++ str "]property {")] ++ block_chunks f 0 blocks ++ [ln (str "}")].
Lemma array_chunks_ok : forall name comment f size blocks, array_text name comment f size blocks = concat (array_chunks name comment f size blocks).
Proof.
  intros. unfold array_text, array_chunks, cat. cbv zeta. rewrite !concat_app. cbn [concat]. rewrite block_chunks_ok, !app_nil_r, <- !app_assoc. reflexivity.
Qed.
Definition file_chunks (p : package) (names : list bytes) (size checksum vsize isize : N) (values index : list (list N)) : list bytes :=
  let name := package_name p in
  [head_text p names; lookup_text name; trie_head name (package_title p) size checksum]
  ++ array_chunks (name ++ str "Values") (str "// The third block is the zero block.") printValues vsize values
  ++ array_chunks (name ++ str "Index") (str "// Block 0 is the zero block.") printIndex isize index.
Lemma file_chunks_ok : forall p names size checksum vsize isize values index, file_text p names size checksum vsize isize values index = concat (file_chunks p names size checksum vsize isize values index).
Proof.
  intros. unfold file_text, file_chunks. cbv zeta. rewrite !concat_app, <- !array_chunks_ok. cbn [concat]. rewrite app_nil_r, <- !app_assoc. reflexivity.
Qed.
Lemma block_chunks_closed : forall f blocks n, Forall closed (block_chunks f n blocks).
Proof. intros f. induction blocks as [|b r IH]; intros n; [constructor|]. constructor; [apply closed_ln|apply IH]. Qed.
Lemma file_chunks_closed : forall p names size checksum vsize isize values index, Forall closed (file_chunks p names size checksum vsize isize values index).
Proof.
  assert (A : forall name comment f size blocks, Forall closed (array_chunks name comment f size blocks)).
  { intros. unfold array_chunks. cbv zeta. apply Forall_app; split; [repeat (constructor; [apply closed_ln|]); constructor|]. apply Forall_app; split; [apply block_chunks_closed|]. constructor; [apply closed_ln|constructor]. }
  intros. unfold file_chunks. cbv zeta. apply Forall_app; split; [|apply Forall_app; split; apply A]. constructor; [apply closed_head|]. constructor; [apply closed_lookup|]. constructor; [apply closed_trie_head|constructor].
Qed.
Lemma edits_chunks : forall p l, Forall closed l -> edits (package_name p) (concat l) = concat (map (edits (package_name p)) l) /\ Forall closed (map (edits (package_name p)) l).
Proof.
  intros p. induction 1 as [|s l C F [I1 I2]]; [split; [destruct p; vm_compute; reflexivity|constructor]|]. cbn [concat map]. destruct (edits_app p s (concat l) C) as [E Ce]. rewrite E, I1. split; [reflexivity|constructor; assumption].
Qed.
Definition printed_lines (p : package) (chunks : list bytes) : list bytes := concat (map (fun s => split_lines [] (edits (package_name p) s)) chunks).
Lemma printed_lines_ok : forall p chunks, Forall closed chunks -> edits (package_name p) (concat chunks) = concat (printed_lines p chunks) /\ Forall closed (printed_lines p chunks).
Proof.
  intros p chunks F. destruct (edits_chunks p chunks F) as [E C]. rewrite E. clear E F. unfold printed_lines. rewrite <- (map_map (edits (package_name p)) (split_lines [])). induction C as [|s l Cs Fl [I1 I2]]; [split; [reflexivity|constructor]|].
  cbn [map concat]. rewrite concat_app, split_concat, I1. split; [reflexivity|]. apply Forall_app. split; [apply split_closed; [exact Cs|right; reflexivity]|exact I2].
Qed.

(** The text of a file, from its lines. *)
Definition source_text (lines : list string) : bytes := concat (map (fun l => str l ++ [10]) lines).
Definition check_text (p : package) (names : list bytes) (size checksum vsize isize : N) (values index : list (list N)) (lines : list string) : bool :=
  readings_eqb (readings (printed_lines p (file_chunks p names size checksum vsize isize values index))) (readings (map (fun l => str l ++ [10]) lines)).
Lemma check_text_ok : forall p names size checksum vsize isize values index lines, check_text p names size checksum vsize isize values index lines = true ->
  same_but_layout (edits (package_name p) (file_text p names size checksum vsize isize values index)) (source_text lines).
Proof.
  intros p names size checksum vsize isize values index lines E. rewrite file_chunks_ok. destruct (printed_lines_ok p _ (file_chunks_closed p names size checksum vsize isize values index)) as [-> C].
  apply compared; [exact C| |exact E]. apply Forall_forall. intros s I. apply in_map_iff in I as (l & <- & _). apply closed_ln.
Qed.
