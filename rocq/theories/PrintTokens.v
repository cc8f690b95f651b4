(** The tokens of the printed text. *)
From Coq Require Import String.
From Verif Require Import Base Trie Triegen SpecData GenMain GenParse SpecGoSource TriegenCheck Print PrintFacts.
Local Open Scope N_scope.

(** Characters that are not there. *)
Definition lacks (x : N) (s : bytes) : bool := forallb (fun c => negb (c =? x)) s.
Lemma lacks_ok : forall x s, lacks x s = true -> ~ In x s.
Proof. intros x s L I. unfold lacks in L. rewrite forallb_forall in L. specialize (L x I). rewrite N.eqb_refl in L. discriminate L. Qed.
Lemma lacks_app : forall x a b, lacks x (a ++ b) = lacks x a && lacks x b.
Proof. intros. apply forallb_app. Qed.
Lemma lacks_hexy : forall x s, hexy x = false -> forallb hexy s = true -> lacks x s = true.
Proof. intros x s X F. unfold lacks. rewrite forallb_forall in *. intros c I. specialize (F c I). destruct (N.eqb_spec c x) as [->|_]; [congruence|reflexivity]. Qed.
Ltac lack := rewrite ?lacks_app, ?(lacks_hexy _ (fmt_x _)), ?(lacks_hexy _ (fmt_0x _ _)), ?(lacks_hexy _ (dec _)), ?(lacks_hexy _ (pad _ _)); try reflexivity; auto using fmt_x_hexy, fmt_0x_hexy, dec_hexy, pad_hexy, hex_hexy.

(** * Text that ends in a newline can be read, and edited, on its own *)
Definition closed (s : bytes) : Prop := s = [] \/ exists a, s = a ++ [10].
Lemma closed_ln : forall s, closed (ln s).
Proof. intros s. right. exists s. reflexivity. Qed.
Lemma closed_app : forall a b, closed a -> closed b -> closed (a ++ b).
Proof. intros a b A [->|(b' & ->)]; [rewrite app_nil_r; exact A|]. right. exists (a ++ b'). rewrite app_assoc. reflexivity. Qed.
Lemma closed_cat : forall l, Forall closed l -> closed (cat l).
Proof. induction 1 as [|s l C _ IH]; [left; reflexivity|]. cbn [cat concat]. apply closed_app; assumption. Qed.

Lemma lex_newline : forall a b w e n, lex w e n (a ++ 10 :: b) = lex w e n (a ++ [10]) ++ lex [] false false b.
Proof.
  induction a as [|c a IH]; intros b w e n.
  - cbn [app lex]. rewrite N.eqb_refl. change (lex [] false false []) with (@nil tok). rewrite app_nil_r, <- app_assoc. reflexivity.
  - cbn [app lex]. destruct (c =? 10); [rewrite (IH b), <- !app_assoc; reflexivity|]. destruct n; [apply IH|]. destruct (wordy c); [apply IH|].
    destruct (blank c); [rewrite (IH b), app_assoc; reflexivity|].
    replace (match a ++ 10 :: b with d :: _ => d =? 0x2F | [] => false end) with (match a ++ [10] with d :: _ => d =? 0x2F | [] => false end) by (destruct a; reflexivity).
    destruct (c =? 0x2F); cbn [andb]; [destruct (match a ++ [10] with d :: _ => d =? 0x2F | [] => false end)|]; rewrite (IH b), <- ?app_assoc; reflexivity.
Qed.
Lemma tokens_app : forall a b, closed a -> tokens (a ++ b) = tokens a ++ tokens b.
Proof. intros a b [->|(a' & ->)]; [reflexivity|]. unfold tokens. rewrite <- app_assoc. exact (lex_newline a' b [] false false). Qed.

Lemma replace_last : forall old new x, ~ In x old -> old <> [] -> forall a skip, (skip <= length a)%nat -> exists y, replace skip old new (a ++ [x]) = y ++ [x].
Proof.
  intros old new x NI NE. induction a as [|c a IH]; intros skip L.
  - destruct skip; [|cbn in L; lia]. cbn [app replace]. destruct old as [|y old]; [congruence|]. cbn [starts].
    destruct (N.eqb_spec y x) as [->|_]; [exfalso; apply NI; left; reflexivity|]. exists []. reflexivity.
  - cbn [app replace]. destruct skip as [|k].
    + destruct (starts old (c :: a ++ [x])) eqn:S.
      * destruct (IH (length old - 1)%nat) as (y & ->); [pose proof (starts_len old (c :: a) x [] NI S) as Q; cbn [length] in Q; lia|]. exists (new ++ y). rewrite app_assoc. reflexivity.
      * destruct (IH 0%nat) as (y & ->); [lia|]. exists (c :: y). reflexivity.
    + apply IH. cbn [length] in L. lia.
Qed.
Lemma replaceAll_app : forall old new a b, ~ In 10 old -> old <> [] -> closed a -> replaceAll old new (a ++ b) = replaceAll old new a ++ replaceAll old new b /\ closed (replaceAll old new a).
Proof.
  intros old new a b NI NE [->|(a' & ->)]; [split; [reflexivity|left; reflexivity]|]. split.
  - unfold replaceAll. apply replace_cut; [exact NI|exact NE|lia].
  - right. apply (replace_last old new 10 NI NE a' 0). lia.
Qed.
Definition pattern1 (name : bytes) := str "type " ++ (name ++ str "Trie") ++ str " struct".
Definition pattern2 (name : bytes) := str "(t *" ++ (name ++ str "Trie") ++ str ") lookup(s []byte)".
Definition pattern3 (name : bytes) := str "(t *" ++ (name ++ str "Trie") ++ str ") lookupValue".
Definition pattern4 := str "t.lookupValue(".
Ltac no10 := apply lacks_ok; vm_compute; reflexivity.
Lemma edits_app : forall p a b, closed a -> edits (package_name p) (a ++ b) = edits (package_name p) a ++ edits (package_name p) b /\ closed (edits (package_name p) a).
Proof.
  intros p a b C. unfold edits. cbv zeta.
  assert (P : ~ In 10 (pattern1 (package_name p)) /\ ~ In 10 (pattern2 (package_name p)) /\ ~ In 10 (pattern3 (package_name p)) /\ ~ In 10 pattern4).
  { destruct p; (split; [no10|]; split; [no10|]; split; [no10|no10]). }
  destruct P as (P1 & P2 & P3 & P4). unfold pattern1, pattern2, pattern3, pattern4 in *.
  match goal with |- context[replaceAll (str "type " ++ ?x) ?y (a ++ b)] => destruct (replaceAll_app (str "type " ++ x) y a b) as [E1 C1]; [exact P1|discriminate|exact C|]; rewrite E1; set (a1 := replaceAll (str "type " ++ x) y a) in *; set (b1 := replaceAll (str "type " ++ x) y b) in * end.
  match goal with |- context[replaceAll (str "(t *" ++ ?x) ?y (a1 ++ b1)] => destruct (replaceAll_app (str "(t *" ++ x) y a1 b1) as [E2 C2]; [exact P2|discriminate|exact C1|]; rewrite E2; set (a2 := replaceAll (str "(t *" ++ x) y a1) in *; set (b2 := replaceAll (str "(t *" ++ x) y b1) in * end.
  match goal with |- context[replaceAll (str "(t *" ++ ?x) ?y (a2 ++ b2)] => destruct (replaceAll_app (str "(t *" ++ x) y a2 b2) as [E3 C3]; [exact P3|discriminate|exact C2|]; rewrite E3; set (a3 := replaceAll (str "(t *" ++ x) y a2) in *; set (b3 := replaceAll (str "(t *" ++ x) y b2) in * end.
  match goal with |- context[replaceAll ?x ?y (a3 ++ b3)] => destruct (replaceAll_app x y a3 b3) as [E4 C4]; [exact P4|discriminate|exact C3|]; rewrite E4 end.
  split; [reflexivity|exact C4].
Qed.
Lemma edits_none : forall name s, ~ occurs (pattern1 name) s -> ~ occurs (pattern2 name) s -> ~ occurs (pattern3 name) s -> ~ occurs pattern4 s -> edits name s = s.
Proof.
  intros name s O1 O2 O3 O4. unfold edits. cbv zeta. unfold pattern1, pattern2, pattern3, pattern4 in *.
  match goal with |- context[replaceAll (str "type " ++ ?x) ?y s] => rewrite (replace_none (str "type " ++ x) y s O1) end.
  match goal with |- context[replaceAll (str "(t *" ++ ?x) ?y s] => rewrite (replace_none (str "(t *" ++ x) y s O2) end.
  match goal with |- context[replaceAll (str "(t *" ++ ?x) ?y s] => rewrite (replace_none (str "(t *" ++ x) y s O3) end.
  apply replace_none. exact O4.
Qed.
(** The patterns have, in this order: y and T; a star; a star; a full stop. *)
Lemma edits_same : forall p s, ~ occurs (pattern1 (package_name p)) s -> ~ In 0x2A s -> ~ In 0x2E s -> edits (package_name p) s = s.
Proof.
  intros p s O S F. apply edits_none; [exact O| | |].
  - apply (no_occ 0x2A); [|exact S]. unfold pattern2. apply in_or_app. left. vm_compute. tauto.
  - apply (no_occ 0x2A); [|exact S]. unfold pattern3. apply in_or_app. left. vm_compute. tauto.
  - apply (no_occ 0x2E); [|exact F]. vm_compute. tauto.
Qed.
(** Text of the file, edited and read. *)
Definition toks (p : package) (s : bytes) : list tok := tokens (edits (package_name p) s).
Lemma toks_app : forall p a b, closed a -> toks p (a ++ b) = toks p a ++ toks p b.
Proof. intros p a b C. unfold toks. destruct (edits_app p a b C) as [-> C']. apply tokens_app. exact C'. Qed.
Lemma toks_nil : forall p, toks p [] = [].
Proof. destruct p; vm_compute; reflexivity. Qed.
Lemma toks_cat : forall p l, Forall closed l -> toks p (cat l) = concat (map (toks p) l).
Proof.
  intros p. induction 1 as [|s l C _ IH]; [apply toks_nil|]. cbn [cat concat map]. rewrite toks_app by exact C. f_equal. exact IH.
Qed.

(** * Reading pieces *)
Lemma lex_word : forall w acc e r, forallb wordy w = true -> lex acc e false (w ++ r) = lex (rev w ++ acc) e false r.
Proof.
  induction w as [|c w IH]; intros acc e r F; [reflexivity|]. cbn [forallb] in F. apply andb_true_iff in F as [C F]. cbn [app lex rev]. rewrite C, <- app_assoc. cbn [app].
  replace (c =? 10) with false; [apply IH; exact F|]. symmetry. apply N.eqb_neq. intros ->. discriminate C.
Qed.
(** Comments. *)
Lemma lex_note : forall s e r, ~ In 10 s -> lex [] e true (s ++ r) = lex [] e true r.
Proof.
  induction s as [|c s IH]; intros e r NI; [reflexivity|]. cbn [app lex]. replace (c =? 10) with false; [apply IH; intros I; apply NI; right; exact I|].
  symmetry. apply N.eqb_neq. intros ->. apply NI. left. reflexivity.
Qed.
Lemma lex_comment : forall s e r, ~ In 10 s -> lex [] e false (str "//" ++ s ++ r) = lex [] e true r.
Proof. intros s e r NI. change (str "//" ++ s ++ r) with (0x2F :: 0x2F :: s ++ r). change (lex [] e true (0x2F :: s ++ r) = lex [] e true r). exact (lex_note (0x2F :: s) e r ltac:(intros [I|I]; [discriminate I|exact (NI I)])). Qed.
Lemma tokens_comment : forall s, ~ In 10 s -> tokens (ln (str "//" ++ s)) = [].
Proof. intros s NI. unfold tokens, ln. rewrite <- app_assoc. rewrite lex_comment by exact NI. reflexivity. Qed.
(** A word and the mark after it. *)
Lemma lex_word_mark : forall w e c r, w <> [] -> forallb wordy w = true -> wordy c = false -> blank c = false -> c <> 10 -> c <> 0x2F ->
  lex [] e false (w ++ c :: r) = W w :: M c :: lex [] (ends_mark c) false r.
Proof.
  intros w e c r NE F Wc Bc N1 N2. rewrite lex_word by exact F. rewrite app_nil_r. cbn [lex]. rewrite Wc, Bc, (proj2 (N.eqb_neq _ _) N1), (proj2 (N.eqb_neq _ _) N2). cbn [andb].
  destruct (rev w) as [|x y] eqn:R; [apply (f_equal (@rev N)) in R; rewrite rev_involutive in R; contradiction|]. cbn [flush app]. rewrite <- R, rev_involutive. reflexivity.
Qed.

(** * Entries *)
Definition entry_toks (digits : nat) (e : N * N) : list tok := [W (fmt_0x 2 (fst e)); M 0x3A; W (fmt_0x digits (snd e)); M 0x2C].
Lemma fmt_0x_not_nil : forall w n, fmt_0x w n <> [].
Proof. intros w n E. discriminate E. Qed.
Lemma lex_entries : forall per digits boff rest values i nl note, (note = true -> ((i mod per =? 0)%nat || nl) = true) ->
  lex [] false note (print_entries per digits i boff nl values ++ 10 :: rest) = concat (map (entry_toks digits) (pblock (boff + N.of_nat i) values)) ++ lex [] false false rest.
Proof.
  intros per digits boff rest. induction values as [|v r IH]; intros i nl note Hn; cbn [print_entries pblock app].
  - cbn [lex]. rewrite N.eqb_refl. destruct note; reflexivity.
  - replace (boff + N.of_nat i + 1) with (boff + N.of_nat (S i)) by lia. destruct (v =? 0).
    + apply IH. intros T. rewrite (Hn T). apply orb_true_r.
    + cbn [map concat]. rewrite <- !app_assoc. rewrite <- (IH (S i) false false) by discriminate.
      assert (Q : lex [] false false ([9] ++ fmt_0x 2 (boff + N.of_nat i) ++ str ":" ++ fmt_0x digits v ++ str ", " ++ print_entries per digits (S i) boff false r ++ 10 :: rest)
                  = entry_toks digits (boff + N.of_nat i, v) ++ lex [] false false (print_entries per digits (S i) boff false r ++ 10 :: rest)).
      { change ([9] ++ ?x) with (9 :: x). cbn [lex]. change (9 =? 10) with false. change (wordy 9) with false. change (blank 9) with true. cbv iota. cbn [flush ended app].
        change (str ":" ++ ?x) with (0x3A :: x). rewrite lex_word_mark; [|apply fmt_0x_not_nil|apply hexy_wordy, fmt_0x_hexy|reflexivity|reflexivity|discriminate|discriminate].
        change (str ", " ++ ?x) with (0x2C :: 0x20 :: x). rewrite lex_word_mark; [|apply fmt_0x_not_nil|apply hexy_wordy, fmt_0x_hexy|reflexivity|reflexivity|discriminate|discriminate].
        reflexivity. }
      destruct ((i mod per =? 0)%nat || nl) eqn:B.
      * change ([10] ++ ?x) with (10 :: x). cbn [lex]. rewrite N.eqb_refl. cbn [flush ended newline app]. rewrite <- !app_assoc. exact Q.
      * destruct note; [specialize (Hn eq_refl); discriminate Hn|]. cbn [app]. rewrite <- !app_assoc. exact Q.
Qed.
Lemma tokens_row : forall per digits n values, tokens (ln (print_rows per digits n values)) = concat (map (entry_toks digits) (pblock (n * 64) values)).
Proof.
  intros per digits n values. unfold tokens, ln, print_rows. change (N.of_nat blockSize) with 64.
  rewrite <- !app_assoc. change ([9] ++ ?x) with (9 :: x). cbn [lex]. change (9 =? 10) with false. change (wordy 9) with false. change (blank 9) with true. cbv iota. cbn [flush ended app].
  change (str "// Block " ++ ?x) with (str "//" ++ str " Block " ++ x).
  rewrite (app_assoc (str " Block ")), (app_assoc _ (str ", offset ")), (app_assoc _ (fmt_x (n * 64))).
  rewrite lex_comment.
  - rewrite (lex_entries per digits (n * 64) [] values 0 false true); [|intros _; destruct per; [reflexivity|rewrite Nat.mod_0_l by lia; reflexivity]].
    change (N.of_nat 0) with 0. rewrite N.add_0_r. change (lex [] false false []) with (@nil tok). apply app_nil_r.
  - apply lacks_ok. lack.
Qed.
