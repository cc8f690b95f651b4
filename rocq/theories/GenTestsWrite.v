(** The source that writeTests makes has the form of SpecTestFile. *)
From Coq Require Import String.
From Verif Require Import Base SpecData SpecGoSource Print PrintFacts GenTests SpecTestFile.
Local Open Scope N_scope.
Local Open Scope list_scope.

Definition p1 : bytes := str "[]uint8{0x". Definition n1 : bytes := str "{0x".
Definition p2 : bytes := str "[]uint8{". Definition n2 : bytes := str "[]byte{".

(** What becomes of a piece of text, whatever follows. *)
Definition trans (old new s s' : bytes) : Prop := forall t, replace old new 0 (s ++ t) = s' ++ replace old new 0 t.
Lemma trans_app : forall old new a a' b b', trans old new a a' -> trans old new b b' -> trans old new (a ++ b) (a' ++ b').
Proof. intros old new a a' b b' A B t. rewrite <- !app_assoc, A, B. reflexivity. Qed.
Lemma trans_nil : forall old new, trans old new [] [].
Proof. intros old new t. reflexivity. Qed.
Definition nobr (s : bytes) : Prop := Forall (fun c => c <> 0x5B) s.
(** Both patterns start with a bracket and have no other; [q] is the rest. *)
Lemma trans_nobr : forall q new s, nobr s -> trans (0x5B :: q) new s s.
Proof.
  intros q new s F t. induction F as [|c s N F IH]; [reflexivity|]. cbn [app replace starts]. rewrite (proj2 (N.eqb_neq 0x5B c)) by congruence. cbn [andb]. rewrite IH. reflexivity.
Qed.
Lemma trans_open : forall q new d s, d <> 0x5D -> nobr (d :: s) -> trans (0x5B :: 0x5D :: q) new (0x5B :: d :: s) (0x5B :: d :: s).
Proof.
  intros q new d s N F t. change ((0x5B :: d :: s) ++ t) with (0x5B :: (d :: s) ++ t). cbn [replace].
  assert (E : starts (0x5B :: 0x5D :: q) (0x5B :: (d :: s) ++ t) = false) by (cbn [starts app]; rewrite N.eqb_refl; cbn [andb]; rewrite (proj2 (N.eqb_neq 0x5D d)) by congruence; reflexivity).
  rewrite E, (trans_nobr _ new (d :: s) F t). reflexivity.
Qed.
Lemma starts_app : forall old s, starts old s = true -> exists b, s = old ++ b.
Proof.
  induction old as [|a old IH]; intros s E; [exists s; reflexivity|]. destruct s as [|b s]; [discriminate E|]. cbn [starts] in E. apply andb_prop in E as [A E]. apply N.eqb_eq in A. subst.
  destruct (IH s E) as [r ->]. exists r. reflexivity.
Qed.
Lemma app_prefix : forall (x : N) old s t b, ~ In x old -> s ++ x :: t = old ++ b -> exists b', s = old ++ b'.
Proof.
  intros x. induction old as [|a old IH]; intros s t b N E; [exists s; reflexivity|]. destruct s as [|c s]; cbn [app] in E; injection E as E1 E.
  - exfalso. apply N. left. congruence.
  - subst. destruct (IH s t b) as [b' ->]; [intros I; apply N; right; exact I|exact E|]. exists b'. reflexivity.
Qed.
(** A text without the pattern, before a character that is not in the pattern. *)
Lemma trans_without : forall old new x s, old <> [] -> ~ In x old -> ~ contains s old -> trans old new (s ++ [x]) (s ++ [x]).
Proof.
  intros old new x s O I C t. rewrite <- !app_assoc. cbn [app]. induction s as [|c s IH].
  - cbn [app replace]. destruct old as [|a old]; [contradiction O; reflexivity|]. cbn [starts]. rewrite (proj2 (N.eqb_neq a x)) by (intros ->; apply I; left; reflexivity). reflexivity.
  - change ((c :: s) ++ x :: t) with (c :: s ++ x :: t). cbn [replace]. destruct (starts old (c :: s ++ x :: t)) eqn:E.
    + exfalso. apply starts_app in E as [b E]. change (c :: s ++ x :: t) with ((c :: s) ++ x :: t) in E. destruct (app_prefix _ _ _ _ _ I E) as [b' E']. apply C. exists [], b'. exact E'.
    + cbn [app]. f_equal. apply IH. intros (a & b & E'). apply C. exists (c :: a), b. rewrite E'. reflexivity.
Qed.
Lemma not_p1 : forall s, ~ contains s p2 -> ~ contains s p1.
Proof. intros s C (a & b & E). apply C. exists a, (str "0x" ++ b). exact E. Qed.

Ltac lit := intros t; reflexivity.

(** * Numbers *)
Lemma number_fmt_x : forall n, number (fmt_x n) = Some n.
Proof. intros n. exact (number_fmt_0x 0 n). Qed.
Lemma hexy_nobr : forall s, forallb hexy s = true -> nobr s.
Proof. intros s F. rewrite forallb_forall in F. apply Forall_forall. intros c I E. specialize (F c I). subst. discriminate F. Qed.
Lemma nobr_app : forall a b, nobr a -> nobr b -> nobr (a ++ b).
Proof. intros a b A B. apply Forall_app. split; assumption. Qed.
Lemma nobr_lit : forall s, forallb (fun c => negb (c =? 0x5B)) s = true -> nobr s.
Proof. intros s F. rewrite forallb_forall in F. apply Forall_forall. intros c I. specialize (F c I). apply negb_true_iff in F. apply N.eqb_neq. exact F. Qed.
Lemma fmt_nobr : forall n, nobr (fmt_x n).
Proof. intros n. apply nobr_app; [apply nobr_lit; reflexivity|apply hexy_nobr; apply hex_hexy]. Qed.
Lemma commas_nobr : forall l, Forall nobr l -> nobr (commas l).
Proof.
  intros l F. induction F as [|x l N F IH]; [constructor|]. destruct l as [|y l]; [exact N|]. change (commas (x :: y :: l)) with (x ++ str ", " ++ commas (y :: l)).
  apply nobr_app; [exact N|]. apply nobr_app; [apply nobr_lit; reflexivity|exact IH].
Qed.
Lemma bytes_nobr : forall b, nobr (commas (map fmt_x b)).
Proof. intros b. apply commas_nobr. apply Forall_forall. intros s I. apply in_map_iff in I as (n & <- & _). apply fmt_nobr. Qed.
Lemma commas_0x : forall x r, exists s, commas (map fmt_x (x :: r)) = str "0x" ++ s /\ nobr s.
Proof.
  intros x r. destruct r as [|y r].
  - exists (hex x). split; [reflexivity|apply hexy_nobr; apply hex_hexy].
  - exists (hex x ++ str ", " ++ commas (map fmt_x (y :: r))). split; [change (commas (map fmt_x (x :: y :: r))) with (fmt_x x ++ str ", " ++ commas (map fmt_x (y :: r))); unfold fmt_x at 1; rewrite <- !app_assoc; reflexivity|].
    apply nobr_app; [apply hexy_nobr; apply hex_hexy|]. apply nobr_app; [apply nobr_lit; reflexivity|apply bytes_nobr].
Qed.

Lemma nobr1 : forall s, nobr s -> trans p1 n1 s s.
Proof. intros s. exact (trans_nobr (tl p1) n1 s). Qed.
Lemma nobr2 : forall s, nobr s -> trans p2 n2 s s.
Proof. intros s. exact (trans_nobr (tl p2) n2 s). Qed.
(** * The pieces after both replacements *)
Definition inner2 (b : bytes) : bytes := match b with [] => str "[]uint8(nil)" | _ => str "{" ++ commas (map fmt_x b) ++ str "}" end.
Definition slices1 (l : list bytes) : bytes := match l with [] => str "[][]uint8(nil)" | _ => str "[][]uint8{" ++ commas (map inner2 l) ++ str "}" end.
Definition slices2 (l : list bytes) : bytes := match l with [] => str "[][]uint8(nil)" | _ => str "[][]byte{" ++ commas (map inner2 l) ++ str "}" end.
Lemma bytes_trans : forall q new b, trans (0x5B :: 0x5D :: 0x75 :: q) new (sharp_bytes b) (sharp_bytes b).
Proof.
  intros q new b. destruct b as [|x b]; [lit|].
  unfold sharp_bytes. apply trans_app; [lit|]. apply trans_app; apply trans_nobr; [apply bytes_nobr|apply nobr_lit; reflexivity].
Qed.
Lemma inner_trans1 : forall b, trans p1 n1 (sharp_inner b) (inner2 b).
Proof.
  intros [|x b]; [lit|]. unfold sharp_inner, inner2. destruct (commas_0x x b) as (s & -> & N). intros t. rewrite <- !app_assoc.
  change (replace p1 n1 0 (str "[]uint8{" ++ str "0x" ++ s ++ str "}" ++ t)) with (str "{0x" ++ replace p1 n1 0 (s ++ str "}" ++ t)). rewrite (nobr1 s N).
  rewrite (nobr1 (str "}") ltac:(apply nobr_lit; reflexivity) t). reflexivity.
Qed.
Lemma inner_trans2 : forall b, trans p2 n2 (inner2 b) (inner2 b).
Proof. intros [|x b]; [lit|]. apply trans_nobr. apply nobr_app; [apply nobr_lit; reflexivity|]. apply nobr_app; [apply bytes_nobr|apply nobr_lit; reflexivity]. Qed.
Lemma commas_trans : forall q new (f g : bytes -> bytes) l, (forall b, trans (0x5B :: q) new (f b) (g b)) -> trans (0x5B :: q) new (commas (map f l)) (commas (map g l)).
Proof.
  intros q new f g l H. induction l as [|x l IH]; [lit|]. destruct l as [|y l]; [exact (H x)|].
  change (commas (map f (x :: y :: l))) with (f x ++ str ", " ++ commas (map f (y :: l))). change (commas (map g (x :: y :: l))) with (g x ++ str ", " ++ commas (map g (y :: l))).
  apply trans_app; [apply H|]. apply trans_app; [apply trans_nobr; apply nobr_lit; reflexivity|exact IH].
Qed.
Lemma commas_open : forall b l, exists s, commas (map sharp_inner (b :: l)) = 0x5B :: s.
Proof. intros b l. destruct b, l; eexists; reflexivity. Qed.
Lemma slices_trans1 : forall l, trans p1 n1 (sharp_slices l) (slices1 l).
Proof.
  intros [|b l]; [lit|]. unfold sharp_slices, slices1. intros t. rewrite <- !app_assoc.
  pose proof (trans_app p1 n1 _ _ _ _ (commas_trans (tl p1) n1 sharp_inner inner2 (b :: l) inner_trans1) (nobr1 (str "}") ltac:(apply nobr_lit; reflexivity)) t) as E. rewrite <- !app_assoc in E.
  destruct (commas_open b l) as [s C]. rewrite C in *.
  change (replace p1 n1 0 (str "[][]uint8{" ++ (0x5B :: s) ++ str "}" ++ t)) with (str "[][]uint8{" ++ replace p1 n1 0 ((0x5B :: s) ++ str "}" ++ t)). f_equal. exact E.
Qed.
Lemma slices_trans2 : forall l, trans p2 n2 (slices1 l) (slices2 l).
Proof.
  intros [|b l]; [lit|]. unfold slices1, slices2. apply trans_app; [lit|]. apply trans_app; [apply commas_trans; exact inner_trans2|apply trans_nobr; apply nobr_lit; reflexivity].
Qed.

Lemma listing_commas : forall {A} (elem : bytes -> A -> Prop) (f : A -> bytes) l, (forall x, elem (f x) x) -> l <> [] -> listing elem (commas (map f l)) l.
Proof.
  intros A elem f l H N. induction l as [|x l IH]; [contradiction N; reflexivity|]. destruct l as [|y l]; [constructor; apply H|].
  change (commas (map f (x :: y :: l))) with (f x ++ str ", " ++ commas (map f (y :: l))). constructor; [apply H|]. apply IH. discriminate.
Qed.
Lemma bytes_read : forall b, bytes_literal (sharp_bytes b) b.
Proof. intros [|x b]; [constructor|]. apply bytes_some. apply listing_commas; [exact number_fmt_x|discriminate]. Qed.
Lemma inner_read : forall b, inner_literal (inner2 b) b.
Proof. intros [|x b]; [constructor|]. apply inner_some. apply listing_commas; [exact number_fmt_x|discriminate]. Qed.
Lemma slices_read : forall l, slices_literal (slices2 l) l.
Proof. intros [|x b]; [constructor|]. apply slices_some. apply listing_commas; [exact inner_read|discriminate]. Qed.

Section Write.
  Variable quote : bytes -> bytes.
  Definition parts (t : test) : bytes * list bytes * bytes := (t_input t, t_expected t, t_comment t).
  Definition test_with (e : list bytes -> bytes) (t : test) : bytes :=
    line (str "{") ++ indented (str "input: " ++ sharp_bytes (t_input t) ++ str ",") ++ indented (str "expected: " ++ e (t_expected t) ++ str ",")
    ++ indented (str "comment: " ++ quote (t_comment t) ++ str ",") ++ line (str "},").
  Lemma write_test_with : forall t, write_test quote t = test_with sharp_slices t.
  Proof. intros t. unfold write_test, test_with, ln, line, indented. cbn [app]. repeat (rewrite <- !app_assoc; cbn [app]). reflexivity. Qed.
  Lemma trans_test : forall q new (e e' : list bytes -> bytes) t,
    trans (0x5B :: 0x5D :: 0x75 :: q) new (sharp_bytes (t_input t)) (sharp_bytes (t_input t)) -> trans (0x5B :: 0x5D :: 0x75 :: q) new (e (t_expected t)) (e' (t_expected t)) ->
    ~ In 0x2C (0x5B :: 0x5D :: 0x75 :: q) -> ~ contains (quote (t_comment t)) (0x5B :: 0x5D :: 0x75 :: q) ->
    trans (0x5B :: 0x5D :: 0x75 :: q) new (test_with e t) (test_with e' t).
  Proof.
    intros q new e e' t I E C Q. unfold test_with. apply trans_app; [apply trans_nobr, nobr_lit; reflexivity|].
    apply trans_app. { unfold indented. change (0x09 :: (str "input: " ++ sharp_bytes (t_input t) ++ str ",") ++ [0x0A]) with ([0x09] ++ (str "input: " ++ sharp_bytes (t_input t) ++ str ",") ++ [0x0A]).
      apply trans_app; [apply trans_nobr, nobr_lit; reflexivity|]. apply trans_app; [|apply trans_nobr, nobr_lit; reflexivity]. apply trans_app; [apply trans_nobr, nobr_lit; reflexivity|].
      apply trans_app; [exact I|apply trans_nobr, nobr_lit; reflexivity]. }
    apply trans_app. { unfold indented. change (0x09 :: (str "expected: " ++ e (t_expected t) ++ str ",") ++ [0x0A]) with ([0x09] ++ (str "expected: " ++ e (t_expected t) ++ str ",") ++ [0x0A]).
      change (0x09 :: (str "expected: " ++ e' (t_expected t) ++ str ",") ++ [0x0A]) with ([0x09] ++ (str "expected: " ++ e' (t_expected t) ++ str ",") ++ [0x0A]).
      apply trans_app; [apply trans_nobr, nobr_lit; reflexivity|]. apply trans_app; [|apply trans_nobr, nobr_lit; reflexivity]. apply trans_app; [apply trans_nobr, nobr_lit; reflexivity|].
      apply trans_app; [exact E|apply trans_nobr, nobr_lit; reflexivity]. }
    apply trans_app; [|apply trans_nobr, nobr_lit; reflexivity]. unfold indented.
    change (0x09 :: (str "comment: " ++ quote (t_comment t) ++ str ",") ++ [0x0A]) with ([0x09] ++ (str "comment: " ++ quote (t_comment t) ++ str ",") ++ [0x0A]).
    apply trans_app; [apply trans_nobr, nobr_lit; reflexivity|]. apply trans_app; [|apply trans_nobr, nobr_lit; reflexivity]. apply trans_app; [apply trans_nobr, nobr_lit; reflexivity|].
    apply trans_without; [discriminate|exact C|exact Q].
  Qed.
  Lemma trans_tests : forall q new (f g : test -> bytes) tests, Forall (fun t => trans (0x5B :: q) new (f t) (g t)) tests ->
    trans (0x5B :: q) new (concat (map f tests)) (concat (map g tests)).
  Proof. intros q new f g tests F. induction F as [|t tests T F IH]; [lit|]. cbn [map concat]. apply trans_app; assumption. Qed.
  Lemma read_tests : forall tests, test_literals quote (concat (map (test_with slices2) tests)) (map parts tests).
  Proof.
    induction tests as [|t tests IH]; [constructor|]. cbn [map concat]. constructor; [|exact IH]. constructor; [apply bytes_read|apply slices_read].
  Qed.

  Lemma not_in_lit : forall x l, existsb (N.eqb x) l = false -> ~ In x l.
  Proof. intros x l E I. assert (T : existsb (N.eqb x) l = true) by (apply existsb_exists; exists x; split; [exact I|apply N.eqb_refl]). congruence. Qed.
  Lemma dec_first : forall n, exists d r, dec n = d :: r /\ d <> 0x5D /\ nobr (d :: r).
  Proof.
    intros n. pose proof (dec_hexy n) as H. unfold dec in *. destruct (radix 10 (S (N.size_nat n)) n []) as [|d r] eqn:E; [exfalso; exact (radix_not_nil _ _ _ _ E)|].
    exists d, r. split; [reflexivity|]. split; [|apply hexy_nobr; exact H]. intros ->. discriminate H.
  Qed.
  Definition middle : bytes := ln [] ++ ln (str "type unicodeTest struct {") ++ ln ([9] ++ str "input    []byte") ++ ln ([9] ++ str "expected [][]byte") ++ ln ([9] ++ str "comment  string") ++ ln (str "}") ++ ln [].
  Lemma header_eq : forall pkg url n, test_header pkg url n =
    str "package " ++ (pkg ++ [0x5F]) ++ (ln (str "test") ++ ln [] ++ ln ([9] ++ str "// generated by github.com/clipperhouse/uax29/v2") ++ [9] ++ str "// from ") ++ (url ++ [10])
    ++ middle ++ str "var unicodeTests = " ++ (str "[" ++ dec (N.of_nat n) ++ ln (str "]unicodeTest {")).
  Proof. intros pkg url n. unfold test_header, middle, ln. repeat (rewrite <- !app_assoc; cbn [app]). reflexivity. Qed.
  Lemma header_trans : forall q new pkg url n, trans (0x5B :: 0x5D :: 0x75 :: q) new middle middle -> ~ In 0x5F (0x5B :: 0x5D :: 0x75 :: q) -> ~ In 0x0A (0x5B :: 0x5D :: 0x75 :: q) ->
    ~ contains pkg (0x5B :: 0x5D :: 0x75 :: q) -> ~ contains url (0x5B :: 0x5D :: 0x75 :: q) -> trans (0x5B :: 0x5D :: 0x75 :: q) new (test_header pkg url n) (test_header pkg url n).
  Proof.
    intros q new pkg url n M I J P U. rewrite header_eq. apply trans_app; [apply trans_nobr, nobr_lit; reflexivity|]. apply trans_app; [apply trans_without; [discriminate|exact I|exact P]|].
    apply trans_app; [apply trans_nobr, nobr_lit; reflexivity|]. apply trans_app; [apply trans_without; [discriminate|exact J|exact U]|]. apply trans_app; [exact M|].
    apply trans_app; [apply trans_nobr, nobr_lit; reflexivity|]. destruct (dec_first (N.of_nat n)) as (d & r & -> & D & F). change (str "[" ++ (d :: r) ++ ln (str "]unicodeTest {")) with (0x5B :: d :: r ++ ln (str "]unicodeTest {")).
    apply trans_open; [exact D|]. change (d :: r ++ ln (str "]unicodeTest {")) with ((d :: r) ++ ln (str "]unicodeTest {")). apply nobr_app; [exact F|apply nobr_lit; reflexivity].
  Qed.

  Lemma write_ok : forall pkg url tests, ~ contains pkg p2 -> ~ contains url p2 -> Forall (fun t => ~ contains (quote (t_comment t)) p2) tests ->
    test_source quote pkg url (writeTests quote pkg url tests) (map parts tests).
  Proof.
    intros pkg url tests P U C. unfold writeTests, ReplaceAll.
    set (tail := ln (str "}") ++ ln []).
    assert (T1 : trans p1 n1 (test_header pkg url (length tests) ++ concat (map (write_test quote) tests) ++ tail) (test_header pkg url (length tests) ++ concat (map (test_with slices1) tests) ++ tail)).
    { apply trans_app; [apply header_trans; [lit|apply not_in_lit; reflexivity|apply not_in_lit; reflexivity|apply not_p1; exact P|apply not_p1; exact U]|].
      apply trans_app; [|apply trans_nobr, nobr_lit; reflexivity]. apply trans_tests. eapply Forall_impl; [|exact C]. cbn beta. intros t Q. rewrite write_test_with.
      apply trans_test; [apply bytes_trans|apply slices_trans1|apply not_in_lit; reflexivity|apply not_p1; exact Q]. }
    assert (T2 : trans p2 n2 (test_header pkg url (length tests) ++ concat (map (test_with slices1) tests) ++ tail) (test_header pkg url (length tests) ++ concat (map (test_with slices2) tests) ++ tail)).
    { apply trans_app; [apply header_trans; [lit|apply not_in_lit; reflexivity|apply not_in_lit; reflexivity|exact P|exact U]|].
      apply trans_app; [|apply trans_nobr, nobr_lit; reflexivity]. apply trans_tests. eapply Forall_impl; [|exact C]. cbn beta. intros t Q.
      apply trans_test; [apply bytes_trans|apply slices_trans2|apply not_in_lit; reflexivity|exact Q]. }
    specialize (T1 []). specialize (T2 []). rewrite !app_nil_r in T1, T2. cbn [replace] in T1, T2. rewrite ?app_nil_r in T1, T2.
    unfold test_body. fold tail. change (str "[]uint8{0x") with p1. change (str "{0x") with n1. change (str "[]uint8{") with p2. change (str "[]byte{") with n2. rewrite T1, T2.
    pose proof (a_source quote pkg url (dec (N.of_nat (length tests))) _ (map parts tests) ltac:(rewrite map_length; apply number_dec) (read_tests tests)) as R.
    match type of R with test_source _ _ _ ?a _ => match goal with |- test_source _ _ _ ?b _ => replace b with a; [exact R|] end end.
    unfold test_header, tail, line, ln, indented. repeat (rewrite <- !app_assoc; cbn [app]). reflexivity.
  Qed.
End Write.
