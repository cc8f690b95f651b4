(** Facts about the printed text: numbers, the edits, and the tokens of what is printed. *)
From Coq Require Import String.
From Verif Require Import Base Trie Triegen SpecData GenMain GenParse SpecGoSource Print.
Local Open Scope N_scope.

(** * Numbers *)
Lemma digit_of_hexdigit : forall d, d < 16 -> digit_of (hexdigit d) = Some d.
Proof. intros d L. unfold hexdigit, digit_of. destruct (N.ltb_spec d 10).
  - replace (0x30 <=? 0x30 + d) with true by (symmetry; apply N.leb_le; lia). replace (0x30 + d <=? 0x39) with true by (symmetry; apply N.leb_le; lia). cbn [andb]. f_equal. lia.
  - replace (0x57 + d <=? 0x39) with false by (symmetry; apply N.leb_gt; lia). rewrite andb_false_r.
    replace (0x61 <=? 0x57 + d) with true by (symmetry; apply N.leb_le; lia). replace (0x57 + d <=? 0x66) with true by (symmetry; apply N.leb_le; lia). cbn [andb]. f_equal. lia.
Qed.

Lemma digits_radix : forall base, 2 <= base <= 16 -> forall fuel n rest, n < base ^ N.of_nat fuel -> digits base 0 (radix base fuel n rest) = digits base n rest.
Proof.
  intros base B. induction fuel as [|f IH]; intros n rest L.
  - change (base ^ N.of_nat 0) with 1 in L. replace n with 0 by lia. reflexivity.
  - cbn [radix]. assert (D : n mod base < base) by (apply N.mod_lt; lia). assert (E : n = base * (n / base) + n mod base) by (apply N.div_mod'; lia).
    assert (Q : forall a r, digits base a (hexdigit (n mod base) :: r) = digits base (a * base + n mod base) r).
    { intros a r. cbn [digits]. rewrite digit_of_hexdigit by lia. replace (n mod base <? base) with true by (symmetry; apply N.ltb_lt; exact D). reflexivity. }
    destruct (N.eqb_spec (n / base) 0) as [Z|Z].
    + rewrite Q. f_equal. lia.
    + rewrite IH; [rewrite Q; f_equal; lia|]. rewrite Nat2N.inj_succ, N.pow_succ_r' in L. apply N.div_lt_upper_bound; lia.
Qed.
Lemma size_bound : forall base n, 2 <= base -> n < base ^ N.of_nat (S (N.size_nat n)).
Proof.
  intros base n B. apply N.lt_le_trans with (2 ^ N.of_nat (N.size_nat n)).
  - destruct n as [|q]; [vm_compute; reflexivity|]. pose proof (N.size_gt (N.pos q)) as G. replace (N.of_nat (N.size_nat (N.pos q))) with (N.size (N.pos q)); [exact G|].
    clear. cbn [N.size N.size_nat]. induction q as [q IH|q IH|]; cbn [Pos.size Pos.size_nat]; [| |reflexivity]; rewrite Nat2N.inj_succ, <- IH; reflexivity.
  - apply N.le_trans with (base ^ N.of_nat (N.size_nat n)); [apply N.pow_le_mono_l; exact B|apply N.pow_le_mono_r; lia].
Qed.
Lemma digits_zeros : forall base k s, 2 <= base -> digits base 0 (repeat 0x30 k ++ s) = digits base 0 s.
Proof. intros base k s B. induction k as [|k IH]; [reflexivity|]. cbn [repeat app digits]. change (digit_of 0x30) with (Some 0). cbv beta iota. destruct (N.ltb_spec 0 base); [exact IH|lia]. Qed.

Lemma radix_not_nil : forall base f n rest, radix base (S f) n rest <> [].
Proof. intros base. induction f as [|f IH]; intros n rest; cbn [radix]; [destruct (n / base =? 0); discriminate|]. destruct (n / base =? 0); [discriminate|]. apply IH. Qed.
Lemma number_0x : forall s n, s <> [] -> digits 16 0 s = Some n -> number (str "0x" ++ s) = Some n.
Proof. intros [|c s] n E D; [congruence|]. exact D. Qed.
Lemma number_fmt_0x : forall w n, number (fmt_0x w n) = Some n.
Proof.
  intros w n. unfold fmt_0x. apply number_0x.
  - unfold pad, hex. intros E. apply app_eq_nil in E as [_ E]. exact (radix_not_nil _ _ _ _ E).
  - unfold pad. rewrite digits_zeros by lia. unfold hex. rewrite digits_radix; [reflexivity|lia|apply size_bound; lia].
Qed.
Lemma radix_head : forall base, 2 <= base -> forall f n rest, 0 < n -> n < base ^ N.of_nat f -> exists d r, radix base f n rest = hexdigit d :: r /\ 0 < d < base.
Proof.
  intros base B. induction f as [|f IH]; intros n rest P L; [change (base ^ N.of_nat 0) with 1 in L; lia|].
  cbn [radix]. assert (D : n mod base < base) by (apply N.mod_lt; lia). assert (E : n = base * (n / base) + n mod base) by (apply N.div_mod'; lia).
  destruct (N.eqb_spec (n / base) 0) as [Z|Z].
  - exists (n mod base), rest. split; [reflexivity|split; [rewrite Z, N.mul_0_r in E; lia|exact D]].
  - apply IH; [apply N.neq_0_lt_0; exact Z|]. rewrite Nat2N.inj_succ, N.pow_succ_r' in L. apply N.div_lt_upper_bound; lia.
Qed.
Lemma number_dec : forall n, number (dec n) = Some n.
Proof.
  intros n. assert (E : digits 10 0 (dec n) = Some n) by (unfold dec; rewrite digits_radix; [reflexivity|lia|apply size_bound; lia]).
  destruct (N.eq_dec n 0) as [->|P]; [reflexivity|].
  destruct (radix_head 10 ltac:(lia) (S (N.size_nat n)) n [] ltac:(lia) (size_bound 10 n ltac:(lia))) as (d & r & R & D).
  fold (dec n) in R. rewrite R in *. unfold number.
  assert (C : d = 1 \/ d = 2 \/ d = 3 \/ d = 4 \/ d = 5 \/ d = 6 \/ d = 7 \/ d = 8 \/ d = 9) by lia.
  repeat destruct C as [->|C]; try subst d; exact E.
Qed.
Lemma radix_wordy : forall base, 2 <= base <= 16 -> forall f n rest, forallb wordy rest = true -> forallb wordy (radix base f n rest) = true.
Proof.
  intros base B. assert (W : forall d, d < 16 -> wordy (hexdigit d) = true).
  { assert (F : forallb (fun d => wordy (hexdigit d)) [0;1;2;3;4;5;6;7;8;9;10;11;12;13;14;15] = true) by reflexivity. rewrite forallb_forall in F. intros d L. apply F. cbn [In]. lia. }
  induction f as [|f IH]; intros n rest R; [exact R|]. cbn [radix]. assert (D : n mod base < base) by (apply N.mod_lt; lia).
  assert (G : forallb wordy (hexdigit (n mod base) :: rest) = true) by (cbn [forallb]; rewrite W by lia; exact R).
  destruct (n / base =? 0); [exact G|apply IH; exact G].
Qed.
(** The characters of numbers. *)
Definition hexy (c : N) : bool := ((0x30 <=? c) && (c <=? 0x39)) || ((0x61 <=? c) && (c <=? 0x66)) || (c =? 0x78).
Lemma radix_hexy : forall base, 2 <= base <= 16 -> forall f n rest, forallb hexy rest = true -> forallb hexy (radix base f n rest) = true.
Proof.
  intros base B. assert (W : forall d, d < 16 -> hexy (hexdigit d) = true).
  { assert (F : forallb (fun d => hexy (hexdigit d)) [0;1;2;3;4;5;6;7;8;9;10;11;12;13;14;15] = true) by reflexivity. rewrite forallb_forall in F. intros d L. apply F. cbn [In]. lia. }
  induction f as [|f IH]; intros n rest R; [exact R|]. cbn [radix]. assert (D : n mod base < base) by (apply N.mod_lt; lia).
  assert (G : forallb hexy (hexdigit (n mod base) :: rest) = true) by (cbn [forallb]; rewrite W by lia; exact R).
  destruct (n / base =? 0); [exact G|apply IH; exact G].
Qed.
Lemma hexy_wordy : forall s, forallb hexy s = true -> forallb wordy s = true.
Proof.
  intros s F. rewrite forallb_forall in *. intros c I. specialize (F c I). unfold hexy in F. unfold wordy. apply orb_true_iff in F as [F|F].
  - apply orb_true_iff in F as [F|F]; apply andb_true_iff in F as [F1 F2]; apply N.leb_le in F1, F2.
    + replace (0x30 <=? c) with true by (symmetry; apply N.leb_le; lia). replace (c <=? 0x39) with true by (symmetry; apply N.leb_le; lia). reflexivity.
    + replace (0x61 <=? c) with true by (symmetry; apply N.leb_le; lia). replace (c <=? 0x7A) with true by (symmetry; apply N.leb_le; lia). rewrite !orb_true_r. reflexivity.
  - apply N.eqb_eq in F. subst c. reflexivity.
Qed.
Lemma hex_hexy : forall n, forallb hexy (hex n) = true.
Proof. intros n. apply radix_hexy; [lia|reflexivity]. Qed.
Lemma dec_hexy : forall n, forallb hexy (dec n) = true.
Proof. intros n. apply radix_hexy; [lia|reflexivity]. Qed.
Lemma pad_hexy : forall w s, forallb hexy s = true -> forallb hexy (pad w s) = true.
Proof. intros w s F. unfold pad. rewrite forallb_app, F, andb_true_r. induction (w - length s)%nat as [|k IH]; [reflexivity|exact IH]. Qed.
Lemma fmt_x_hexy : forall n, forallb hexy (fmt_x n) = true.
Proof. intros n. unfold fmt_x. rewrite forallb_app. rewrite hex_hexy. reflexivity. Qed.
Lemma fmt_0x_hexy : forall w n, forallb hexy (fmt_0x w n) = true.
Proof. intros w n. unfold fmt_0x. rewrite forallb_app. rewrite pad_hexy by apply hex_hexy. reflexivity. Qed.

(** * The edits *)
Lemma starts_app : forall p s, starts p s = true <-> exists r, s = p ++ r.
Proof.
  induction p as [|x p IH]; intros s; cbn [starts]; [split; [intros _; exists s; reflexivity|reflexivity]|].
  destruct s as [|y s]; [split; [discriminate|intros (r & E); discriminate]|]. rewrite andb_true_iff, N.eqb_eq, IH. split.
  - intros [-> (r & ->)]. exists r. reflexivity.
  - intros (r & E). injection E as -> ->. split; [reflexivity|exists r; reflexivity].
Qed.
Definition occurs (p s : bytes) : Prop := exists a b, s = a ++ p ++ b.
Lemma replace_none : forall old new s, ~ occurs old s -> replaceAll old new s = s.
Proof.
  intros old new. unfold replaceAll. induction s as [|c r IH]; intros NO; [reflexivity|]. cbn [replace].
  destruct (starts old (c :: r)) eqn:S.
  - apply starts_app in S as (b & E). exfalso. apply NO. exists [], b. exact E.
  - f_equal. apply IH. intros (a & b & ->). apply NO. exists (c :: a), b. reflexivity.
Qed.
(** A newline is in no pattern, so text is edited line by line. *)
Lemma starts_cut : forall p a x b, ~ In x p -> starts p (a ++ x :: b) = starts p (a ++ [x]).
Proof.
  induction p as [|y p IH]; intros a x b NI; [destruct a; reflexivity|]. destruct a as [|z a]; cbn [app starts].
  - destruct (N.eqb_spec y x) as [->|_]; [exfalso; apply NI; left; reflexivity|reflexivity].
  - rewrite IH by (intros I; apply NI; right; exact I). reflexivity.
Qed.
Lemma starts_len : forall p a x b, ~ In x p -> starts p (a ++ x :: b) = true -> (length p <= length a)%nat.
Proof.
  induction p as [|y p IH]; intros a x b NI S; [cbn; lia|]. destruct a as [|z a]; cbn [app starts] in S; apply andb_true_iff in S as [E S].
  - apply N.eqb_eq in E. subst. exfalso. apply NI. left. reflexivity.
  - apply IH in S; [cbn; lia|]. intros I; apply NI; right; exact I.
Qed.
Lemma replace_cut : forall old new x b, ~ In x old -> old <> [] -> forall a skip, (skip <= length a)%nat -> replace skip old new ((a ++ [x]) ++ b) = replace skip old new (a ++ [x]) ++ replaceAll old new b.
Proof.
  intros old new x b NI NE. induction a as [|c a IH]; intros skip L.
  - destruct skip; [|cbn in L; lia]. cbn [app replace]. destruct old as [|y old]; [congruence|]. cbn [starts].
    destruct (N.eqb_spec y x) as [->|_]; [exfalso; apply NI; left; reflexivity|]. reflexivity.
  - cbn [app replace]. destruct skip as [|k].
    + assert (S : starts old (c :: (a ++ [x]) ++ b) = starts old (c :: a ++ [x])).
      { rewrite <- app_assoc. exact (starts_cut old (c :: a) x b NI). }
      rewrite S. destruct (starts old (c :: a ++ [x])) eqn:S'.
      * rewrite <- (app_assoc new). f_equal. apply IH. pose proof (starts_len old (c :: a) x [] NI S'). cbn [length] in H. lia.
      * cbn [app]. f_equal. apply IH. lia.
    + apply IH. cbn [length] in L. lia.
Qed.
(** Two ways to see that a pattern does not occur. *)
Lemma no_occ : forall x p s, In x p -> ~ In x s -> ~ occurs p s.
Proof. intros x p s I NI (a & b & ->). apply NI. apply in_or_app. right. apply in_or_app. left. exact I. Qed.
Lemma no_occ2 : forall y x p1 p2 a d, In y p1 -> ~ In y a -> ~ In x d -> ~ occurs (p1 ++ x :: p2) (a ++ d).
Proof.
  intros y x p1 p2 a d I NA ND (u & v & E). rewrite <- app_assoc in E. cbn [app] in E. rewrite app_assoc in E.
  apply app_eq_app in E as (l & [[-> E]|[E ->]]).
  - apply NA. apply in_or_app. left. apply in_or_app. right. exact I.
  - destruct l as [|z l]; cbn [app] in E.
    + rewrite app_nil_r in E. subst a. apply NA. apply in_or_app. right. exact I.
    + apply ND. apply in_or_app. right. left. reflexivity.
Qed.
