(** What the rules need of the canonical mappings and the combining classes, checked on the tables. *)
From Verif Require Import Base ListFacts SpecUtf8 SpecUcd SpecSame SpecMarks MarkRules SpecDecomp SpecCanon CanonRules RangeTrees.
Local Open Scope N_scope.

Definition in_scalar (c : N) : bool := (c <? 0xD800) || ((0xE000 <=? c) && (c <? 0x110000)).
Lemma in_scalar_ok : forall c, in_scalar c = true -> scalar c.
Proof. intros c H. unfold in_scalar in H. apply orb_prop in H. destruct H as [H|H]; [left; apply N.ltb_lt; exact H|]. apply andb_prop in H. destruct H as (A & B). apply N.leb_le in A. apply N.ltb_lt in B. right. lia. Qed.
Definition mark_check (m : N) : bool := in_scalar m && gcb_beq (GCB' m) GCB_Extend && incb_beq (InCB' m) InCB_Extend && wb_beq (WB' m) WB_Extend && sb_beq (SB' m) SB_Extend && negb (ExtPict' m).
Definition takes_check (c : N) : bool :=
  (gcb_beq (GCB' c) GCB_Other || gcb_beq (GCB' c) GCB_Extend || gcb_beq (GCB' c) GCB_SpacingMark)
  && negb (existsb (wb_beq (WB' c)) [WB_CR; WB_LF; WB_Newline; WB_ZWJ; WB_WSegSpace]) && negb (existsb (sb_beq (SB' c)) [SB_Sep; SB_CR; SB_LF]).
Definition map_check (e : N * list N) : bool :=
  let '(c, d) := e in match d with
  | [] => false
  | a :: ms => in_scalar c && in_scalar a && gcb_beq (GCB' c) (GCB' a) && incb_beq (InCB' c) (InCB' a) && wb_beq (WB' c) (WB' a) && sb_beq (SB' c) (SB' a) && ((c =? stroked_arrow) || Bool.eqb (ExtPict' c) (ExtPict' a))
      && forallb mark_check ms && (match ms with [] => true | _ => false end || takes_check a)
  end.
Lemma maps_checked : forallb map_check decompositions = true.
Proof. vm_compute. reflexivity. Qed.
Definition class_check (m : N) : bool := in_scalar m && gcb_beq (GCB' m) GCB_Extend && (incb_beq (InCB' m) InCB_Extend || incb_beq (InCB' m) InCB_Linker) && wb_beq (WB' m) WB_Extend && sb_beq (SB' m) SB_Extend && negb (ExtPict' m).
Fixpoint span (lo : N) (n : nat) : list N := match n with O => [] | S n => lo :: span (lo + 1) n end.
Definition range_check (e : N * N * N) : bool := let '(lo, hi, _) := e in forallb class_check (span lo (N.to_nat (hi + 1 - lo))).
Lemma ranges_checked : forallb range_check combining_classes = true.
Proof. vm_compute. reflexivity. Qed.

Lemma span_in : forall n lo c, lo <= c < lo + N.of_nat n -> In c (span lo n).
Proof. induction n as [|n IH]; intros lo c H; [lia|]. cbn [span]. destruct (N.eq_dec lo c) as [->|]; [left; reflexivity|right]. apply IH. lia. Qed.

Ltac ands H := repeat match type of H with _ && _ = true => let X := fresh "X" in apply andb_prop in H; destruct H as (H & X) end.
Record mark_facts (m : N) : Prop := { mf_scalar : scalar m; mf_g : g_mark0 m; mf_w : w_mark m; mf_s : s_mark m }.
Lemma mark_check_ok : forall m, mark_check m = true -> mark_facts m.
Proof.
  intros m H. unfold mark_check in H. rewrite <- ?GCB_tree, <- ?InCB_tree, <- ?ExtPict_tree, <- ?WB_tree, <- ?SB_tree in H. ands H. apply in_scalar_ok in H. apply internal_gcb_dec_bl in X3. apply internal_incb_dec_bl in X2. apply internal_wb_dec_bl in X1. apply internal_sb_dec_bl in X0. apply negb_true_iff in X.
  split; [exact H|split; auto|exact X1|exact X0].
Qed.
Lemma not_wb : forall c l, existsb (wb_beq (WB c)) l = false -> ~ In (WB c) l.
Proof. intros c l H I. assert (E : existsb (wb_beq (WB c)) l = true) by (apply existsb_exists; exists (WB c); split; [exact I|apply internal_wb_dec_lb; reflexivity]). congruence. Qed.
Lemma not_sb : forall c l, existsb (sb_beq (SB c)) l = false -> ~ In (SB c) l.
Proof. intros c l H I. assert (E : existsb (sb_beq (SB c)) l = true) by (apply existsb_exists; exists (SB c); split; [exact I|apply internal_sb_dec_lb; reflexivity]). congruence. Qed.
Lemma takes_check_ok : forall c, takes_check c = true -> g_takes c /\ w_takes c /\ s_takes c.
Proof.
  intros c H. unfold takes_check in H. rewrite <- ?GCB_tree, <- ?InCB_tree, <- ?ExtPict_tree, <- ?WB_tree, <- ?SB_tree in H. ands H. apply negb_true_iff in X, X0. split; [|split; [exact (not_wb c _ X0)|exact (not_sb c _ X)]].
  apply orb_prop in H. destruct H as [H|H]; [apply orb_prop in H; destruct H as [H|H]|]; apply internal_gcb_dec_bl in H; unfold g_takes; auto.
Qed.

(** The mapping of a character starts with a character of the same classes, and marks follow. *)
Lemma mapping_facts : forall c d, In (c, d) decompositions -> exists a ms, d = a :: ms /\ scalar c /\ scalar a
  /\ (c <> stroked_arrow -> same_grapheme c a /\ same_word c a) /\ same_sentence c a /\ Forall mark_facts ms
  /\ (g_takes a \/ ms = []) /\ (w_takes a \/ ms = []) /\ (s_takes a \/ ms = []).
Proof.
  intros c d I. pose proof (proj1 (forallb_forall _ _) maps_checked _ I) as H. clear I. unfold map_check in H. destruct d as [|a ms]; [discriminate|]. exists a, ms. split; [reflexivity|].
  rewrite <- ?GCB_tree, <- ?InCB_tree, <- ?ExtPict_tree, <- ?WB_tree, <- ?SB_tree in H. ands H. apply in_scalar_ok in H, X6. apply internal_gcb_dec_bl in X5. apply internal_incb_dec_bl in X4. apply internal_wb_dec_bl in X3. apply internal_sb_dec_bl in X2.
  split; [exact H|]. split; [exact X6|]. split.
  { intros N1. apply orb_prop in X1. destruct X1 as [X1|X1]; [apply N.eqb_eq in X1; contradiction|]. apply eqb_prop in X1. split; [split; [exact X5|split; [exact X4|exact X1]]|split; [exact X3|exact X1]]. }
  split; [exact X2|]. split; [apply Forall_forall; intros m Im; apply mark_check_ok; exact (proj1 (forallb_forall _ _) X0 m Im)|].
  apply orb_prop in X. destruct X as [X|X]; [destruct ms; [auto|discriminate]|]. destruct (takes_check_ok a X) as (A & B & C). auto.
Qed.
Record class_facts (m : N) : Prop := { cf_scalar : scalar m; cf_g : g_mark m; cf_w : w_mark m; cf_s : s_mark m }.
Lemma ccc_facts : forall m, 0 < ccc m -> class_facts m.
Proof.
  intros m H. unfold ccc in H. destruct (find _ combining_classes) as [((lo, hi), k)|] eqn:E; [|lia]. apply find_some in E. destruct E as (I & E). apply andb_prop in E. destruct E as (E1 & E2). apply N.leb_le in E1, E2.
  pose proof (proj1 (forallb_forall _ _) ranges_checked _ I) as C. unfold range_check in C. pose proof (proj1 (forallb_forall _ _) C m (span_in (N.to_nat (hi + 1 - lo)) lo m ltac:(rewrite N2Nat.id; lia))) as K. clear C I. unfold class_check in K. rewrite <- ?GCB_tree, <- ?InCB_tree, <- ?ExtPict_tree, <- ?WB_tree, <- ?SB_tree in K. ands K.
  apply in_scalar_ok in K. apply internal_gcb_dec_bl in X3. apply orb_prop in X2. apply internal_wb_dec_bl in X1. apply internal_sb_dec_bl in X0. apply negb_true_iff in X.
  split; [exact K| |exact X1|exact X0]. split; [exact X3|]. split; [|exact X]. destruct X2 as [X2|X2]; apply internal_incb_dec_bl in X2; auto.
Qed.
