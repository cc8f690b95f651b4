(** Facts about property tests. *)
From Verif Require Import Base Trie.
Local Open Scope N_scope.

Lemma is_lor_r : forall v p q, is v (N.lor p q) = is v p || is v q.
Proof.
  intros. unfold is. rewrite N.land_lor_distr_r. rewrite <- negb_andb. f_equal.
  destruct (N.land v p =? 0) eqn:A, (N.land v q =? 0) eqn:B; cbn [andb].
  - apply N.eqb_eq in A, B. rewrite A, B. reflexivity.
  - apply N.eqb_neq in B. apply N.eqb_neq. intros C. apply N.lor_eq_0_iff in C. tauto.
  - apply N.eqb_neq in A. apply N.eqb_neq. intros C. apply N.lor_eq_0_iff in C. tauto.
  - apply N.eqb_neq in A. apply N.eqb_neq. intros C. apply N.lor_eq_0_iff in C. tauto.
Qed.
Lemma is_lor_l : forall v u p, is (N.lor v u) p = is v p || is u p.
Proof.
  intros. unfold is. rewrite (N.land_comm (N.lor v u)), N.land_lor_distr_r, (N.land_comm p v), (N.land_comm p u).
  rewrite <- negb_andb. f_equal.
  destruct (N.land v p =? 0) eqn:A, (N.land u p =? 0) eqn:B; cbn [andb].
  - apply N.eqb_eq in A, B. rewrite A, B. reflexivity.
  - apply N.eqb_neq in B. apply N.eqb_neq. intros C. apply N.lor_eq_0_iff in C. tauto.
  - apply N.eqb_neq in A. apply N.eqb_neq. intros C. apply N.lor_eq_0_iff in C. tauto.
  - apply N.eqb_neq in A. apply N.eqb_neq. intros C. apply N.lor_eq_0_iff in C. tauto.
Qed.
Lemma is_zero : forall p, is 0 p = false.
Proof. reflexivity. Qed.
Lemma lor_zero : forall a b, (N.lor a b =? 0) = (a =? 0) && (b =? 0).
Proof.
  intros. destruct (a =? 0) eqn:A, (b =? 0) eqn:B; cbn [andb].
  - apply N.eqb_eq in A, B. subst. reflexivity.
  - apply N.eqb_neq in B. apply N.eqb_neq. intros C. apply N.lor_eq_0_iff in C. tauto.
  - apply N.eqb_neq in A. apply N.eqb_neq. intros C. apply N.lor_eq_0_iff in C. tauto.
  - apply N.eqb_neq in A. apply N.eqb_neq. intros C. apply N.lor_eq_0_iff in C. tauto.
Qed.
(** A test with a single bit. *)
Lemma is_land : forall a b k, is (N.land a b) (2 ^ k) = is a (2 ^ k) && is b (2 ^ k).
Proof.
  assert (H : forall v k, is v (2 ^ k) = N.testbit v k).
  { intros v k. unfold is. destruct (N.testbit v k) eqn:E.
    - apply negb_true_iff, N.eqb_neq. intros C. apply (f_equal (fun n => N.testbit n k)) in C.
      rewrite N.land_spec, N.pow2_bits_true, E, N.bits_0 in C. discriminate.
    - apply negb_false_iff, N.eqb_eq. apply N.bits_inj. intros m. rewrite N.land_spec, N.bits_0.
      destruct (N.eq_dec m k) as [->|Hm]; [rewrite E; reflexivity|]. rewrite N.pow2_bits_false by congruence. apply andb_false_r. }
  intros. rewrite !H. apply N.land_spec.
Qed.

(** Evaluate the property tests on constants. *)
Ltac eval_is :=
  repeat match goal with
  | |- context [is ?c ?p] =>
    let r := eval vm_compute in (is c p) in
    match r with true => change (is c p) with true | false => change (is c p) with false end
  end.
Ltac eval_is_in H :=
  repeat match type of H with
  | context [is ?c ?p] =>
    let r := eval vm_compute in (is c p) in
    match r with true => change (is c p) with true in H | false => change (is c p) with false in H end
  end.
