(** Small list lemmas. *)
From Verif Require Import Base.

Lemma skipn_skipn {A} : forall x y (l : list A), skipn x (skipn y l) = skipn (x + y) l.
Proof.
  intros x y. revert x. induction y as [|y IH]; intros x l; [rewrite Nat.add_0_r; reflexivity|].
  destruct l as [|a l]; [rewrite !skipn_nil; reflexivity|]. rewrite Nat.add_succ_r. simpl. apply IH.
Qed.

Lemma skipn_nonnil : forall (data : bytes) pos, pos < length data -> skipn pos data <> [].
Proof. intros data pos H Hx. apply (f_equal (@length N)) in Hx. rewrite skipn_length in Hx. simpl in Hx. lia. Qed.

Lemma is_nil_false : forall (l : bytes), l <> [] -> is_nil l = false.
Proof. destruct l; [congruence|reflexivity]. Qed.

Lemma slice_from_ok : forall data pos, pos <= length data -> slice_from data pos = Ok (skipn pos data).
Proof. intros. unfold slice_from. replace (length data <? pos) with false by (symmetry; apply Nat.ltb_ge; lia). reflexivity. Qed.

Lemma slice_to_ok : forall data pos, pos <= length data -> slice_to data pos = Ok (firstn pos data).
Proof. intros. unfold slice_to. replace (length data <? pos) with false by (symmetry; apply Nat.ltb_ge; lia). reflexivity. Qed.

Lemma slice_ok : forall data lo hi, lo <= hi <= length data -> slice data lo hi = Ok (firstn (hi - lo) (skipn lo data)).
Proof.
  intros. unfold slice. replace (hi <? lo) with false by (symmetry; apply Nat.ltb_ge; lia).
  replace (length data <? hi) with false by (symmetry; apply Nat.ltb_ge; lia). reflexivity.
Qed.

Lemma skipn_app_le {A} : forall n (l t : list A), n <= length l -> skipn n (l ++ t) = skipn n l ++ t.
Proof. intros. rewrite skipn_app. replace (n - length l) with 0 by lia. reflexivity. Qed.

Lemma firstn_app_le {A} : forall n (l t : list A), n <= length l -> firstn n (l ++ t) = firstn n l.
Proof. intros. rewrite firstn_app. replace (n - length l) with 0 by lia. simpl. apply app_nil_r. Qed.
