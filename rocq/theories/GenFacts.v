(** Facts about GenMain.v. *)
From Verif Require Import Base SpecUtf8 SpecTriegen Triegen TriegenFacts TriegenIns TriegenExt GenMain SpecGenerate.
From Coq Require Import Permutation Sorted.
Local Open Scope N_scope.

(** * Order *)
Lemma ltb_before : forall a b, ltb_bytes a b = true <-> before a b.
Proof.
  induction a as [|x a IH]; intros [|y b]; cbn [ltb_bytes].
  - split; [discriminate|intros B; inversion B].
  - split; [constructor|reflexivity].
  - split; [discriminate|intros B; inversion B].
  - rewrite orb_true_iff, andb_true_iff, N.ltb_lt, N.eqb_eq, IH. split.
    + intros [L|[-> B]]; [apply before_lt; exact L|apply before_eq; exact B].
    + intros B. inversion B; subst; [left; assumption|right; split; [reflexivity|assumption]].
Qed.
Lemma before_irrefl : forall a, ~ before a a.
Proof. induction a as [|x a IH]; intros B; inversion B; subst; [lia|contradiction]. Qed.
Lemma before_trans : forall a b c, before a b -> before b c -> before a c.
Proof.
  intros a b c B. revert c. induction B as [y b|x y a b L|x a b B IH]; intros c C; inversion C; subst; try (constructor; lia); try constructor; auto; lia.
Qed.
Lemma before_total : forall a b, before a b \/ a = b \/ before b a.
Proof.
  induction a as [|x a IH]; intros [|y b]; [right; left; reflexivity|left; constructor|right; right; constructor|].
  destruct (N.lt_trichotomy x y) as [L|[->|L]]; [left; apply before_lt; exact L| |right; right; apply before_lt; exact L].
  destruct (IH b) as [B|[->|B]]; [left; apply before_eq; exact B|right; left; reflexivity|right; right; apply before_eq; exact B].
Qed.

Lemma insert_sorted_perm : forall s l, Permutation (s :: l) (insert_sorted s l).
Proof.
  intros s. induction l as [|x r IH]; cbn [insert_sorted]; [apply Permutation_refl|]. destruct (ltb_bytes x s); [|apply Permutation_refl].
  apply perm_trans with (x :: s :: r); [apply perm_swap|]. constructor. exact IH.
Qed.
Lemma sort_perm : forall l, Permutation l (sortStrings l).
Proof.
  induction l as [|x r IH]; [constructor|]. unfold sortStrings. cbn [fold_right]. fold (sortStrings r). apply perm_trans with (x :: sortStrings r); [constructor; exact IH|apply insert_sorted_perm].
Qed.
Lemma insert_sorted_sorted : forall s l, ~ In s l -> StronglySorted before l -> StronglySorted before (insert_sorted s l).
Proof.
  intros s. induction l as [|x r IH]; intros N S; cbn [insert_sorted]; [repeat constructor|].
  inversion S as [|? ? Sr Fr]; subst. destruct (ltb_bytes x s) eqn:E.
  - apply ltb_before in E. constructor; [apply IH; [intros I; apply N; right; exact I|exact Sr]|]. apply Permutation_Forall with (s :: r); [apply insert_sorted_perm|]. constructor; assumption.
  - assert (B : before s x). { destruct (before_total s x) as [B|[->|B]]; [exact B|contradiction N; left; reflexivity|]. apply ltb_before in B. rewrite B in E. discriminate. }
    constructor; [exact S|]. constructor; [exact B|]. rewrite Forall_forall in *. intros y Hy. apply before_trans with x; [exact B|apply Fr; exact Hy].
Qed.
Lemma sort_sorted : forall l, NoDup l -> StronglySorted before (sortStrings l).
Proof.
  induction l as [|x r IH]; intros N; [constructor|]. inversion N as [|? ? Nx Nr]; subst. unfold sortStrings. cbn [fold_right]. fold (sortStrings r).
  apply insert_sorted_sorted; [|apply IH; exact Nr]. intros I. apply Nx. apply Permutation_in with (sortStrings r); [apply Permutation_sym, sort_perm|exact I].
Qed.
Lemma sorted_unique : forall l l', StronglySorted before l -> StronglySorted before l' -> Permutation l l' -> l = l'.
Proof.
  induction l as [|x r IH]; intros l' S S' P; [apply Permutation_nil in P; subst; reflexivity|].
  destruct l' as [|y r']; [apply Permutation_sym, Permutation_nil in P; discriminate|].
  inversion S as [|? ? Sr Fr]; subst. inversion S' as [|? ? Sr' Fr']; subst. rewrite Forall_forall in *.
  assert (E : x = y).
  { assert (Ix : In x (y :: r')) by (apply (Permutation_in _ P); left; reflexivity). assert (Iy : In y (x :: r)) by (apply (Permutation_in _ (Permutation_sym P)); left; reflexivity).
    destruct Ix as [->|Ix]; [reflexivity|]. destruct Iy as [->|Iy]; [reflexivity|]. exfalso. apply (before_irrefl x). apply before_trans with y; [apply Fr; exact Iy|apply Fr'; exact Ix]. }
  subst y. f_equal. apply IH; [exact Sr|exact Sr'|exact (Permutation_cons_inv P)].
Qed.

(** The position of a name in the sorted list is its rank. *)
Lemma sorted_rank : forall l, StronglySorted before l -> forall k p, nth_error l k = Some p -> forall q, In q (firstn k l) <-> In q l /\ before q p.
Proof.
  intros l S. induction S as [|x r S IH F]; intros k p E q; [destruct k; discriminate E|]. rewrite Forall_forall in F. destruct k as [|k]; cbn [nth_error firstn] in *.
  - injection E as <-. split; [intros []|]. intros [[<-|I] B]; exfalso; [exact (before_irrefl _ B)|]. apply (before_irrefl q). apply before_trans with x; [exact B|apply F; exact I].
  - cbn [In]. rewrite (IH k p E q). split.
    + intros [<-|[I B]]; [split; [left; reflexivity|apply F; exact (nth_error_In _ _ E)]|split; [right; exact I|exact B]].
    + intros [[<-|I] B]; [left; reflexivity|right; split; assumption].
Qed.
Lemma sorted_nodup : forall l, StronglySorted before l -> NoDup l.
Proof.
  intros l S. induction S as [|x r S IH F]; [constructor|]. constructor; [|exact IH]. intros I. rewrite Forall_forall in F. exact (before_irrefl x (F x I)).
Qed.
Lemma nodup_firstn : forall (A : Type) k (l : list A), NoDup l -> NoDup (firstn k l).
Proof.
  intros A. induction k as [|k IH]; intros [|x l] N; cbn [firstn]; try constructor; inversion N as [|? ? Nx Nl]; subst; [|apply IH; exact Nl].
  intros I. apply Nx. rewrite <- (firstn_skipn k l). apply in_or_app. left. exact I.
Qed.
Lemma same_length : forall (A : Type) (l l' : list A), NoDup l -> NoDup l' -> (forall x, In x l <-> In x l') -> length l = length l'.
Proof. intros A l l' N N' E. apply Permutation_length. apply NoDup_Permutation; assumption. Qed.

Lemma rank_position : forall names k p i, NoDup names -> nth_error (sortStrings names) k = Some p -> rank names p i -> i = k.
Proof.
  intros names k p i N E (l & Nl & <- & Q). pose proof (sort_sorted names N) as S. pose proof (sort_perm names) as P.
  assert (Lk : (k < length (sortStrings names))%nat) by (apply nth_error_Some; rewrite E; discriminate).
  transitivity (length (firstn k (sortStrings names))); [|rewrite firstn_length; lia]. apply same_length; [exact Nl|apply nodup_firstn, sorted_nodup; exact S|].
  intros q. rewrite Q, (sorted_rank _ S k p E q). split; intros [I B]; (split; [|exact B]); [apply (Permutation_in _ P)|apply (Permutation_in _ (Permutation_sym P))]; exact I.
Qed.
Lemma position_rank : forall names k p, NoDup names -> nth_error (sortStrings names) k = Some p -> rank names p k.
Proof.
  intros names k p N E. pose proof (sort_sorted names N) as S. pose proof (sort_perm names) as P.
  assert (Lk : (k < length (sortStrings names))%nat) by (apply nth_error_Some; rewrite E; discriminate).
  exists (firstn k (sortStrings names)). split; [apply nodup_firstn, sorted_nodup; exact S|]. split; [rewrite firstn_length; lia|].
  intros q. rewrite (sorted_rank _ S k p E q). split; intros [I B]; (split; [|exact B]); [apply (Permutation_in _ (Permutation_sym P))|apply (Permutation_in _ P)]; exact I.
Qed.

(** * Bits *)
Lemma bytes_eqb_spec : forall a b, bytes_eqb a b = true <-> a = b.
Proof. intros a b. unfold bytes_eqb. destruct (list_eq_dec N.eq_dec a b); split; congruence. Qed.
Lemma mget_number : forall l i k p, NoDup l -> nth_error l k = Some p -> mget p (number i l) = bit64 (i + k).
Proof.
  induction l as [|x r IH]; intros i k p N E; [destruct k; discriminate E|]. inversion N as [|? ? Nx Nr]; subst. cbn [number mget]. destruct k as [|k]; cbn [nth_error] in E.
  - injection E as ->. destruct (bytes_eqb p p) eqn:Q; [rewrite Nat.add_0_r; reflexivity|]. assert (bytes_eqb p p = true) by (apply bytes_eqb_spec; reflexivity). congruence.
  - destruct (bytes_eqb x p) eqn:Q; [apply bytes_eqb_spec in Q; subst x; contradiction Nx; exact (nth_error_In _ _ E)|]. rewrite (IH (S i) k p Nr E). f_equal. lia.
Qed.
Lemma bit64_testbit : forall k j, (k < 64)%nat -> N.testbit (bit64 k) j = (N.of_nat k =? j).
Proof. intros k j L. unfold bit64. destruct (Nat.ltb_spec k 64); [|lia]. apply N.pow2_bits_eqb. Qed.

(** * The map of runes *)
Lemma rget_rset : forall m k v k', rget k' (rset k v m) = if k =? k' then v else rget k' m.
Proof.
  induction m as [|[a b] m IH]; intros k v k'; cbn [rset rget]; [reflexivity|]. destruct (N.eqb_spec a k) as [->|Hn]; cbn [rget].
  - destruct (k =? k'); reflexivity.
  - rewrite IH. destruct (N.eqb_spec a k') as [->|]; [|reflexivity]. destruct (N.eqb_spec k k') as [->|]; [contradiction Hn; reflexivity|reflexivity].
Qed.
Lemma rset_keys : forall m k v x, In x (map fst (rset k v m)) <-> x = k \/ In x (map fst m).
Proof.
  induction m as [|[a b] m IH]; intros k v x; cbn [rset map In fst]; [intuition|]. destruct (N.eqb_spec a k) as [->|Hn]; cbn [map In fst]; [intuition|]. rewrite IH. intuition.
Qed.
Lemma rset_nodup : forall m k v, NoDup (map fst m) -> NoDup (map fst (rset k v m)).
Proof.
  induction m as [|[a b] m IH]; intros k v N; cbn [rset map fst] in *; [repeat constructor; intros []|]. inversion N as [|? ? Na Nm]; subst.
  destruct (N.eqb_spec a k) as [->|Hn]; cbn [map fst]; [constructor; assumption|]. constructor; [|apply IH; exact Nm]. rewrite rset_keys. intros [->|I]; [contradiction Hn; reflexivity|exact (Na I)].
Qed.

Section Iotas.
  Variable iotas : list (bytes * N).
  Definition inner (p : bytes) (rs : list N) (m : list (N * N)) : list (N * N) := fold_left (fun m r => rset r (N.lor (rget r m) (mget p iotas)) m) rs m.

  Lemma inner_bit : forall p rs m cp j, N.testbit (rget cp (inner p rs m)) j = true <-> N.testbit (rget cp m) j = true \/ (In cp rs /\ N.testbit (mget p iotas) j = true).
  Proof.
    intros p. induction rs as [|r rs IH]; intros m cp j; cbn [inner fold_left In]; [tauto|]. fold (inner p rs (rset r (N.lor (rget r m) (mget p iotas)) m)). rewrite IH, rget_rset.
    destruct (N.eqb_spec r cp) as [->|Hn]; [rewrite N.lor_spec, orb_true_iff|]; tauto.
  Qed.
  Lemma inner_keys : forall p rs m x, In x (map fst (inner p rs m)) <-> In x rs \/ In x (map fst m).
  Proof.
    intros p. induction rs as [|r rs IH]; intros m x; cbn [inner fold_left In]; [tauto|]. fold (inner p rs (rset r (N.lor (rget r m) (mget p iotas)) m)). rewrite IH, rset_keys. intuition.
  Qed.
  Lemma inner_nodup : forall p rs m, NoDup (map fst m) -> NoDup (map fst (inner p rs m)).
  Proof.
    intros p. induction rs as [|r rs IH]; intros m N; cbn [inner fold_left]; [exact N|]. fold (inner p rs (rset r (N.lor (rget r m) (mget p iotas)) m)). apply IH. apply rset_nodup. exact N.
  Qed.

  Definition outer (visit : list (bytes * list N)) (m : list (N * N)) : list (N * N) := fold_left (fun m e => inner (fst e) (snd e) m) visit m.
  Lemma outer_bit : forall visit m cp j, N.testbit (rget cp (outer visit m)) j = true <->
    N.testbit (rget cp m) j = true \/ exists p rs, In (p, rs) visit /\ In cp rs /\ N.testbit (mget p iotas) j = true.
  Proof.
    induction visit as [|[p rs] visit IH]; intros m cp j; cbn [outer fold_left fst snd].
    - split; [tauto|]. intros [Q|(p & rs & [] & _)]. exact Q.
    - fold (outer visit (inner p rs m)). rewrite IH, inner_bit. split.
      + intros [[Q|[Q1 Q2]]|(p' & rs' & I & Q)]; [left; exact Q|right; exists p, rs; split; [left; reflexivity|split; assumption]|right; exists p', rs'; split; [right; exact I|exact Q]].
      + intros [Q|(p' & rs' & [I|I] & Q)]; [left; left; exact Q|injection I as <- <-; left; right; exact Q|right; exists p', rs'; split; assumption].
  Qed.
  Lemma outer_keys : forall visit m x, In x (map fst (outer visit m)) -> (exists p rs, In (p, rs) visit /\ In x rs) \/ In x (map fst m).
  Proof.
    induction visit as [|[p rs] visit IH]; intros m x I; cbn [outer fold_left fst snd] in I; [right; exact I|]. fold (outer visit (inner p rs m)) in I.
    destruct (IH _ _ I) as [(p' & rs' & I1 & I2)|I1]; [left; exists p', rs'; split; [right; exact I1|exact I2]|]. apply inner_keys in I1 as [I1|I1]; [left; exists p, rs; split; [left; reflexivity|exact I1]|right; exact I1].
  Qed.
  Lemma outer_nodup : forall visit m, NoDup (map fst m) -> NoDup (map fst (outer visit m)).
  Proof. induction visit as [|[p rs] visit IH]; intros m N; [exact N|]. cbn [outer fold_left fst snd]. fold (outer visit (inner p rs m)). apply IH. apply inner_nodup. exact N. Qed.
End Iotas.
Lemma iotasByRune_outer : forall iotas visit, iotasByRune iotas visit = outer iotas visit [].
Proof. reflexivity. Qed.

Lemma rget_in : forall m k v, NoDup (map fst m) -> In (k, v) m -> rget k m = v.
Proof.
  induction m as [|[a b] m IH]; intros k v N I; [destruct I|]. cbn [map fst] in N. inversion N as [|? ? Na Nm]; subst. cbn [rget]. destruct I as [I|I]; [injection I as -> ->; rewrite N.eqb_refl; reflexivity|].
  destruct (N.eqb_spec a k) as [->|]; [|apply IH; assumption]. contradiction Na. apply in_map_iff. exists (k, v). split; [reflexivity|exact I].
Qed.
Lemma rget_notin : forall m k, ~ In k (map fst m) -> rget k m = 0.
Proof. induction m as [|[a b] m IH]; intros k N; [reflexivity|]. cbn [rget map fst In] in *. destruct (N.eqb_spec a k) as [->|]; [contradiction N; left; reflexivity|]. apply IH. intros I. apply N. right. exact I. Qed.
Lemma assigned_rget : forall m cp, NoDup (map fst m) -> assigned m cp = rget cp m.
Proof.
  induction m as [|[a b] m IH]; intros cp N; [reflexivity|]. cbn [map fst] in N. inversion N as [|? ? Na Nm]; subst. cbn [assigned rget]. rewrite (IH cp Nm). destruct (N.eqb_spec a cp) as [->|].
  - rewrite rget_notin by exact Na. reflexivity.
  - destruct (N.eqb_spec (rget cp m) 0) as [->|]; reflexivity.
Qed.
Lemma rget_perm : forall m m' k, NoDup (map fst m) -> Permutation m m' -> rget k m = rget k m'.
Proof.
  intros m m' k N P. assert (N' : NoDup (map fst m')) by (apply (Permutation_NoDup (Permutation_map fst P) N)).
  destruct (in_dec N.eq_dec k (map fst m)) as [I|I].
  - apply in_map_iff in I as ([k' v] & E & I). cbn [fst] in E. subst k'. rewrite (rget_in m k v N I). symmetry. apply rget_in; [exact N'|]. exact (Permutation_in _ P I).
  - rewrite (rget_notin m k I). symmetry. apply rget_notin. intros I'. apply I. exact (Permutation_in _ (Permutation_sym (Permutation_map fst P)) I').
Qed.

(** * The generator *)
Definition combined (props : list (bytes * list N)) (cp : N) : N := rget cp (iotasByRune (iotasByProperty props) props).

Lemma position : forall props p rs, NoDup (map fst props) -> In (p, rs) props -> exists k, nth_error (sortStrings (map fst props)) k = Some p /\ (k < length props)%nat /\ mget p (iotasByProperty props) = bit64 k.
Proof.
  intros props p rs N I. assert (In p (sortStrings (map fst props))) as I'.
  { apply (Permutation_in _ (sort_perm _)). apply in_map_iff. exists (p, rs). split; [reflexivity|exact I]. }
  apply In_nth_error in I' as [k E]. exists k. split; [exact E|]. split.
  - assert (L : (k < length (sortStrings (map fst props)))%nat) by (apply nth_error_Some; rewrite E; discriminate). rewrite <- (Permutation_length (sort_perm (map fst props))), map_length in L. exact L.
  - unfold iotasByProperty. rewrite (mget_number _ 0 k p); [reflexivity|apply sorted_nodup, sort_sorted; exact N|exact E].
Qed.

Lemma nodup_fst_inj : forall (A B : Type) (l : list (A * B)) a b b', NoDup (map fst l) -> In (a, b) l -> In (a, b') l -> b = b'.
Proof.
  intros A B. induction l as [|[x y] l IH]; intros a b b' N I I'; [destruct I|]. cbn [map fst] in N. inversion N as [|? ? Nx Nl]; subst.
  destruct I as [I|I]; destruct I' as [I'|I']; try congruence.
  - injection I as -> ->. contradiction Nx. apply in_map_iff. exists (a, b'). split; [reflexivity|exact I'].
  - injection I' as -> ->. contradiction Nx. apply in_map_iff. exists (a, b). split; [reflexivity|exact I].
  - exact (IH a b b' Nl I I').
Qed.

Lemma combined_bit : forall props cp j, N.testbit (combined props cp) j = true <-> exists p rs, In (p, rs) props /\ In cp rs /\ N.testbit (mget p (iotasByProperty props)) j = true.
Proof. intros props cp j. unfold combined. rewrite iotasByRune_outer, outer_bit. cbn [rget]. rewrite N.bits_0. split; [intros [Q|Q]; [discriminate|exact Q]|right; assumption]. Qed.

Lemma combined_carries : forall props cp, family props -> carries props cp (combined props cp).
Proof.
  intros props cp (N & L & _). split.
  - intros p rs i I R. destruct (position props p rs N I) as (k & E & Lk & M). rewrite (rank_position _ k p i N E R). rewrite combined_bit. split.
    + intros (p' & rs' & I' & C & B). destruct (position props p' rs' N I') as (k' & E' & Lk' & M'). rewrite M', bit64_testbit in B by lia. apply N.eqb_eq in B. assert (k' = k) by lia. subst k'.
      rewrite E in E'. injection E' as <-. rewrite (nodup_fst_inj _ _ props p rs rs' N I I'). exact C.
    + intros C. exists p, rs. split; [exact I|]. split; [exact C|]. rewrite M, bit64_testbit by lia. apply N.eqb_refl.
  - destruct (N.eq_dec (combined props cp) 0) as [->|Z]; [apply N.neq_0_lt_0, N.pow_nonzero; discriminate|]. apply N.log2_lt_pow2; [lia|].
    pose proof (N.bit_log2 _ Z) as B. apply combined_bit in B as (p & rs & I & _ & B). destruct (position props p rs N I) as (k & _ & Lk & M). rewrite M, bit64_testbit in B by lia. apply N.eqb_eq in B. lia.
Qed.

(** The map of runes does not depend on the order of the properties. *)
Lemma rget_visit : forall props visit cp, Permutation props visit -> rget cp (iotasByRune (iotasByProperty props) visit) = combined props cp.
Proof.
  intros props visit cp P. apply N.bits_inj. intros j. apply eq_true_iff_eq. rewrite combined_bit, iotasByRune_outer, outer_bit. cbn [rget]. rewrite N.bits_0. split.
  - intros [Q|(p & rs & I & Q)]; [discriminate|]. exists p, rs. split; [apply (Permutation_in _ (Permutation_sym P)); exact I|exact Q].
  - intros (p & rs & I & Q). right. exists p, rs. split; [apply (Permutation_in _ P); exact I|exact Q].
Qed.
Lemma iotasByRune_nodup : forall iotas visit, NoDup (map fst (iotasByRune iotas visit)).
Proof. intros iotas visit. rewrite iotasByRune_outer. apply outer_nodup. constructor. Qed.

Lemma generates_visit : forall props visit1 visit2, family props -> Permutation props visit1 -> Permutation (iotasByRune (iotasByProperty props) visit1) visit2 ->
  assignable visit2 /\ forall cp, assigned visit2 cp = combined props cp.
Proof.
  intros props visit1 visit2 (N & L & S) P1 P2. split.
  - unfold assignable. rewrite Forall_forall. intros [r v] I _. cbn [fst]. apply (Permutation_in _ (Permutation_sym P2)) in I. apply (in_map fst) in I. cbn [fst] in I. rewrite iotasByRune_outer in I.
    destruct (outer_keys _ _ _ _ I) as [(p & rs & I1 & I2)|[]]. apply (Permutation_in _ (Permutation_sym P1)) in I1. specialize (S p rs I1). rewrite Forall_forall in S. exact (S r I2).
  - intros cp. assert (N2 : NoDup (map fst visit2)) by (apply (Permutation_NoDup (Permutation_map fst P2)), iotasByRune_nodup).
    rewrite (assigned_rget _ _ N2), <- (rget_visit props visit1 cp P1). symmetry. apply rget_perm; [apply iotasByRune_nodup|exact P2].
Qed.
