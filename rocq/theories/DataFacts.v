(** From the families of properties to the words of bits of SpecLookup. *)
From Verif Require Import Base SpecUtf8 SpecUcd SpecLookup SpecData SpecTriegen SpecGenerate Triegen TriegenFacts TriegenRun GenMain GenFacts.
From Coq Require Import Permutation Sorted.
Local Open Scope N_scope.

Fixpoint word (i : nat) (d : data) (cp : N) : N := match d with [] => 0 | (_, f) :: r => N.lor (if f cp then bit64 i else 0) (word (S i) r cp) end.

Lemma word_bit : forall d i cp j, (i + length d <= 64)%nat -> N.testbit (word i d cp) j = true <-> exists k p f, nth_error d k = Some (p, f) /\ f cp = true /\ j = N.of_nat (i + k).
Proof.
  induction d as [|[p f] d IH]; intros i cp j L; cbn [word length] in *.
  - rewrite N.bits_0. split; [discriminate|]. intros (k & p & f & E & _). destruct k; discriminate E.
  - rewrite N.lor_spec, orb_true_iff, IH by lia. split.
    + intros [B|(k & p' & f' & E & F & ->)].
      * destruct (f cp) eqn:F; [|rewrite N.bits_0 in B; discriminate]. rewrite bit64_testbit in B by lia. apply N.eqb_eq in B. exists 0%nat, p, f. repeat split; [exact F|lia].
      * exists (S k), p', f'. repeat split; [exact E|exact F|lia].
    + intros ([|k] & p' & f' & E & F & ->); cbn [nth_error] in E.
      * injection E as -> ->. left. rewrite F, bit64_testbit by lia. rewrite Nat.add_0_r. apply N.eqb_refl.
      * right. exists k, p', f'. repeat split; [exact E|exact F|lia].
Qed.

Fixpoint sorted_b (l : list bytes) : bool := match l with [] => true | x :: r => forallb (ltb_bytes x) r && sorted_b r end.
Lemma sorted_b_ok : forall l, sorted_b l = true -> StronglySorted before l.
Proof.
  induction l as [|x r IH]; intros E; [constructor|]. cbn [sorted_b] in E. apply andb_true_iff in E as [E1 E2]. constructor; [apply IH; exact E2|].
  rewrite Forall_forall. rewrite forallb_forall in E1. intros y I. apply ltb_before. apply E1. exact I.
Qed.

Lemma holds_family : forall d props, sorted_b (map fst d) = true -> (length d <= 64)%nat -> holds d props -> family props.
Proof.
  intros d props S L [P HH]. pose proof (sorted_nodup _ (sorted_b_ok _ S)) as N. split; [exact (Permutation_NoDup P N)|]. split.
  - apply Permutation_length in P. rewrite !map_length in P. lia.
  - intros p rs I. rewrite Forall_forall. intros cp C. assert (Ip : In p (map fst d)) by (apply (Permutation_in _ (Permutation_sym P)); apply in_map_iff; exists (p, rs); split; [reflexivity|exact I]).
    apply in_map_iff in Ip as ([p' f] & E & If). cbn [fst] in E. subst p'. apply (HH p rs f I If cp) in C. tauto.
Qed.

Lemma nth_error_fst : forall (A B : Type) (l : list (A * B)) k a b, nth_error l k = Some (a, b) -> nth_error (map fst l) k = Some a.
Proof. intros A B l k a b E. rewrite nth_error_map, E. reflexivity. Qed.

Lemma holds_word : forall d props cp, sorted_b (map fst d) = true -> (length d <= 64)%nat -> holds d props -> scalar cp -> combined props cp = word 0 d cp.
Proof.
  intros d props cp S L HO Sc. pose proof (holds_family d props S L HO) as (N & _). destruct HO as [P HH]. apply N.bits_inj. intros j. apply eq_true_iff_eq. rewrite combined_bit, word_bit by lia.
  assert (E0 : sortStrings (map fst props) = map fst d).
  { apply sorted_unique; [apply sort_sorted; exact N|apply sorted_b_ok; exact S|]. apply perm_trans with (map fst props); [apply Permutation_sym, sort_perm|apply Permutation_sym; exact P]. }
  assert (Ld : length props = length d) by (apply Permutation_length in P; rewrite !map_length in P; lia).
  split.
  - intros (p & rs & I & C & B). destruct (position props p rs N I) as (k & E & Lk & M). rewrite M, bit64_testbit in B by lia. apply N.eqb_eq in B.
    rewrite E0 in E. rewrite nth_error_map in E. destruct (nth_error d k) as [[p' f]|] eqn:Ed; [|discriminate E]. cbn [option_map fst] in E. injection E as ->.
    exists k, p, f. split; [exact Ed|]. split; [exact (proj2 (proj1 (HH p rs f I (nth_error_In _ _ Ed) cp) C))|]. rewrite Nat.add_0_l. symmetry. exact B.
  - intros (k & p & f & Ed & F & ->). assert (Ip : In p (map fst props)) by (apply (Permutation_in _ P); exact (nth_error_In _ _ (nth_error_fst _ _ _ _ _ _ Ed))).
    apply in_map_iff in Ip as ([p' rs] & E & I). cbn [fst] in E. subst p'. exists p, rs. split; [exact I|]. split; [apply (HH p rs f I (nth_error_In _ _ Ed) cp); split; assumption|].
    destruct (position props p rs N I) as (k' & E' & Lk & M). rewrite M, bit64_testbit by lia. rewrite E0 in E'. assert (k' = k).
    { pose proof (nth_error_fst _ _ _ _ _ _ Ed) as E2. pose proof (sorted_nodup _ (sorted_b_ok _ S)) as Nd. rewrite NoDup_nth_error in Nd. apply Nd; [apply nth_error_Some; rewrite E'; discriminate|congruence]. }
    subst k'. rewrite Nat.add_0_l. apply N.eqb_refl.
Qed.

Lemma graphemes_word : forall cp, word 0 graphemes_data cp = graphemes_property cp.
Proof. intros cp. unfold graphemes_property, graphemes_data. cbn [word]. destruct (GCB cp), (InCB cp), (ExtPict cp); vm_compute; reflexivity. Qed.
Lemma words_word : forall cp, word 0 words_data cp = words_property cp.
Proof. intros cp. unfold words_property, words_data. cbn [word]. destruct (WB cp), (BleveIdeographic cp), (ExtPict cp); vm_compute; reflexivity. Qed.
Lemma phrases_word : forall cp, word 0 phrases_data cp = phrases_property cp.
Proof. intros cp. unfold phrases_property, phrases_data. cbn [word]. destruct (WB cp), (ExtPict cp); vm_compute; reflexivity. Qed.
Lemma sentences_word : forall cp, word 0 sentences_data cp = sentences_property cp.
Proof. intros cp. unfold sentences_property, sentences_data. cbn [word]. destruct (SB cp); vm_compute; reflexivity. Qed.

(** Every family has lists that hold it. *)
Definition scalars_in (f : N -> bool) : list N := map fst (entries (fun cp => if f cp then 1 else 0)).
Definition realise (d : data) : list (bytes * list N) := map (fun e => (fst e, scalars_in (snd e))) d.
Lemma in_scalars_in : forall f cp, In cp (scalars_in f) <-> scalar cp /\ f cp = true.
Proof.
  intros f cp. unfold scalars_in. rewrite in_map_iff. split.
  - intros ([cp' v] & E & I). cbn [fst] in E. subst cp'. apply in_entries in I as (-> & Hv & S). split; [exact S|]. destruct (f cp); [reflexivity|contradiction Hv; reflexivity].
  - intros [S F]. exists (cp, 1). split; [reflexivity|]. apply in_entries. rewrite F. repeat split; [discriminate|exact S].
Qed.
Lemma realise_holds : forall d, NoDup (map fst d) -> holds d (realise d).
Proof.
  intros d N. split.
  - unfold realise. rewrite map_map. cbn [fst]. apply Permutation_refl.
  - intros p rs f I If cp. unfold realise in I. apply in_map_iff in I as ([p' f'] & E & I). cbn [fst snd] in E. injection E as -> <-. rewrite (nodup_fst_inj _ _ d p f f' N If I). apply in_scalars_in.
Qed.
