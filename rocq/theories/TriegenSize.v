(** Facts about computeOffsets: the sizes of the tables. *)
From Verif Require Import Base Trie ListFacts Triegen TriegenFacts TriegenBuild.
Local Open Scope N_scope.

Section Hash.
  Variable H : list N -> N.
  Definition small (b : builder) : Prop := (4 <= length (b_index b))%nat /\ Forall (fun r => (length r <= 64)%nat) (b_index b) /\ Forall (fun r => (length r <= 64)%nat) (b_values b).
  Definition count (b : builder) : N := N.of_nat (length (b_index b) + length (b_values b)).
  Fixpoint sz (k : nat) : N := match k with O => 1 | S j => 1 + 64 * sz j end.

  Lemma Forall_snoc : forall (A : Type) (P : A -> Prop) l x, Forall P l -> P x -> Forall P (l ++ [x]).
  Proof. intros A P l x Hl Hx. apply Forall_app. split; [exact Hl|constructor; [exact Hx|constructor]]. Qed.

  Lemma offs_size : forall m l, (forall c b, In (Some c) l -> small b -> let '(_, _, b') := computeOffsets H c b in small b' /\ count b' <= count b + m) ->
    forall b, small b -> let '(_, row, b') := offs H l b in small b' /\ count b' <= count b + N.of_nat (length l) * m /\ length row = length l.
  Proof.
    intros m. induction l as [|[c|] l IH]; intros HC b S; cbn [offs].
    - split; [exact S|]. split; [lia|reflexivity].
    - pose proof (HC c b (or_introl eq_refl) S) as P. destruct (computeOffsets H c b) as [[h i] b1]. destruct P as [S1 C1].
      specialize (IH (fun c0 b0 Hc => HC c0 b0 (or_intror Hc)) b1 S1). destruct (offs H l b1) as [[hs row] b2]. destruct IH as (S2 & C2 & L2).
      split; [exact S2|]. cbn [length]. split; [|lia]. rewrite Nnat.Nat2N.inj_succ, N.mul_succ_l. lia.
    - specialize (IH (fun c0 b0 Hc => HC c0 b0 (or_intror Hc)) b S). destruct (offs H l b) as [[hs row] b2]. destruct IH as (S2 & C2 & L2).
      split; [exact S2|]. cbn [length]. split; [|lia]. rewrite Nnat.Nat2N.inj_succ, N.mul_succ_l. lia.
  Qed.

  Lemma compute_size : forall k n b, wf k n -> small b -> let '(_, _, b') := computeOffsets H n b in small b' /\ count b' <= count b + sz k.
  Proof.
    induction k as [|k IH]; intros [ch vs] b W S; rewrite computeOffsets_eq; cbv zeta;
      (assert (F : Nat.eqb (length (b_index b)) rootBlockOffset = false) by (apply Nat.eqb_neq; destruct S as [S _]; unfold rootBlockOffset; lia)); rewrite F.
    - destruct W as [Wc Wv]. cbn [children values] in Wc, Wv. subst ch. cbn [offs is_nil negb andb app]. destruct (find _ _) as [i|].
      + split; [exact S|lia].
      + destruct S as (S1 & S2 & S3). unfold small, count. cbn [b_index b_values]. split; [split; [exact S1|split; [exact S2|apply Forall_snoc; [exact S3|lia]]]|].
        rewrite app_length. cbn [length sz]. lia.
    - destruct W as (Wv & Wl & Wc). cbn [children values] in Wv, Wl, Wc. subst vs.
      pose proof (offs_size (sz k) ch) as P. 
      assert (HC : forall c b, In (Some c) ch -> small b -> let '(_, _, b') := computeOffsets H c b in small b' /\ count b' <= count b + sz k).
      { intros c b' Hc Sb. apply IH; [|exact Sb]. apply In_nth_error in Hc as [p Hp]. exact (Wc p c Hp). }
      specialize (P HC b S). destruct (offs H ch b) as [[hs row] b1]. destruct P as (S1 & C1 & L1). rewrite Wl in C1. change (N.of_nat 64) with 64 in C1.
      assert (Hc : is_nil ch = false) by (destruct ch; [discriminate Wl|reflexivity]). rewrite Hc. cbn [andb negb]. destruct (find _ _) as [i|].
      + split; [exact S1|]. cbn [sz]. lia.
      + destruct S1 as (Sa & Sb & Sc). unfold small, count in *. cbn [b_index b_values]. rewrite app_length. cbn [length sz]. split; [|lia]. split; [lia|]. split; [|exact Sc].
        apply Forall_snoc; [exact Sb|lia].
  Qed.

  Lemma sz_le : forall k, (k <= 2)%nat -> sz k <= 4161.
  Proof. intros [|[|[|k]]] Hk; try (vm_compute; discriminate). lia. Qed.

  Lemma root_size : forall t, wf_root t -> let '(_, b) := buildTrie H t in small b /\ count b <= 266311.
  Proof.
    intros [ch vs] (Wv & Wl & Wc). cbn [children values] in Wv, Wl, Wc. unfold buildTrie. rewrite computeOffsets_eq. cbv zeta.
    cbn [b_index builder0 length Nat.eqb rootBlockOffset app b_values b_iidx b_vidx b_maxHandle values].
    set (b0 := {| b_index := [[]; []; []; []] |}).
    assert (S0 : small b0).
    { split; [cbn; lia|]. split; [repeat constructor; cbn; lia|]. cbn [b0 b_values]. unfold blockSize. constructor; [rewrite firstn_length; lia|]. constructor; [rewrite skipn_length; lia|]. constructor; [rewrite repeat_length; lia|constructor]. }
    pose proof (offs_size 4161 ch) as P.
    assert (HC : forall c b, In (Some c) ch -> small b -> let '(_, _, b') := computeOffsets H c b in small b' /\ count b' <= count b + 4161).
    { intros c b Hc Sb. apply In_nth_error in Hc as [p Hp]. pose proof (compute_size (depth p) c b (Wc p c Hp) Sb) as Q. destruct (computeOffsets H c b) as [[h i] b']. destruct Q as [Q1 Q2]. split; [exact Q1|].
      assert (D : sz (depth p) <= 4161) by (apply sz_le; unfold depth; destruct (_ <? _)%nat; [lia|destruct (_ <? _)%nat; lia]). lia. }
    specialize (P HC b0 S0). destruct (offs H ch b0) as [[hs row] b1]. destruct P as (S1 & C1 & L1). rewrite Wl in C1. change (N.of_nat 64) with 64 in C1.
    change (count b0) with 7 in C1.
    assert (Hc : is_nil ch = false) by (destruct ch; [discriminate Wl|reflexivity]). rewrite Hc. cbn [andb negb find]. rewrite N.eqb_refl.
    destruct S1 as (Sa & Sb & Sc). unfold small, count in *. cbn [b_index b_values].
    assert (L : length (firstn 3 (b_index b1) ++ row :: skipn 4 (b_index b1)) = length (b_index b1)).
    { rewrite app_length, firstn_length. cbn [length]. rewrite skipn_length. lia. }
    change (firstn rootBlockOffset (b_index b1)) with (firstn 3 (b_index b1)). change (skipn (S rootBlockOffset) (b_index b1)) with (skipn 4 (b_index b1)). rewrite L. split; [|lia]. split; [exact Sa|]. split; [|exact Sc].
    rewrite <- (firstn_skipn 3 (b_index b1)) in Sb. apply Forall_app in Sb as [Sb1 Sb2]. apply Forall_app. split; [exact Sb1|]. constructor; [lia|].
    assert (E : skipn 4 (b_index b1) = skipn 1 (skipn 3 (b_index b1))) by (rewrite skipn_skipn; reflexivity). rewrite E.
    destruct (skipn 3 (b_index b1)); [constructor|]. inversion Sb2; assumption.
  Qed.
End Hash.
