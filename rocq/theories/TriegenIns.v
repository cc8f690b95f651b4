(** Sequences of insertions. *)
From Verif Require Import Base Trie SpecUtf8 BleveFacts SpecTriegen Triegen TriegenFacts.
Local Open Scope N_scope.

Lemma utf8_inj : forall a b, scalar a -> scalar b -> utf8 a = utf8 b -> a = b.
Proof. intros a b Sa Sb E. apply (utf8_head a b [] []); [exact Sa|exact Sb|]. rewrite E. reflexivity. Qed.

Lemma inserts_get : forall l t, wf_root t -> assignable l ->
  exists t', inserts t l = Ok t' /\ wf_root t'
    /\ (forall cp, scalar cp -> get t' (utf8 cp) = if negb (assigned l cp =? 0) then assigned l cp else get t (utf8 cp))
    /\ (forall s, shaped s -> get t' s <> 0 -> (exists cp, scalar cp /\ s = utf8 cp) \/ get t s <> 0).
Proof.
  induction l as [|[r v] l IH]; intros t W A.
  - exists t. split; [reflexivity|]. split; [exact W|]. split; [reflexivity|]. intros s _ H. right. exact H.
  - inversion A as [|? ? Ar Al]; subst. cbn [fst snd] in Ar. destruct (Insert_get t r v W Ar) as (t1 & E1 & W1 & G1).
    destruct (IH t1 W1 Al) as (t' & E & W' & G & O). exists t'. cbn [inserts]. rewrite E1. cbn [bind]. split; [exact E|]. split; [exact W'|]. split.
    + intros cp S. rewrite (G cp S). cbn [assigned]. destruct (negb (assigned l cp =? 0)) eqn:Q; [rewrite Q; reflexivity|].
      rewrite (G1 _ (utf8_shaped cp S)). destruct (N.eqb_spec r cp) as [->|Hn].
      * rewrite eqb_bytes_refl, andb_true_r. reflexivity.
      * destruct (negb (v =? 0)) eqn:Hv; cbn [andb]; [|reflexivity]. destruct (eqb_bytes (utf8 cp) (utf8 r)) eqn:Q2; [|reflexivity].
        apply eqb_bytes_spec in Q2. contradiction Hn. symmetry. apply utf8_inj; [exact S| |exact Q2]. apply Ar. apply negb_true_iff, N.eqb_neq in Hv. exact Hv.
    + intros s Sh Hs. destruct (O s Sh Hs) as [H|H]; [left; exact H|]. rewrite (G1 s Sh) in H. destruct (negb (v =? 0) && eqb_bytes s (utf8 r)) eqn:Q; [|right; exact H].
      apply andb_true_iff in Q as [Qv Qs]. apply negb_true_iff, N.eqb_neq in Qv. apply eqb_bytes_spec in Qs. left. exists r. split; [exact (Ar Qv)|exact Qs].
Qed.

Lemma inserts_panic : forall l t, wf_root t -> inserts t l = Panic \/ assignable l.
Proof.
  induction l as [|[r v] l IH]; intros t W; [right; constructor|]. cbn [inserts].
  destruct (N.eq_dec v 0) as [->|Hv].
  - destruct (IH t W) as [H|H]; [left; exact H|]. right. constructor; [intros Q; contradiction Q; reflexivity|exact H].
  - destruct (valid_rune r) eqn:Hr.
    + destruct (Insert_get t r v W) as (t1 & E1 & W1 & _); [intros _; apply valid_rune_scalar; exact Hr|]. rewrite E1. cbn [bind].
      destruct (IH t1 W1) as [H|H]; [left; exact H|]. right. constructor; [intros _; apply valid_rune_scalar; exact Hr|exact H].
    + left. unfold Insert. apply N.eqb_neq in Hv. rewrite Hv, Hr. reflexivity.
Qed.

Lemma not_assignable_panics : forall l t, wf_root t -> ~ assignable l -> inserts t l = Panic.
Proof. intros l t W N. destruct (inserts_panic l t W) as [H|H]; [exact H|contradiction]. Qed.
