(** Rules do not tell characters of the same classes apart. *)
From Verif Require Import Base ListFacts SpecRules.

Section Resp.
  Variable R : N -> N -> Prop.
  Hypothesis sym : forall x y, R x y -> R y x.
  Definition keeps (p : N -> bool) : Prop := forall x y, R x y -> p x = p y.
  Fixpoint resp (r : re) : Prop :=
    match r with Eps => True | Cls p => keeps p | Cat r s | Alt r s => resp r /\ resp s | Star r => resp r end.
  Definition resp_left (l : left_context) : Prop := match l with Suffix r | Sot r => resp r end.
  Definition resp_rule (r : rule) : Prop := resp_left (r_left r) /\ resp (r_right r).
  Notation rel := (Forall2 R).

  Lemma rel_sym : forall t t', rel t t' -> rel t' t.
  Proof. intros t t' H. induction H; constructor; auto. Qed.
  Lemma rel_app : forall x y t', rel (x ++ y) t' -> exists x' y', t' = x' ++ y' /\ rel x x' /\ rel y y'.
  Proof. intros x y t' H. apply Forall2_app_inv_l in H. destruct H as (x' & y' & A & B & ->). exists x', y'. auto. Qed.
  Lemma matches_resp : forall r t, matches r t -> resp r -> forall t', rel t t' -> matches r t'.
  Proof.
    intros r t M. induction M as [|p c Hp|r s t u M1 IH1 M2 IH2|r s t M IH|r s t M IH|r|r t u M1 IH1 M2 IH2]; cbn [resp]; intros HR t' F.
    - inversion F; subst. constructor.
    - inversion F as [|? y ? l Hy F']; subst. inversion F'; subst. constructor. rewrite <- (HR _ _ Hy). exact Hp.
    - destruct (rel_app _ _ _ F) as (x' & y' & -> & A & B). destruct HR. constructor; auto.
    - destruct HR. apply m_altl. auto.
    - destruct HR. apply m_altr. auto.
    - inversion F; subst. constructor.
    - destruct (rel_app _ _ _ F) as (x' & y' & -> & A & B). constructor; auto.
  Qed.
  Lemma applies_resp : forall r b a b' a', resp_rule r -> rel b b' -> rel a a' -> applies r b a -> applies r b' a'.
  Proof.
    intros r b a b' a' (H1 & H2) Fb Fa (A1 & (a1 & a2 & -> & A2)). split.
    - destruct (r_left r) as [l|l]; cbn in *; [|eapply matches_resp; eauto].
      destruct A1 as (b1 & b2 & -> & M). destruct (rel_app _ _ _ Fb) as (x' & y' & -> & A & B). exists x', y'. split; [reflexivity|]. eapply matches_resp; eauto.
    - destruct (rel_app _ _ _ Fa) as (x' & y' & -> & A & B). exists x', y'. split; [reflexivity|]. eapply matches_resp; eauto.
  Qed.
  Lemma says_resp : forall rs b a v b' a', Forall resp_rule rs -> rel b b' -> rel a a' -> says b a rs v -> says b' a' rs v.
  Proof.
    intros rs b a v b' a' F Fb Fa S. revert F. induction S as [|r rs A|r rs v N S IH]; intros F; [constructor| |].
    - apply says_this. eapply applies_resp; eauto. exact (Forall_inv F).
    - apply says_next; [|exact (IH (Forall_inv_tail F))]. intros A. apply N. eapply (applies_resp r b' a'); eauto using rel_sym. exact (Forall_inv F).
  Qed.
  Definition orel (p q : option N) : Prop := match p, q with Some x, Some y => R x y | None, None => True | _, _ => False end.
  Lemma reduce_resp : forall ign keep, keeps ign -> keeps keep -> forall t t', rel t t' -> forall p p', orel p p' -> rel (reduce ign keep p t) (reduce ign keep p' t').
  Proof.
    intros ign keep K1 K2 t t' F. induction F as [|x y t t' H F IH]; intros p p' O; [constructor|]. cbn [reduce]. rewrite <- (K1 x y H).
    assert (E : match p with Some p => negb (keep p) | None => false end = match p' with Some p => negb (keep p) | None => false end).
    { destruct p, p'; cbn in O; try contradiction; [|reflexivity]. rewrite (K2 _ _ O). reflexivity. }
    rewrite <- E. destruct (ign x && _); [apply IH; exact H|]. constructor; [exact H|apply IH; exact H].
  Qed.
  Lemma last_resp : forall t t', rel t t' -> orel (last_char t) (last_char t').
  Proof.
    intros t t' F. induction F as [|x y t t' H F IH]; [exact I|]. destruct F as [|x1 y1 t t' H1 F]; [exact H|]. exact IH.
  Qed.

  Lemma regroup : forall (segs : list text) cps', rel (concat segs) cps' -> exists segs', concat segs' = cps' /\ Forall2 rel segs segs'.
  Proof.
    induction segs as [|s segs IH]; intros cps' F; cbn [concat] in F.
    - inversion F; subst. exists []. split; [reflexivity|constructor].
    - destruct (rel_app _ _ _ F) as (x' & y' & -> & A & B). destruct (IH _ B) as (segs' & <- & G). exists (x' :: segs'). split; [reflexivity|constructor; assumption].
  Qed.
  Lemma rel_length : forall t t', rel t t' -> length t = length t'.
  Proof. intros t t' F. induction F; cbn; auto. Qed.
  Lemma rel_concat : forall s s', Forall2 rel s s' -> rel (concat s) (concat s').
  Proof. intros s s' F. induction F; cbn [concat]; [constructor|]. apply Forall2_app; assumption. Qed.
  Lemma same_prefix : forall (x y b a : text), x ++ y = b ++ a -> length x = length b -> x = b.
  Proof. induction x as [|c x IH]; intros y [|c' b] a E L; cbn in *; try lia; auto. injection E as -> E. f_equal. eapply IH; eauto. Qed.

  Theorem seg_resp : forall (D : text -> text -> op -> Prop), (forall b a o b' a', rel b b' -> rel a a' -> D b a o -> D b' a' o) ->
    forall cps segs cps', segmentation D cps segs -> rel cps cps' -> exists segs', Forall2 rel segs segs' /\ segmentation D cps' segs'.
  Proof.
    intros D HD cps segs cps' (H1 & H2 & H3) F. subst cps. destruct (regroup _ _ F) as (segs' & E & G). exists segs'. split; [exact G|]. split; [exact E|]. split.
    - clear - H2 G. induction G as [|s s' l l' A G IH]; constructor; [|apply IH; exact (Forall_inv_tail H2)]. intros ->. apply (Forall_inv H2). inversion A; subst; reflexivity.
    - intros b' a' Nb Na Ec. rewrite Ec in F. pose proof (rel_sym _ _ F) as F'. destruct (rel_app _ _ _ F') as (b & a & Eb & A & B).
      assert (Nb' : b <> []) by (intros ->; inversion A; congruence). assert (Na' : a <> []) by (intros ->; inversion B; congruence).
      specialize (H3 b a Nb' Na' Eb). split.
      + intros (s1' & s2' & Es & Eb'). apply (HD b a Break b' a'); [apply rel_sym; exact A|apply rel_sym; exact B|]. apply H3.
        subst segs'. apply Forall2_app_inv_r in G. destruct G as (s1 & s2 & G1 & G2 & ->). exists s1, s2. split; [reflexivity|].
        rewrite concat_app in Eb. apply (same_prefix _ _ _ _ Eb). rewrite <- (rel_length _ _ A), <- Eb'. apply rel_length, rel_concat. exact G1.
      + intros Dv. apply (HD b' a' Break b a A B) in Dv. apply H3 in Dv. destruct Dv as (s1 & s2 & -> & Es). apply Forall2_app_inv_l in G. destruct G as (s1' & s2' & G1 & G2 & ->).
        exists s1', s2'. split; [reflexivity|]. rewrite <- E, concat_app in Ec. apply (same_prefix _ _ _ _ Ec). rewrite <- (rel_length _ _ (rel_concat _ _ G1)), Es. symmetry. apply rel_length. exact A.
  Qed.
End Resp.
