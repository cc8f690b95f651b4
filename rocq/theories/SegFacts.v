(** A boundary specification determines the segmentation. *)
From Verif Require Import Base ListFacts SpecRules.

Lemma concat_nonnil_nil : forall (l : list text), Forall (fun s => s <> []) l -> concat l = [] -> l = [].
Proof.
  intros [|s l] F H; [reflexivity|]. cbn [concat] in H. apply app_eq_nil in H. destruct H as [H _]. exfalso. exact (Forall_inv F H).
Qed.

Lemma prefix_cmp : forall (a b c d : text), a ++ b = c ++ d -> (exists e, c = a ++ e /\ b = e ++ d) \/ (exists e, a = c ++ e /\ d = e ++ b).
Proof.
  induction a as [|x a IH]; intros b c d H; [left; exists c; auto|].
  destruct c as [|y c]; [right; exists (x :: a); cbn in H; auto|]. injection H as -> H.
  destruct (IH _ _ _ H) as [(e & -> & ->)|(e & -> & ->)]; [left|right]; exists e; auto.
Qed.

(** Same pieces if same text and same cuts. *)
Lemma same_cuts : forall s1 s2 : list text, Forall (fun s => s <> []) s1 -> Forall (fun s => s <> []) s2 -> concat s1 = concat s2 ->
  (forall b a, b <> [] -> a <> [] -> concat s1 = b ++ a ->
     ((exists p q, s1 = p ++ q /\ concat p = b) <-> (exists p q, s2 = p ++ q /\ concat p = b))) -> s1 = s2.
Proof.
  induction s1 as [|x s1 IH]; intros s2 F1 F2 E H.
  { symmetry. apply concat_nonnil_nil; auto. }
  destruct s2 as [|y s2]. { apply concat_nonnil_nil; auto. }
  assert (Hx : x <> []) by exact (Forall_inv F1). assert (Hy : y <> []) by exact (Forall_inv F2).
  assert (x = y) as ->.
  { (* if y is longer than x, x is a cut of s1 that is not one of s2; and the other way round *)
    assert (Hno : forall (z : text) e (l l' : list text), e <> [] -> z <> [] -> (z ++ e) :: l = l' -> forall p q, l' = p ++ q -> concat p = z -> False).
    { intros z e l l' He Hz <- p q Ep Ec. destruct p as [|p0 p]; [subst z; apply Hz; reflexivity|]. injection Ep as <- Ep.
      cbn [concat] in Ec. rewrite <- app_assoc in Ec. rewrite <- (app_nil_r z) in Ec at 2. apply app_inv_head in Ec.
      apply app_eq_nil in Ec. tauto. }
    cbn [concat] in E. destruct (prefix_cmp _ _ _ _ E) as [(e & Ey & Es)|(e & Ex & Es)].
    - destruct e as [|c e]; [rewrite app_nil_r in Ey; auto|]. exfalso.
      destruct (proj1 (H x (concat s1) Hx ltac:(rewrite Es; discriminate) eq_refl)) as (p & q & Ep & Ec).
      { exists [x], s1. split; [reflexivity|]. cbn. apply app_nil_r. }
      refine (Hno x (c :: e) s2 _ ltac:(discriminate) Hx eq_refl p q _ Ec). rewrite <- Ey. exact Ep.
    - destruct e as [|c e]; [rewrite app_nil_r in Ex; auto|]. exfalso.
      destruct (proj2 (H y (concat s2) Hy ltac:(rewrite Es; discriminate) E)) as (p & q & Ep & Ec).
      { exists [y], s2. split; [reflexivity|]. cbn. apply app_nil_r. }
      refine (Hno y (c :: e) s1 _ ltac:(discriminate) Hy eq_refl p q _ Ec). rewrite <- Ex. exact Ep. }
  f_equal. cbn [concat] in E. apply app_inv_head in E. apply IH; [exact (Forall_inv_tail F1)|exact (Forall_inv_tail F2)|exact E|].
  intros b a Hb Ha Eb. assert (Hyb : y ++ b <> []) by (destruct y; [congruence|discriminate]).
  specialize (H (y ++ b) a Hyb Ha). cbn [concat] in H. rewrite Eb, app_assoc in H. specialize (H eq_refl).
  assert (X : forall l, (exists p q, y :: l = p ++ q /\ concat p = y ++ b) <-> (exists p q, l = p ++ q /\ concat p = b)).
  { intros l. split.
    - intros (p & q & Ep & Ec). destruct p as [|p0 p]; [exfalso; apply Hyb; symmetry; exact Ec|]. injection Ep as <- Ep.
      cbn [concat] in Ec. apply app_inv_head in Ec. eauto.
    - intros (p & q & Ep & Ec). exists (y :: p), q. subst. auto. }
  rewrite <- !X. exact H.
Qed.

Theorem segmentation_unique : forall D cps s1 s2, segmentation D cps s1 -> segmentation D cps s2 -> s1 = s2.
Proof.
  intros D cps s1 s2 (C1 & F1 & P1) (C2 & F2 & P2). apply same_cuts; auto; [congruence|].
  intros b a Hb Ha E. rewrite C1 in E. rewrite (P1 b a Hb Ha E), (P2 b a Hb Ha E). reflexivity.
Qed.
