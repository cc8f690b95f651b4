(** Plain text. *)
From Verif Require Import Base ListFacts SpecUtf8 SpecUcd SpecRules SpecPlain SegFacts RuleFacts.

(** ** Cutting between neighbours *)
Lemma cut_head : forall stays y r, exists s ss, cut_where stays (y :: r) = (y :: s) :: ss.
Proof.
  intros stays y r. cbn [cut_where]. destruct (cut_where stays r) as [|[|z s] ss]; [eauto|eauto|]. destruct (stays y z); eauto.
Qed.
Lemma cut_two : forall stays x y r s ss, cut_where stays (y :: r) = (y :: s) :: ss ->
  cut_where stays (x :: y :: r) = if stays x y then (x :: y :: s) :: ss else [x] :: (y :: s) :: ss.
Proof. intros stays x y r s ss E. remember (y :: r) as t. cbn [cut_where]. rewrite E. reflexivity. Qed.
Lemma cut_concat : forall stays cps, concat (cut_where stays cps) = cps.
Proof.
  intros stays. induction cps as [|x r IH]; [reflexivity|]. destruct r as [|y r]; [reflexivity|]. 
  destruct (cut_head stays y r) as (s & ss & E). rewrite (cut_two _ x y r s ss E). rewrite E in IH. destruct (stays x y); cbn [concat app] in *; rewrite IH; reflexivity.
Qed.
Lemma cut_nonnil : forall stays cps, Forall (fun s => s <> []) (cut_where stays cps).
Proof.
  intros stays. induction cps as [|x r IH]; [constructor|]. destruct r as [|y r]; [repeat constructor; discriminate|]. 
  destruct (cut_head stays y r) as (s & ss & E). rewrite (cut_two _ x y r s ss E). rewrite E in IH. destruct (stays x y); constructor; try discriminate; [exact (Forall_inv_tail IH)|exact IH].
Qed.
Lemma cut_iff : forall stays b x y a,
  (exists s1 s2, cut_where stays (b ++ x :: y :: a) = s1 ++ s2 /\ concat s1 = b ++ [x]) <-> stays x y = false.
Proof.
  intros stays. induction b as [|z b IH]; intros x y a.
  - cbn [app]. destruct (cut_head stays y a) as (s & ss & E). rewrite (cut_two _ x y a s ss E). destruct (stays x y).
    + split; [|discriminate]. intros (s1 & s2 & E1 & E2). destruct s1 as [|t s1]; [discriminate|]. injection E1 as <- _. discriminate.
    + split; [reflexivity|]. intros _. exists [[x]], ((y :: s) :: ss). auto.
  - specialize (IH x y a). rewrite <- IH. clear IH.
    assert (X : exists w r, b ++ x :: y :: a = w :: r) by (destruct b; cbn; eauto). destruct X as (w & r & Er).
    cbn [app]. rewrite Er. destruct (cut_head stays w r) as (s & ss & E). rewrite (cut_two _ z w r s ss E), E.
    assert (Hne : b ++ [x] <> []) by (destruct b; discriminate).
    destruct (stays z w).
    + split; intros (s1 & s2 & E1 & E2).
      * destruct s1 as [|t s1]; [discriminate|]. injection E1 as <- E1. cbn [concat app] in E2. injection E2 as E2. exists ((w :: s) :: s1), s2. rewrite E1. auto.
      * destruct s1 as [|t s1]; [elim Hne; symmetry; exact E2|]. injection E1 as <- E1. exists ((z :: w :: s) :: s1), s2. rewrite E1. split; [reflexivity|]. cbn [concat app] in *. rewrite E2. reflexivity.
    + split; intros (s1 & s2 & E1 & E2).
      * destruct s1 as [|t s1]; [discriminate|]. injection E1 as <- E1. cbn [concat app] in E2. injection E2 as E2. exists s1, s2. rewrite E1. auto.
      * exists ([z] :: s1), s2. cbn [concat app]. rewrite E1, E2. auto.
Qed.

Lemma seg_where : forall (D : text -> text -> op -> Prop) (stays : N -> N -> bool) cps, (forall b a : text, D b a Break -> D b a Join -> False) ->
  (forall b (x y : N) a, cps = b ++ x :: y :: a -> D (b ++ [x]) (y :: a) (if stays x y then Join else Break)) -> segmentation D cps (cut_where stays cps).
Proof.
  intros D stays cps Hd H. split; [apply cut_concat|]. split; [apply cut_nonnil|]. intros b a Hb Ha E.
  destruct (exists_last Hb) as (b' & x & ->). destruct a as [|y a]; [contradiction|]. rewrite <- app_assoc in E. cbn [app] in E. subst cps.
  rewrite cut_iff. specialize (H b' x y a eq_refl). destruct (stays x y); split; auto; try discriminate. intros B. elim (Hd _ _ B H).
Qed.
