(** A change in one place of a text: what it does to the segmentation. *)
From Verif Require Import Base ListFacts SpecRules SegFacts.

(** [b] ends between two pieces. *)
Definition cut (segs : list text) (b : text) : Prop := exists s1 s2, segs = s1 ++ s2 /\ concat s1 = b.
Lemma app_prefix : forall (a b c d : text), a ++ b = c ++ d -> length a <= length c -> exists e, c = a ++ e /\ b = e ++ d.
Proof.
  intros a b c d E L. destruct (prefix_cmp _ _ _ _ E) as [H|(e & -> & ->)]; [exact H|]. rewrite app_length in L. destruct e; [|cbn in L; lia]. exists []. rewrite !app_nil_r. auto.
Qed.
Lemma concat_app' : forall (a b : list text), concat (a ++ b) = concat a ++ concat b.
Proof. exact (@concat_app N). Qed.

Section Around.
  Variables (s1 s2 : list text) (p Z q : text).
  Hypothesis nonnil : Z <> [].
  Notation segs := (s1 ++ [p ++ Z ++ q] ++ s2).
  Lemma whole : concat segs = (concat s1 ++ p) ++ Z ++ (q ++ concat s2).
  Proof. rewrite !concat_app'. cbn [concat]. rewrite app_nil_r, <- !app_assoc. reflexivity. Qed.
  Lemma cut_before : forall b, length b <= length (concat s1 ++ p) -> cut segs b <-> exists t r, s1 = t ++ r /\ concat t = b.
  Proof.
    intros b L. split.
    - intros (t & r & E & <-). apply app_eq_app in E. destruct E as (l & [(-> & _)|(-> & E)]); [eauto|].
      destruct l as [|x l]; [rewrite app_nil_r in *; exists s1, []; rewrite app_nil_r; auto|]. exfalso. cbn [app] in E. injection E as <- E. rewrite concat_app' in L. cbn [concat] in L. rewrite !app_length in L. destruct Z; [contradiction|]. cbn in L. lia.
    - intros (t & r & -> & <-). exists t, (r ++ [p ++ Z ++ q] ++ s2). rewrite <- app_assoc. auto.
  Qed.
  Lemma cut_inside : forall z1 z2, Z = z1 ++ z2 -> z1 <> [] -> z2 <> [] -> ~ cut segs ((concat s1 ++ p) ++ z1).
  Proof.
    intros z1 z2 E N1 N2 (t & r & Es & Ec). apply app_eq_app in Es. destruct Es as (l & [(-> & _)|(-> & Es)]).
    - apply (f_equal (@length N)) in Ec. rewrite concat_app', !app_length in Ec. destruct z1; [contradiction|]. cbn in Ec. lia.
    - destruct l as [|x l]; [rewrite app_nil_r in Ec; apply (f_equal (@length N)) in Ec; rewrite !app_length in Ec; destruct z1; [contradiction|]; cbn in Ec; lia|].
      cbn [app] in Es. injection Es as <- Es. rewrite concat_app' in Ec. cbn [concat] in Ec. apply (f_equal (@length N)) in Ec. rewrite E, !app_length in Ec. destruct z2; [contradiction|]. cbn in Ec. lia.
  Qed.
  Lemma cut_after : forall b, cut segs ((concat s1 ++ p) ++ Z ++ b) <-> exists r t, s2 = r ++ t /\ q ++ concat r = b.
  Proof.
    intros b. split.
    - intros (t & r & Es & Ec). apply app_eq_app in Es. destruct Es as (l & [(-> & _)|(-> & Es)]).
      + apply (f_equal (@length N)) in Ec. rewrite concat_app', !app_length in Ec. destruct Z; [contradiction|]. cbn in Ec. lia.
      + destruct l as [|x l]; [rewrite app_nil_r in Ec; apply (f_equal (@length N)) in Ec; rewrite !app_length in Ec; destruct Z; [contradiction|]; cbn in Ec; lia|].
        cbn [app] in Es. injection Es as <- ->. rewrite concat_app' in Ec. cbn [concat] in Ec. rewrite <- !app_assoc in Ec. do 3 apply app_inv_head in Ec. exists l, r. auto.
    - intros (r & t & -> & <-). exists (s1 ++ [p ++ Z ++ q] ++ r), t. split; [rewrite <- !app_assoc; reflexivity|]. rewrite !concat_app'. cbn [concat]. rewrite app_nil_r, <- !app_assoc. reflexivity.
  Qed.
End Around.

(** The piece that has the place in it. *)
Lemma piece_at : forall segs u X v, concat segs = u ++ X ++ v -> X <> [] -> (forall x1 x2, X = x1 ++ x2 -> x1 <> [] -> x2 <> [] -> ~ cut segs (u ++ x1)) ->
  exists s1 p q s2, segs = s1 ++ [p ++ X ++ q] ++ s2 /\ u = concat s1 ++ p /\ v = q ++ concat s2.
Proof.
  induction segs as [|g segs IH]; intros u X v E N H; cbn [concat] in E.
  - destruct u; [destruct X; [contradiction|]|]; discriminate.
  - destruct (Nat.le_gt_cases (length g) (length u)) as [L|L].
    + destruct (app_prefix _ _ _ _ E L) as (e & -> & E').
      destruct (IH e X v E' N) as (s1 & p & q & s2 & -> & -> & ->).
      { intros x1 x2 Ex N1 N2 (t & r & Et & Ec). apply (H x1 x2 Ex N1 N2). exists (g :: t), r. split; [cbn; rewrite Et; reflexivity|]. cbn [concat]. rewrite Ec, <- app_assoc. reflexivity. }
      exists (g :: s1), p, q, s2. split; [reflexivity|]. split; [cbn [concat]; rewrite <- app_assoc; reflexivity|reflexivity].
    + symmetry in E. destruct (app_prefix _ _ _ _ E ltac:(lia)) as (e & -> & E'). destruct (Nat.le_gt_cases (length X) (length e)) as [L2|L2].
      * destruct (app_prefix _ _ _ _ E' L2) as (q & -> & ->). exists [], u, q, segs. auto.
      * symmetry in E'. destruct (app_prefix _ _ _ _ E' ltac:(lia)) as (x & -> & _). exfalso. apply (H e x eq_refl).
        -- intros ->. rewrite app_nil_r in L. lia.
        -- intros ->. rewrite app_nil_r in L2. lia.
        -- exists [u ++ e], segs. split; [reflexivity|]. cbn. rewrite app_nil_r. reflexivity.
Qed.

Theorem local_change_at : forall (D : text -> text -> op -> Prop) u X Y v, X <> [] -> Y <> [] ->
  (forall x1 x2, X = x1 ++ x2 -> x1 <> [] -> x2 <> [] -> ~ D (u ++ x1) (x2 ++ v) Break) ->
  (forall y1 y2, Y = y1 ++ y2 -> y1 <> [] -> y2 <> [] -> ~ D (u ++ y1) (y2 ++ v) Break) ->
  (forall b a, b <> [] -> u = b ++ a -> D b (a ++ X ++ v) Break <-> D b (a ++ Y ++ v) Break) ->
  (forall b a, a <> [] -> v = b ++ a -> D (u ++ X ++ b) a Break <-> D (u ++ Y ++ b) a Break) ->
  forall segs, segmentation D (u ++ X ++ v) segs ->
  exists s1 p q s2, segs = s1 ++ [p ++ X ++ q] ++ s2 /\ u = concat s1 ++ p /\ v = q ++ concat s2 /\ segmentation D (u ++ Y ++ v) (s1 ++ [p ++ Y ++ q] ++ s2).
Proof.
  intros D u X Y v NX NY IX IY HB HA segs (C & F & P).
  destruct (piece_at segs u X v C NX) as (s1 & p & q & s2 & -> & -> & ->).
  { intros x1 x2 E N1 N2 Q. eapply (IX x1 x2 E N1 N2), P; [| |subst X; rewrite <- !app_assoc; reflexivity|exact Q].
    - intros Z. apply app_eq_nil in Z. tauto.
    - intros Z. apply app_eq_nil in Z. tauto. }
  exists s1, p, q, s2. split; [reflexivity|]. split; [reflexivity|]. split; [reflexivity|]. split; [apply whole|]. split.
  { apply Forall_app in F. destruct F as (F1 & F2). apply Forall_app. split; [exact F1|]. apply Forall_inv_tail in F2. cbn [app]. constructor; [|exact F2]. intros Z. apply app_eq_nil in Z. destruct Z as (_ & Z). apply app_eq_nil in Z. tauto. }
  intros b a Nb Na E. change (exists s0 s3, s1 ++ [p ++ Y ++ q] ++ s2 = s0 ++ s3 /\ concat s0 = b) with (cut (s1 ++ [p ++ Y ++ q] ++ s2) b).
  destruct (Nat.le_gt_cases (length b) (length (concat s1 ++ p))) as [L|L].
  - symmetry in E. destruct (app_prefix _ _ _ _ E L) as (e & Eu & ->). rewrite (cut_before s1 s2 p Y q NY b L), <- (HB b e Nb Eu), <- P.
    + change (exists s0 s3, s1 ++ [p ++ X ++ q] ++ s2 = s0 ++ s3 /\ concat s0 = b) with (cut (s1 ++ [p ++ X ++ q] ++ s2) b). rewrite (cut_before s1 s2 p X q NX b L). reflexivity.
    + exact Nb.
    + intros Z. apply app_eq_nil in Z. destruct Z as (_ & Z). apply app_eq_nil in Z. tauto.
    + rewrite Eu, <- app_assoc. reflexivity.
  - destruct (app_prefix _ _ _ _ E ltac:(lia)) as (e & -> & E'). destruct (Nat.lt_ge_cases (length e) (length Y)) as [L2|L2].
    + symmetry in E'. destruct (app_prefix _ _ _ _ E' ltac:(lia)) as (y & EY & ->). assert (N1 : e <> []) by (intros ->; rewrite app_nil_r in L; lia). assert (N2 : y <> []) by (intros ->; rewrite app_nil_r in EY; subst; lia). split; intros Q; exfalso.
      * exact (cut_inside s1 s2 p Y q e y EY N1 N2 Q).
      * exact (IY e y EY N1 N2 Q).
    + destruct (app_prefix _ _ _ _ E' L2) as (d & -> & Ed). rewrite (cut_after s1 s2 p Y q NY d), <- (HA d a Na Ed), <- P.
      * change (exists s0 s3, s1 ++ [p ++ X ++ q] ++ s2 = s0 ++ s3 /\ concat s0 = (concat s1 ++ p) ++ X ++ d) with (cut (s1 ++ [p ++ X ++ q] ++ s2) ((concat s1 ++ p) ++ X ++ d)). rewrite (cut_after s1 s2 p X q NX d). reflexivity.
      * intros Z. apply app_eq_nil in Z. destruct Z as (_ & Z). apply app_eq_nil in Z. tauto.
      * exact Na.
      * rewrite Ed, <- !app_assoc. reflexivity.
Qed.
Theorem local_change : forall (D : text -> text -> op -> Prop) u X Y v, X <> [] -> Y <> [] ->
  (forall x1 x2, X = x1 ++ x2 -> x1 <> [] -> x2 <> [] -> ~ D (u ++ x1) (x2 ++ v) Break) ->
  (forall y1 y2, Y = y1 ++ y2 -> y1 <> [] -> y2 <> [] -> ~ D (u ++ y1) (y2 ++ v) Break) ->
  (forall b a, b <> [] -> u = b ++ a -> D b (a ++ X ++ v) Break <-> D b (a ++ Y ++ v) Break) ->
  (forall b a, a <> [] -> v = b ++ a -> D (u ++ X ++ b) a Break <-> D (u ++ Y ++ b) a Break) ->
  forall segs, segmentation D (u ++ X ++ v) segs ->
  exists s1 p q s2, segs = s1 ++ [p ++ X ++ q] ++ s2 /\ segmentation D (u ++ Y ++ v) (s1 ++ [p ++ Y ++ q] ++ s2).
Proof.
  intros D u X Y v NX NY IX IY HB HA segs G. destruct (local_change_at D u X Y v NX NY IX IY HB HA segs G) as (s1 & p & q & s2 & E & _ & _ & G'). eauto 6.
Qed.
