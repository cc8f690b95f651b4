(** From the clusters of the rules to the longest matches of the regular expression. *)
From Verif Require Import Base ListFacts SpecUtf8 SpecIter SpecApi SpecRules SpecGraphemes SpecCluster SegFacts Conform NestFacts GenTestsFacts ApiInst PropConform PropPieces ClusterFacts.
From Verif Require Graphemes GraphemesConform.

Local Notation D := grapheme_decides.
Local Notation egc := extended_grapheme_cluster.

Lemma tokens_of : forall cps fuel segs, scalars cps -> length (encode cps) < fuel -> segmentation D cps segs ->
  tokens graphemes_api fuel (Graphemes.FromBytes (encode cps)) = Ok (map encode segs).
Proof.
  intros cps fuel segs Hs Hf H. destruct (C05_graphemes_are_uax29 cps fuel Hs Hf) as (l & E & _ & U). rewrite (U segs H). exact E.
Qed.
Lemma segments_of : forall cps fuel segs, scalars cps -> Forall scalars segs -> length (encode cps) < fuel ->
  tokens graphemes_api fuel (Graphemes.FromBytes (encode cps)) = Ok (map encode segs) -> segmentation D cps segs.
Proof.
  intros cps fuel segs Hs Fs Hf H. destruct (C05_graphemes_are_uax29 cps fuel Hs Hf) as (l & E & Sg & _). rewrite E in H. injection H as H.
  apply map_encode_inj in H; [subst; exact Sg| |exact Fs]. apply scalars_concat. rewrite (proj1 Sg). exact Hs.
Qed.

(** A piece and the rest, apart. *)
Lemma apart : forall s rest segs, scalars (s ++ rest) -> segmentation D (s ++ rest) (s :: segs) -> segmentation D s [s] /\ segmentation D rest segs.
Proof.
  intros s rest segs Hs H. pose proof H as (Ec & _ & _). cbn [concat] in Ec. apply app_inv_head in Ec.
  destruct (Forall_scal_app _ _ Hs) as (H1 & H2). assert (F2 : Forall scalars segs) by (apply scalars_concat; rewrite Ec; exact H2).
  set (fuel := S (length (encode (s ++ rest)))).
  pose proof (tokens_of _ fuel _ Hs ltac:(unfold fuel; lia) H) as E. cbn [map] in E. split.
  - apply (segments_of s fuel); [exact H1|constructor; [exact H1|constructor]|unfold fuel; rewrite encode_app, app_length; lia|].
    pose proof (C48_graphemes (encode (s ++ rest)) [] [encode s] (map encode segs) fuel ltac:(unfold fuel; lia) E) as X. cbn [concat map] in X. rewrite app_nil_r in X.
    apply X. right. exists s. auto.
  - apply (segments_of rest fuel); [exact H2|exact F2|unfold fuel; rewrite encode_app, app_length; lia|].
    pose proof (C48_graphemes (encode (s ++ rest)) [encode s] (map encode segs) [] fuel ltac:(unfold fuel; lia)) as X. rewrite app_nil_r, concat_encode, Ec in X.
    apply X; [exact E|left; reflexivity].
Qed.

Lemma one_segment : forall s, s <> [] -> (segmentation D s [s] <-> glued s).
Proof.
  intros s Hn. split.
  - intros (_ & _ & H) b a Hb Ha E. destruct a as [|y a]; [contradiction|]. apply decides_gdec; [exact Hb|].
    destruct (GraphemesConform.gdec (GraphemesConform.gtr b) (GraphemesConform.P y)) eqn:Eo; [reflexivity|]. exfalso.
    apply (decides_gdec b y a Break Hb) in Eo. apply (H b (y :: a) Hb Ha E) in Eo. destruct Eo as (s1 & s2 & E1 & E2).
    destruct s1 as [|z s1]; [cbn in E2; congruence|]. injection E1 as <- E1. destruct s1; [|discriminate]. cbn [concat] in E2. rewrite app_nil_r in E2. subst b.
    rewrite <- (app_nil_r s) in E at 1. apply app_inv_head in E. discriminate.
  - intros G. split; [cbn; apply app_nil_r|]. split; [constructor; [exact Hn|constructor]|]. intros b a Hb Ha E. split.
    + intros (s1 & s2 & E1 & E2). exfalso. destruct s1 as [|z s1]; [cbn in E2; congruence|]. injection E1 as <- E1. destruct s1; [|discriminate].
      cbn [concat] in E2. rewrite app_nil_r in E2. subst b. rewrite <- (app_nil_r s) in E at 1. apply app_inv_head in E. congruence.
    + intros X. exfalso. exact (GraphemesConform.g_disjoint _ _ X (G b a Hb Ha E)).
Qed.

Lemma segments_longest : forall segs cps, scalars cps -> segmentation D cps segs -> longest_matches egc cps segs.
Proof.
  induction segs as [|s segs IH]; intros cps Hs H; pose proof H as (Ec & Fn & Hp).
  - cbn in Ec. subst cps. constructor.
  - cbn [concat] in Ec. subst cps. pose proof (Forall_inv Fn) as Hn. destruct (Forall_scal_app _ _ Hs) as (H1 & H2). destruct (apart _ _ _ Hs H) as (A1 & A2).
    constructor; [exact Hn| | |apply IH; auto].
    + apply cluster_iff; [exact H1|]. split; [exact Hn|]. apply one_segment; auto.
    + intros t u E M. destruct (Nat.le_gt_cases (length t) (length s)) as [L|L]; [exact L|exfalso].
      (* t is s and more: the rules say both *)
      assert (X : exists y a, t = s ++ y :: a /\ concat segs = (y :: a) ++ u).
      { assert (E1 : firstn (length t) (s ++ concat segs) = t) by (rewrite E, firstn_app, firstn_all, Nat.sub_diag, firstn_O, app_nil_r; reflexivity).
        rewrite firstn_app, (firstn_all2 s) in E1 by lia. destruct (firstn (length t - length s) (concat segs)) as [|y a].
        - rewrite app_nil_r in E1. subst t. lia.
        - exists y, a. split; [auto|]. rewrite <- E1 in E. rewrite <- app_assoc in E. apply app_inv_head in E. exact E. }
      destruct X as (y & a & -> & E2). rewrite E2 in *.
      assert (Ht : scalars (s ++ y :: a)) by (rewrite app_assoc in Hs; exact (proj1 (Forall_scal_app _ _ Hs))).
      apply cluster_iff in M; [|exact Ht]. destruct M as (_ & G). pose proof (G s (y :: a) Hn ltac:(discriminate) eq_refl) as J.
      assert (B : D s ((y :: a) ++ u) Break) by (apply (Hp s ((y :: a) ++ u)); [exact Hn|discriminate|reflexivity|exists [s], segs; split; [reflexivity|cbn; apply app_nil_r]]).
      cbn [app] in B. apply decides_gdec in B; [|exact Hn]. apply decides_gdec in J; [|exact Hn]. congruence.
Qed.

Lemma app_same_length : forall (a b c d : text), length a = length b -> a ++ c = b ++ d -> a = b /\ c = d.
Proof.
  induction a as [|x a IH]; intros [|y b] c d L E; try discriminate; [auto|]. cbn [app] in E. injection E as -> E. injection L as L.
  destruct (IH b c d L E) as (-> & ->). auto.
Qed.
Lemma longest_unique : forall r segs cps, longest_matches r cps segs -> forall segs', longest_matches r cps segs' -> segs' = segs.
Proof.
  intros r segs cps H. induction H as [|s rest segs Hn M Hl H IH]; intros segs' H'.
  - remember [] as z eqn:Ez. destruct H' as [|s2 rest2 segs2 Hn2 _ _ _]; [reflexivity|]. destruct s2; [contradiction|discriminate].
  - remember (s ++ rest) as z eqn:E. destruct H' as [|s' rest' segs2 Hn' M' Hl' H2].
    + destruct s; [contradiction|discriminate].
    + pose proof (Hl' s rest E M) as L1. pose proof (Hl s' rest' eq_refl M') as L2. apply app_same_length in E; [|lia]. destruct E as (-> & ->).
      f_equal. apply IH. exact H2.
Qed.
