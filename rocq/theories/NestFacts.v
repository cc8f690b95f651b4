(** Boundaries of segmentations. *)
From Verif Require Import Base ListFacts SpecUtf8 SpecRules SpecNest SegFacts Conform RuleFacts.

Lemma concat_encode : forall segs, concat (map encode segs) = encode (concat segs).
Proof. induction segs as [|s segs IH]; [reflexivity|]. cbn [map concat]. rewrite IH, encode_app. reflexivity. Qed.
Lemma len_encode_pos : forall a, a <> [] -> length (encode a) <> 0.
Proof. intros [|x a] H; [congruence|]. rewrite encode_cons, app_length. pose proof (utf8_len x). lia. Qed.

(** A cut of the segments is a boundary of their encodings. *)
Lemma cut_boundary : forall segs b a, concat segs = b ++ a ->
  (exists s1 s2, segs = s1 ++ s2 /\ concat s1 = b) <-> boundary (map encode segs) (length (encode b)).
Proof.
  intros segs b a Hc. split.
  - intros (s1 & s2 & -> & <-). exists (map encode s1), (map encode s2). rewrite map_app, concat_encode. auto.
  - intros (l1 & l2 & E & HL). apply map_eq_app in E. destruct E as (s1 & s2 & -> & <- & <-). exists s1, s2. split; [reflexivity|].
    rewrite concat_encode in HL. rewrite concat_app in Hc.
    destruct (prefix_cmp _ _ _ _ Hc) as [(e & Eb & _)|(e & Ex & _)].
    + rewrite Eb, encode_app, app_length in HL. destruct e as [|x e]; [rewrite app_nil_r in Eb; auto|].
      pose proof (len_encode_pos (x :: e) ltac:(discriminate)). lia.
    + rewrite Ex, encode_app, app_length in HL. destruct e as [|x e]; [rewrite app_nil_r in Ex; auto|].
      pose proof (len_encode_pos (x :: e) ltac:(discriminate)). lia.
Qed.

Lemma seg_boundary : forall D cps segs, segmentation D cps segs -> forall b a, b <> [] -> a <> [] -> cps = b ++ a ->
  boundary (map encode segs) (length (encode b)) <-> D b a Break.
Proof.
  intros D cps segs (HC & _ & HB) b a Hb Ha E. rewrite <- (HB b a Hb Ha E). symmetry. apply (cut_boundary segs b a). congruence.
Qed.

(** ** Nesting *)
Definition cuts (s : list text) (b : text) : Prop := exists p q, s = p ++ q /\ concat p = b.

Lemma cuts_app : forall p q b, Forall (fun s => s <> []) p -> cuts (p ++ q) (concat p ++ b) -> cuts q b.
Proof.
  induction p as [|x p IH]; intros q b F (p' & q' & E & C); [exists p', q'; auto|].
  destruct p' as [|x' p'].
  { cbn [concat] in C. symmetry in C. apply app_eq_nil in C. destruct C as [C _]. apply app_eq_nil in C. destruct (Forall_inv F (proj1 C)). }
  injection E as <- E. cbn [concat] in C. rewrite <- app_assoc in C. apply app_inv_head in C.
  apply IH; [exact (Forall_inv_tail F)|]. exists p', q'. auto.
Qed.

Lemma refine : forall s2 s1, Forall (fun s => s <> []) s1 -> Forall (fun s => s <> []) s2 -> concat s1 = concat s2 ->
  (forall b a, b <> [] -> a <> [] -> concat s2 = b ++ a -> cuts s2 b -> cuts s1 b) ->
  exists groups, concat groups = s1 /\ map (@concat N) groups = s2.
Proof.
  induction s2 as [|y s2 IH]; intros s1 F1 F2 E H.
  - exists []. split; [|reflexivity]. symmetry. apply concat_nonnil_nil; auto.
  - destruct s2 as [|z s2].
    + exists [s1]. cbn [concat map]. rewrite app_nil_r. split; [reflexivity|]. rewrite E. cbn. rewrite app_nil_r. reflexivity.
    + assert (Hy : y <> []) by exact (Forall_inv F2). pose proof (Forall_inv_tail F2) as F2'.
      assert (Hz : concat (z :: s2) <> []).
      { cbn [concat]. pose proof (Forall_inv F2'). destruct z; [congruence|discriminate]. }
      destruct (H y (concat (z :: s2)) Hy Hz eq_refl) as (p & q & -> & Cp).
      { exists [y], (z :: s2). split; [reflexivity|]. cbn. apply app_nil_r. }
      apply Forall_app in F1. destruct F1 as [Fp Fq].
      rewrite concat_app, Cp in E. cbn [concat] in E. apply app_inv_head in E.
      destruct (IH q Fq F2' E) as (groups & G1 & G2).
      * intros b a Hb Ha Eb (u & v & Eu & Cu). apply (cuts_app p q b Fp). rewrite Cp.
        refine (H (y ++ b) a _ Ha _ _).
        -- destruct y; [congruence|discriminate].
        -- change (concat (y :: z :: s2)) with (y ++ concat (z :: s2)). rewrite Eb, app_assoc. reflexivity.
        -- exists (y :: u), v. rewrite Eu. cbn [concat app]. rewrite Cu. auto.
      * exists (p :: groups). cbn [concat map]. rewrite G1, G2, Cp. auto.
Qed.

Lemma nested : forall D1 D2 cps s1 s2, segmentation D1 cps s1 -> segmentation D2 cps s2 ->
  (forall b a, b <> [] -> a <> [] -> D2 b a Break -> D1 b a Break) -> made_of (map encode s2) (map encode s1).
Proof.
  intros D1 D2 cps s1 s2 (C1 & F1 & B1) (C2 & F2 & B2) H.
  destruct (refine s2 s1 F1 F2 ltac:(congruence)) as (groups & G1 & G2).
  - intros b a Hb Ha E HC. apply (B1 b a Hb Ha ltac:(congruence)). apply H; auto. apply (B2 b a Hb Ha ltac:(congruence)). exact HC.
  - exists (map (map encode) groups). rewrite <- G1, <- G2. rewrite concat_map. split; [reflexivity|].
    rewrite !map_map. apply map_ext. intros l. apply concat_encode.
Qed.

(** ** Deciding boundaries of concrete lists *)
Fixpoint offsets (k : nat) (l : list bytes) : list nat := k :: match l with [] => [] | t :: r => offsets (k + length t) r end.
Lemma boundary_offsets : forall l n, boundary l n -> In n (offsets 0 l).
Proof.
  intros l n (l1 & l2 & -> & <-). enough (H : forall k, In (k + length (concat l1)) (offsets k (l1 ++ l2))) by exact (H 0).
  induction l1 as [|t l1 IH]; intros k; cbn [app concat].
  - rewrite Nat.add_0_r. destruct l2; left; reflexivity.
  - right. rewrite app_length, Nat.add_assoc. apply IH.
Qed.
