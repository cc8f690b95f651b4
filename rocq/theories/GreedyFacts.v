(** More text only takes boundaries away; so tokens are longest matches. *)
From Verif Require Import Base ListFacts SpecUtf8 SpecIter SpecRules SpecNest SpecUcd SpecGraphemes SpecWords SpecSentences SpecGreedy SegFacts Conform NestFacts RuleFacts ClusterFacts WordFacts SentenceFacts GenTestsFacts.

Lemma munch_inv : forall word t segs, munch word t segs -> match segs with
  | [] => t = []
  | s :: l => exists r, t = s ++ r /\ s <> [] /\ word s /\ (forall s' r', s ++ r = s' ++ r' -> length s < length s' -> ~ word s') /\ munch word r l
  end.
Proof. intros word t segs [|s r l H1 H2 H3 H4]; [reflexivity|]. exists r. auto. Qed.
Lemma munch_unique : forall word cps segs, munch word cps segs -> forall segs', munch word cps segs' -> segs' = segs.
Proof.
  intros word cps segs M. induction M as [|s r segs Ns Ws Ls M IH]; intros segs' M'; apply munch_inv in M'; destruct segs' as [|s' t'].
  - reflexivity.
  - destruct M' as (r' & E & N & _). symmetry in E. apply app_eq_nil in E as [E _]. contradiction.
  - apply app_eq_nil in M' as [E _]. contradiction.
  - destruct M' as (r' & E & Ns' & Ws' & Ls' & M1). assert (L : length s = length s').
    { destruct (Nat.lt_trichotomy (length s) (length s')) as [L|[L|L]]; [|exact L|].
      - elim (Ls s' r' E L Ws').
      - elim (Ls' s r (eq_sym E) L Ws). }
    assert (Q : s' = s).
    { destruct (prefix_cmp _ _ _ _ E) as [(z & Ez & _)|(z & Ez & _)]; pose proof (f_equal (@length N) Ez) as Lz; rewrite app_length in Lz; (destruct z; [|cbn [length] in Lz; lia]); rewrite app_nil_r in Ez; auto. }
    subst s'. apply app_inv_head in E. subst r'. f_equal. exact (IH _ M1).
Qed.

Section Greedy.
  Variable tok : nat -> bytes -> res (list bytes).
  Variable D : text -> text -> op -> Prop.
  Hypothesis conf : forall cps fuel, scalars cps -> length (encode cps) < fuel ->
    exists segs, tok fuel (encode cps) = Ok (map encode segs) /\ segmentation D cps segs /\ forall segs', segmentation D cps segs' -> segs' = segs.
  Hypothesis grow : forall b y a e, b <> [] -> D b (y :: a) Join -> D b (y :: a ++ e) Join.
  Hypothesis total : forall b y a, b <> [] -> D b (y :: a) Break \/ D b (y :: a) Join.
  Hypothesis excl : forall b a, D b a Break -> D b a Join -> False.
  Hypothesis rest : forall d l1 l2 l3 fuel, length d < fuel -> tok fuel d = Ok (l1 ++ l2 ++ l3) -> l3 = [] \/ well_formed (concat l2) -> tok fuel (concat l2) = Ok l2.

  Lemma append_seg : forall d e segs segs', scalars d -> scalars e -> segmentation D d segs -> segmentation D (d ++ e) segs' ->
    forall n, n <= length (encode d) -> boundary (map encode segs') n -> boundary (map encode segs) n.
  Proof.
    intros d e segs segs' Sd Se G G' n Hn Bn. pose proof Bn as (l1 & l2 & E & L). apply map_eq_app in E as (s1 & s2 & Es & <- & <-). rewrite concat_encode in L.
    assert (Ec : concat s1 ++ concat s2 = d ++ e) by (rewrite <- concat_app, <- Es; exact (proj1 G')). revert L Ec. generalize (concat s1). intros b L Ec. subst n.
    destruct (prefix_cmp _ _ _ _ Ec) as [(z & Ez & Ea)|(z & Ez & Ea)].
    - destruct z as [|y a1].
      { rewrite app_nil_r in Ez. exists (map encode segs), []. rewrite app_nil_r. split; [reflexivity|]. rewrite concat_encode, (proj1 G), Ez. reflexivity. }
      destruct b as [|b0 b]; [exists [], (map encode segs); split; reflexivity|].
      apply (seg_boundary D d segs G (b0 :: b) (y :: a1)); [discriminate|discriminate|exact Ez|].
      destruct (total (b0 :: b) y a1 ltac:(discriminate)) as [B|J]; [exact B|]. exfalso.
      apply (seg_boundary D (d ++ e) _ G' (b0 :: b) (y :: a1 ++ e)) in Bn; [|discriminate|discriminate|rewrite Ez, <- app_assoc; reflexivity].
      exact (excl _ _ Bn (grow (b0 :: b) y a1 e ltac:(discriminate) J)).
    - destruct z as [|z0 z].
      + rewrite app_nil_r in Ez. exists (map encode segs), []. rewrite app_nil_r. split; [reflexivity|]. rewrite concat_encode, (proj1 G), <- Ez. reflexivity.
      + exfalso. rewrite Ez, encode_app, app_length in Hn. pose proof (len_encode_pos (z0 :: z) ltac:(discriminate)). lia.
  Qed.
  Definition single_tok (s : text) : Prop := tok (S (length (encode s))) (encode s) = Ok [encode s].
  Lemma one_boundary : forall (x : bytes) n, boundary [x] n -> n = 0 \/ n = length x.
  Proof.
    intros x n (l1 & l2 & E & L). destruct l1 as [|y l1]; [left; symmetry; exact L|]. injection E as <- E. symmetry in E. apply app_eq_nil in E as [-> _]. right. rewrite <- L. cbn [concat]. rewrite app_nil_r. reflexivity.
  Qed.
  Lemma single_tok_seg : forall s, scalars s -> single_tok s -> segmentation D s [s].
  Proof.
    intros s Hs A. destruct (conf s (S (length (encode s))) Hs ltac:(lia)) as (segs & E & G & _). unfold single_tok in A. rewrite A in E. injection E as E.
    change [encode s] with (map encode [s]) in E. apply map_encode_inj in E; [rewrite E; exact G|constructor; [exact Hs|constructor]|apply scalars_concat; rewrite (proj1 G); exact Hs].
  Qed.
  Lemma seg_tail : forall s r segs, scalars (s ++ r) -> segmentation D (s ++ r) (s :: segs) -> single_tok s /\ segmentation D r segs.
  Proof.
    intros s r segs Hs G. pose proof (proj1 G) as Ec. cbn [concat] in Ec. apply app_inv_head in Ec. apply Forall_app in Hs as HS. destruct HS as [H1 H2].
    assert (F2 : Forall scalars segs) by (apply scalars_concat; rewrite Ec; exact H2).
    assert (T : forall fuel, length (encode (s ++ r)) < fuel -> tok fuel (encode (s ++ r)) = Ok (encode s :: map encode segs)).
    { intros fuel Hf. destruct (conf (s ++ r) fuel Hs Hf) as (l & E & _ & U). rewrite E, <- (U _ G). reflexivity. }
    set (fuel := S (length (encode (s ++ r)))). specialize (T fuel ltac:(unfold fuel; lia)). split.
    - pose proof (rest (encode (s ++ r)) [] [encode s] (map encode segs) fuel ltac:(unfold fuel; lia) T) as X. cbn [concat] in X. rewrite app_nil_r in X. specialize (X ltac:(right; exists s; auto)).
      destruct (conf s fuel H1 ltac:(unfold fuel; rewrite encode_app, app_length; lia)) as (l & E & G1 & _). rewrite X in E. injection E as E.
      change [encode s] with (map encode [s]) in E. apply map_encode_inj in E; [|constructor; [exact H1|constructor]|apply scalars_concat; rewrite (proj1 G1); exact H1]. subst l.
      unfold single_tok. destruct (conf s (S (length (encode s))) H1 ltac:(lia)) as (l & E & _ & U). rewrite E, <- (U _ G1). reflexivity.
    - pose proof (rest (encode (s ++ r)) [encode s] (map encode segs) [] fuel ltac:(unfold fuel; lia)) as X. rewrite app_nil_r, concat_encode, Ec in X. specialize (X T (or_introl eq_refl)).
      destruct (conf r fuel H2 ltac:(unfold fuel; rewrite encode_app, app_length; lia)) as (l & E & G2 & _). rewrite X in E. injection E as E.
      apply map_encode_inj in E; [subst; exact G2|exact F2|apply scalars_concat; rewrite (proj1 G2); exact H2].
  Qed.
  Lemma seg_munch : forall segs cps, scalars cps -> segmentation D cps segs -> munch single_tok cps segs.
  Proof.
    induction segs as [|s segs IH]; intros cps Hs G.
    - rewrite <- (proj1 G). constructor.
    - pose proof (proj1 G) as Ec. cbn [concat] in Ec. subst cps. set (r := concat segs) in *. destruct (seg_tail s r segs Hs G) as [A G2]. pose proof (proj1 (proj2 G)) as F. inversion F as [|? ? Ns _]; subst.
      constructor; [exact Ns|exact A| |apply IH; [apply Forall_app in Hs; tauto|exact G2]].
      intros s' r' E L A'. destruct (prefix_cmp _ _ _ _ E) as [(z & Ez & _)|(z & Ez & _)]; [|apply (f_equal (@length N)) in Ez; rewrite app_length in Ez; lia].
      assert (Hs' : scalars (s' ++ r')) by (rewrite <- E; exact Hs). apply Forall_app in Hs' as HS. destruct HS as [H1 H2]. rewrite E in G.
      destruct z as [|z0 z]; [rewrite app_nil_r in Ez; subst; lia|]. pose proof (len_encode_pos (z0 :: z) ltac:(discriminate)) as Lz. pose proof (len_encode_pos s Ns) as Ls.
      assert (Le : length (encode s') = length (encode s) + length (encode (z0 :: z))) by (rewrite Ez, encode_app, app_length; reflexivity).
      assert (B : boundary (map encode [s']) (length (encode s))).
      { apply (append_seg s' r' [s'] _ H1 H2 (single_tok_seg s' H1 A') G); [lia|]. exists [encode s], (map encode segs). cbn [concat]. rewrite app_nil_r. split; reflexivity. }
      apply one_boundary in B. lia.
  Qed.
  Lemma greedy_tokens : forall cps fuel, scalars cps -> length (encode cps) < fuel ->
    exists segs, tok fuel (encode cps) = Ok (map encode segs) /\ munch single_tok cps segs /\ forall segs', munch single_tok cps segs' -> segs' = segs.
  Proof.
    intros cps fuel Hs Hf. destruct (conf cps fuel Hs Hf) as (segs & E & G & _). exists segs. split; [exact E|]. pose proof (seg_munch segs cps Hs G) as M. split; [exact M|]. exact (munch_unique _ _ _ M).
  Qed.
  Lemma append_tokens : forall d e fuel, scalars d -> scalars e -> length (encode (d ++ e)) < fuel ->
    exists l l', tok fuel (encode d) = Ok l /\ tok fuel (encode (d ++ e)) = Ok l' /\ forall n, n <= length (encode d) -> boundary l' n -> boundary l n.
  Proof.
    intros d e fuel Hd He Hf. destruct (conf d fuel Hd ltac:(rewrite encode_app, app_length in Hf; lia)) as (s & E & G & _).
    destruct (conf (d ++ e) fuel ltac:(apply Forall_app; auto) Hf) as (s' & E' & G' & _). exists (map encode s), (map encode s'). split; [exact E|]. split; [exact E'|]. exact (append_seg d e s s' Hd He G G').
  Qed.
End Greedy.

(** * The decisions with more text *)
Lemma g_grow : forall b y a e, b <> [] -> grapheme_decides b (y :: a) Join -> grapheme_decides b (y :: a ++ e) Join.
Proof. intros b y a e Hb J. apply decides_gdec in J; [|exact Hb]. apply decides_gdec; [exact Hb|exact J]. Qed.
Lemma g_total : forall b y a, b <> [] -> grapheme_decides b (y :: a) Break \/ grapheme_decides b (y :: a) Join.
Proof. intros b y a Hb. destruct (split_last b Hb) as (c & x & ->). pose proof (GraphemesConform.g_spec c x y a) as Q. destruct (GraphemesConform.gdec _ _); auto. Qed.
Lemma g_excl : forall b a, grapheme_decides b a Break -> grapheme_decides b a Join -> False.
Proof. intros b a B J. pose proof (says_fun _ _ _ _ _ B J) as Q. discriminate Q. Qed.

Section Like.
  Variable al : N -> bool.
  Variable phs : list re.
  Hypothesis PHS : forallb is_single phs = true.
  Local Notation D := (word_like al (map (fun r => Rule (Suffix r) Join r) phs)).
  Lemma w_excl : forall b a, D b a Break -> D b a Join -> False.
  Proof.
    intros b a [B|[B B']] [J|[J J']].
    - pose proof (says_fun _ _ _ _ _ B J) as Q. discriminate Q.
    - pose proof (says_fun _ _ _ _ _ B J) as Q. discriminate Q.
    - pose proof (says_fun _ _ _ _ _ B J) as Q. discriminate Q.
    - pose proof (says_fun _ _ _ _ _ B' J') as Q. discriminate Q.
  Qed.
  Lemma w_total : forall b y a, b <> [] -> D b (y :: a) Break \/ D b (y :: a) Join.
  Proof. intros b y a Hb. destruct (split_last b Hb) as (c & x & ->). pose proof (word_spec al phs PHS c x y a) as Q. destruct (word_dec _ _ _ _ _); auto. Qed.
  Lemma dec2_grow : forall lx ll run y m, word_dec2 al phs lx ll run y None = Join -> word_dec2 al phs lx ll run y m = Join.
  Proof.
    intros lx ll run y m. unfold word_dec2. cbn [on]. rewrite !andb_false_r.
    repeat match goal with |- context [if ?c then _ else _] => destruct c; [try reflexivity|]; try (intros _; reflexivity) end; auto.
  Qed.
  Lemma red_grow : forall p a e, hd_error (reduce SpecWords.ignored line_end p (a ++ e)) = hd_error (reduce SpecWords.ignored line_end p a) \/ hd_error (reduce SpecWords.ignored line_end p a) = None.
  Proof.
    intros p a. revert p. induction a as [|c a IH]; intros p e; [right; reflexivity|]. cbn [reduce app]. destruct (SpecWords.ignored c && _); [apply IH|left; reflexivity].
  Qed.
  Lemma w_grow : forall b y a e, b <> [] -> D b (y :: a) Join -> D b (y :: a ++ e) Join.
  Proof.
    intros b y a e Hb J. destruct (split_last b Hb) as (c & x & ->). pose proof (word_spec al phs PHS c x y a) as Q. pose proof (word_spec al phs PHS c x y (a ++ e)) as Q'.
    destruct (word_dec al phs (wtrack (c ++ [x])) y (after_red y a)) eqn:E; [|elim (w_excl _ _ Q J)].
    replace (word_dec al phs (wtrack (c ++ [x])) y (after_red y (a ++ e))) with Join in Q'; [exact Q'|]. symmetry. revert E. unfold word_dec, after_red.
    destruct (word_dec1 _ _); [auto|]. destruct (red_grow (Some y) a e) as [->| ->]; [auto|]. apply dec2_grow.
  Qed.
End Like.

Lemma s_excl : forall b a, sentence_decides b a Break -> sentence_decides b a Join -> False.
Proof. intros b a B J. pose proof (sentence_fun _ _ _ _ B J) as Q. discriminate Q. Qed.
Lemma s_total : forall b y a, b <> [] -> sentence_decides b (y :: a) Break \/ sentence_decides b (y :: a) Join.
Proof. intros b y a Hb. destruct (split_last b Hb) as (c & x & ->). pose proof (sentence_spec c x y a) as Q. destruct (s_dec _ _ _); auto. Qed.
Lemma low_grow : forall a e, low a = true -> low (a ++ e) = true.
Proof.
  induction a as [|c a IH]; intros e H; [discriminate H|]. cbn [low app] in *. apply orb_true_iff in H as [H|H]; [rewrite H; reflexivity|]. apply andb_true_iff in H as [H1 H2]. rewrite H1, (IH e H2), orb_true_r. reflexivity.
Qed.
Lemma s_grow : forall b y a e, b <> [] -> sentence_decides b (y :: a) Join -> sentence_decides b (y :: a ++ e) Join.
Proof.
  intros b y a e Hb J. destruct (split_last b Hb) as (c & x & ->). pose proof (sentence_spec c x y a) as Q. pose proof (sentence_spec c x y (a ++ e)) as Q'.
  pose proof (sentence_fun _ _ _ _ Q J) as E. replace (s_dec (strack (c ++ [x])) y (low (y :: a ++ e))) with Join in Q'; [exact Q'|]. symmetry. revert E. unfold s_dec. destruct (s_dec1 _ _); [auto|].
  pose proof (low_grow (y :: a) e) as L. cbn [app] in L. destruct (low (y :: a)); [rewrite (L eq_refl); auto|]. unfold s_dec2. rewrite andb_false_r.
  repeat match goal with |- context [if ?c then _ else _] => destruct c; [try reflexivity|]; try (intros _; reflexivity) end; auto.
Qed.

