(** Emoji: what holds for any rules. *)
From Verif Require Import Base ListFacts SpecUtf8 SpecUcd SpecRules SpecGraphemes SpecWords SpecEmoji SegFacts.
Local Open Scope N_scope.

Lemma locate : forall (es : list text) b a, concat es = b ++ a ->
  (exists s1 s2, es = s1 ++ s2 /\ concat s1 = b) \/
  (exists p e1 y e2 s, es = p ++ (e1 ++ y :: e2) :: s /\ e1 <> [] /\ b = concat p ++ e1 /\ a = (y :: e2) ++ concat s).
Proof.
  induction es as [|e es IH]; intros b a E.
  - left. exists [], []. split; [reflexivity|]. cbn [concat] in *. symmetry in E. apply app_eq_nil in E as [-> _]. reflexivity.
  - cbn [concat] in E. destruct b as [|x b]; [left; exists [], (e :: es); split; reflexivity|].
    destruct (prefix_cmp e (concat es) (x :: b) a E) as [(r & Eb & Er)|(r & Ee & Ea)].
    + destruct (IH r a Er) as [(s1 & s2 & -> & C)|(p & e1 & y & e2 & s & -> & N1 & -> & ->)].
      * left. exists (e :: s1), s2. split; [reflexivity|]. cbn [concat]. rewrite C, Eb. reflexivity.
      * right. exists (e :: p), e1, y, e2, s. split; [reflexivity|]. split; [exact N1|]. split; [|reflexivity]. cbn [concat]. rewrite Eb, app_assoc. reflexivity.
    + destruct r as [|y r].
      * left. exists [e], es. split; [reflexivity|]. cbn [concat]. rewrite app_nil_r in *. exact Ee.
      * right. exists [], (x :: b), y, r, es. rewrite <- Ee. split; [reflexivity|]. split; [discriminate|]. split; [reflexivity|exact Ea].
Qed.

Lemma seg_pieces : forall (D : text -> text -> op -> Prop) es, (forall b a : text, D b a Break -> D b a Join -> False) -> Forall (fun s => s <> []) es ->
  (forall p e1 y e2 s, es = p ++ (e1 ++ y :: e2) :: s -> e1 <> [] -> D (concat p ++ e1) ((y :: e2) ++ concat s) Join) ->
  (forall p e s, es = p ++ e :: s -> p <> [] -> D (concat p) (concat (e :: s)) Break) ->
  segmentation D (concat es) es.
Proof.
  intros D es X F J B. split; [reflexivity|]. split; [exact F|]. intros b a Hb Ha E. split.
  - intros (s1 & s2 & Es & C). destruct s2 as [|e s2]; [subst es; rewrite concat_app in E; cbn [concat] in E; rewrite app_nil_r, C in E; rewrite <- (app_nil_r b) in E at 1; apply app_inv_head in E; congruence|].
    assert (N1 : s1 <> []) by (intros ->; apply Hb; symmetry; exact C). specialize (B s1 e s2 Es N1). subst es. rewrite concat_app, C in E. apply app_inv_head in E. subst a b. exact B.
  - intros Db. destruct (locate es b a E) as [L|(p & e1 & y & e2 & s & Es & N1 & -> & ->)]; [exact L|]. elim (X _ _ Db). exact (J p e1 y e2 s Es N1).
Qed.

Definition mods : list N := map (fun k => 0x1F3FB + N.of_nat k) (seq 0 5) ++ [0xFE0F; 0x20E3] ++ map (fun k => 0xE0020 + N.of_nat k) (seq 0 96).
Lemma in_span : forall lo n c, lo <= c -> c < lo + N.of_nat n -> In c (map (fun k => lo + N.of_nat k) (seq 0 n)).
Proof. intros lo n c L U. apply in_map_iff. exists (N.to_nat (c - lo)). split; [lia|]. apply in_seq. lia. Qed.
Lemma modifier_mods : forall c, modifier c = true -> In c mods.
Proof.
  intros c M. unfold modifier in M. unfold mods. apply in_or_app. apply orb_true_iff in M as [M|M]; [apply orb_true_iff in M as [M|M]; [apply orb_true_iff in M as [M|M]|]|].
  - left. apply andb_true_iff in M as [A B]. apply N.leb_le in A, B. apply in_span; lia.
  - right. left. apply N.eqb_eq in M. symmetry. exact M.
  - right. right. left. apply N.eqb_eq in M. symmetry. exact M.
  - right. right. right. apply andb_true_iff in M as [A B]. apply N.leb_le in A, B. apply in_span; lia.
Qed.
Lemma modifier_scalar : forall c, modifier c = true -> scalar c.
Proof.
  intros c M. apply modifier_mods in M. assert (A : forallb (fun c => (c <? 0xD800) || (0xE000 <=? c) && (c <=? 0x10FFFF)) mods = true) by (vm_compute; reflexivity).
  rewrite forallb_forall in A. specialize (A c M). unfold scalar. apply orb_true_iff in A as [A|A]; [left; apply N.ltb_lt; exact A|right; apply andb_true_iff in A as [A1 A2]; split; [apply N.leb_le; exact A1|apply N.leb_le in A2; lia]].
Qed.
Definition symbols : list N := map (fun k => 0x1F1E6 + N.of_nat k) (seq 0 26).
Lemma symbol_in : forall c, letter_symbol c -> In c symbols.
Proof. intros c [A B]. apply in_span; lia. Qed.
Definition bases : list N := [0x23; 0x2A] ++ map (fun k => 0x30 + N.of_nat k) (seq 0 10).
Lemma base_in : forall c, keycap_base c -> In c bases.
Proof. intros c [[A B]|[->| ->]]; [right; right; apply in_span; lia|left; reflexivity|right; left; reflexivity]. Qed.

Lemma element_scalars : forall e, element e -> scalars e.
Proof. intros e [p ms [S _] F]. constructor; [exact S|]. apply Forall_impl with (2 := F). intros m. apply modifier_scalar. Qed.
Lemma joined_scalars : forall s, joined s -> scalars s.
Proof. intros s J. induction J as [e He|e s He J IH]; [exact (element_scalars e He)|]. apply Forall_app. split; [exact (element_scalars e He)|]. constructor; [left; reflexivity|exact IH]. Qed.
Lemma emoji_scalars : forall e, emoji e -> scalars e.
Proof.
  intros e [J|[[x y Hx Hy]|[k ms Hk F]]]; [exact (joined_scalars e J)| |].
  - unfold letter_symbol in *. constructor; [right; lia|]. constructor; [right; lia|constructor].
  - constructor; [left; destruct Hk as [Hk|[->| ->]]; [lia|reflexivity|reflexivity]|]. apply Forall_impl with (2 := F). intros m. apply modifier_scalar.
Qed.
Lemma joined_nonnil : forall s, joined s -> s <> [].
Proof. intros s [e [p ms _ _]|e s0 [p ms _ _] _]; discriminate. Qed.
Lemma emoji_nonnil : forall e, emoji e -> e <> [].
Proof. intros e [J|[[x y _ _]|[k ms _ _]]]; [exact (joined_nonnil e J)|discriminate|discriminate]. Qed.

(** Where no rule breaks *)
Section Inner.
  Variable J : text -> N -> text -> Prop.
  Hypothesis J_mod : forall b x y a, scalars b -> pictograph x \/ modifier x = true \/ keycap_base x -> modifier y = true \/ y = ZERO_WIDTH_JOINER -> J (b ++ [x]) y a.
  Hypothesis J_zwj : forall b p ms q a, scalars b -> pictograph p -> Forall (fun m => modifier m = true) ms -> pictograph q -> J (b ++ p :: ms ++ [ZERO_WIDTH_JOINER]) q a.

  Lemma mods_inner : forall ms b x a s1 y s2, scalars b -> scalar x -> pictograph x \/ modifier x = true \/ keycap_base x -> Forall (fun m => modifier m = true) ms ->
    x :: ms = s1 ++ y :: s2 -> s1 <> [] -> J (b ++ s1) y a.
  Proof.
    induction ms as [|m ms IH]; intros b x a s1 y s2 Sb Sx Hx F E N1; destruct s1 as [|z s1]; try contradiction; injection E as <- E.
    - destruct s1; discriminate E.
    - inversion F as [|? ? Fm F']; subst. destruct s1 as [|w s1].
      + injection E as <- E. apply J_mod; auto.
      + change (b ++ x :: w :: s1) with (b ++ [x] ++ w :: s1). rewrite app_assoc. apply (IH (b ++ [x]) m a (w :: s1) y s2); [|exact (modifier_scalar m Fm)|right; left; exact Fm|exact F'|exact E|discriminate].
        apply Forall_app. split; [exact Sb|constructor; [exact Sx|constructor]].
  Qed.
  Lemma joined_head : forall s, joined s -> exists p r, s = p :: r /\ pictograph p.
  Proof. intros s [e [p ms Hp _]|e s0 [p ms Hp _] _]; [exists p, ms|exists p, (ms ++ ZERO_WIDTH_JOINER :: s0)]; split; auto. Qed.
  Lemma joined_inner : forall s, joined s -> forall b a s1 y s2, scalars b -> s = s1 ++ y :: s2 -> s1 <> [] -> J (b ++ s1) y a.
  Proof.
    intros s Js. induction Js as [e He|e s He Js IH]; intros b a s1 y s2 Sb E N1.
    - destruct He as [p ms Hp F]. exact (mods_inner ms b p a s1 y s2 Sb (proj1 Hp) (or_introl Hp) F E N1).
    - pose proof (element_scalars e He) as Se. destruct He as [p ms Hp F]. destruct (prefix_cmp _ _ _ _ E) as [(r & E1 & E2)|(r & E1 & E2)].
      + destruct r as [|z r].
        * cbn [app] in E2. injection E2 as <- E2. rewrite app_nil_r in E1. subst s1. clear E N1. destruct ms as [|m0 ms0] using rev_ind; [apply J_mod; auto|].
          apply Forall_app in F as [F1 F2]. inversion F2 as [|? ? F3 _]; subst. rewrite app_comm_cons, app_assoc. apply J_mod; [|right; left; exact F3|right; reflexivity].
          apply Forall_app. split; [exact Sb|]. inversion Se as [|? ? S1 S2]; subst. apply Forall_app in S2 as [S2 _]. constructor; assumption.
        * injection E2 as <- E2. destruct r as [|w r].
          -- subst s1. destruct (joined_head s Js) as (q & t & -> & Hq). injection E2 as <- E2. rewrite <- app_comm_cons. apply J_zwj; auto.
          -- subst s1. replace (b ++ (p :: ms) ++ ZERO_WIDTH_JOINER :: w :: r) with ((b ++ (p :: ms) ++ [ZERO_WIDTH_JOINER]) ++ (w :: r)) by (rewrite <- !app_assoc; reflexivity).
             apply (IH _ a (w :: r) y s2); [|exact E2|discriminate]. apply Forall_app. split; [exact Sb|]. apply Forall_app. split; [exact Se|]. constructor; [left; reflexivity|constructor].
      + destruct r as [|z r].
        * cbn [app] in E2. injection E2 as -> E2. rewrite app_nil_r in E1. subst s1. clear E N1. destruct ms as [|m0 ms0] using rev_ind; [apply J_mod; auto|].
          apply Forall_app in F as [F1 F2]. inversion F2 as [|? ? F3 _]; subst. rewrite app_comm_cons, app_assoc. apply J_mod; [|right; left; exact F3|right; reflexivity].
          apply Forall_app. split; [exact Sb|]. inversion Se as [|? ? S1 S2]; subst. apply Forall_app in S2 as [S2 _]. constructor; assumption.
        * injection E2 as -> E2. exact (mods_inner ms b p a s1 z r Sb (proj1 Hp) (or_introl Hp) F E1 N1).
  Qed.
End Inner.
