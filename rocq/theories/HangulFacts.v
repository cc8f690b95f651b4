(** Segmentations under replacement of single characters by several. *)
From Verif Require Import Base ListFacts SpecRules.

(** ** Patterns for one character *)
Definition one (r : re) (p : N -> bool) : Prop := forall t, matches r t <-> exists c, t = [c] /\ p c = true.
Lemma one_cls : forall p, one (Cls p) p.
Proof. intros p t. split; [intros M; inversion M; subst; eauto|intros (c & -> & H); constructor; exact H]. Qed.
Lemma one_alt : forall r s p q, one r p -> one s q -> one (Alt r s) (fun c => p c || q c).
Proof.
  intros r s p q A B t. split.
  - intros M. inversion M; subst; [apply A in H2; destruct H2 as (c & E & H)|apply B in H2; destruct H2 as (c & E & H)]; exists c; rewrite H, ?orb_true_r; auto.
  - intros (c & E & H). apply orb_prop in H. destruct H as [H|H]; [apply m_altl, A; eauto|apply m_altr, B; eauto].
Qed.
Lemma ends_one : forall r p, one r p -> forall b y, ends_with r (b ++ [y]) <-> p y = true.
Proof.
  intros r p O b y. split.
  - intros (b1 & b2 & E & M). apply O in M. destruct M as (c & -> & H). apply app_inj_tail in E. destruct E as (_ & ->). exact H.
  - intros H. exists b, [y]. split; [reflexivity|]. apply O. eauto.
Qed.
Lemma starts_one : forall r p, one r p -> forall z a, starts_with r (z :: a) <-> p z = true.
Proof.
  intros r p O z a. split.
  - intros (a1 & a2 & E & M). apply O in M. destruct M as (c & -> & H). injection E as -> _. exact H.
  - intros H. exists [z], a. split; [reflexivity|]. apply O. eauto.
Qed.
Lemma ends_nil : forall r p, one r p -> ~ ends_with r [].
Proof. intros r p O (b1 & b2 & E & M). apply O in M. destruct M as (c & -> & _). destruct b1; discriminate. Qed.
Lemma starts_nil : forall r p, one r p -> ~ starts_with r [].
Proof. intros r p O (b1 & b2 & E & M). apply O in M. destruct M as (c & -> & _). discriminate. Qed.
Fixpoint nullable (r : re) : bool := match r with Eps | Star _ => true | Cls _ => false | Cat r s => nullable r && nullable s | Alt r s => nullable r || nullable s end.
Lemma not_nullable : forall r t, matches r t -> t = [] -> nullable r = true.
Proof.
  intros r t M. induction M; cbn [nullable]; intros E; try reflexivity; try discriminate.
  - apply app_eq_nil in E. destruct E as (-> & ->). rewrite IHM1, IHM2; reflexivity.
  - rewrite IHM by exact E. reflexivity.
  - rewrite IHM by exact E. apply orb_true_r.
Qed.

Section Exp.
  (** [dec x] is what [x] is replaced by; only characters of [sp] are replaced, and by characters of [sp]. *)
  Variable dec : N -> list N.
  Variable sp : N -> bool.
  Hypothesis dec_other : forall x, sp x = false -> dec x = [x].
  Hypothesis dec_sp : forall x, sp x = true -> dec x <> [] /\ Forall (fun y => sp y = true) (dec x).
  Notation D := (flat_map dec).

  Lemma D_app : forall a b, D (a ++ b) = D a ++ D b.
  Proof. intros a b. apply flat_map_app. Qed.
  Lemma D_one : forall x, D [x] = dec x.
  Proof. intros x. cbn. apply app_nil_r. Qed.
  Lemma dec_nonnil : forall x, dec x <> [].
  Proof. intros x. destruct (sp x) eqn:E; [apply dec_sp; exact E|rewrite dec_other by exact E; discriminate]. Qed.
  Lemma D_nil : forall t, D t = [] -> t = [].
  Proof. intros [|x t] E; [reflexivity|]. cbn in E. apply app_eq_nil in E. destruct E as (E & _). destruct (dec_nonnil x E). Qed.
  Definition freet (t : text) : Prop := Forall (fun c => sp c = false) t.
  Lemma D_free : forall t, freet t -> D t = t.
  Proof. intros t F. induction F as [|x t H F IH]; [reflexivity|]. cbn [flat_map]. rewrite IH, (dec_other x H). reflexivity. Qed.
  Lemma dec_cases : forall x, (sp x = false /\ dec x = [x]) \/ (sp x = true /\ Forall (fun y => sp y = true) (dec x)).
  Proof. intros x. destruct (sp x) eqn:E; [right; split; [reflexivity|apply dec_sp; exact E]|left; split; [reflexivity|apply dec_other; exact E]]. Qed.

  (** A part without characters of [sp] at the end, or at the start. *)
  Lemma D_free_end : forall w x b, freet w -> D b = x ++ w -> exists b1, b = b1 ++ w /\ D b1 = x.
  Proof.
    intros w. induction w as [|c w IH] using rev_ind; intros x b F E; [rewrite app_nil_r in E; exists b; rewrite app_nil_r; auto|].
    apply Forall_app in F. destruct F as (Fw & Fc). apply Forall_inv in Fc. destruct b as [|z b] using rev_ind; [destruct x; [destruct w|]; discriminate|]. clear IHb.
    rewrite D_app, D_one, app_assoc in E. destruct (dec_cases z) as [(Z & Ez)|(Z & Ez)].
    - rewrite Ez in E. apply app_inj_tail in E. destruct E as (E & ->). destruct (IH x b Fw E) as (b1 & -> & E1). exists b1. rewrite app_assoc. auto.
    - exfalso. pose proof (dec_nonnil z) as Nz. destruct (exists_last Nz) as (l & y & El). rewrite El in *. apply Forall_app in Ez. destruct Ez as (_ & Ez). apply Forall_inv in Ez.
      rewrite app_assoc in E. apply app_inj_tail in E. destruct E as (_ & ->). congruence.
  Qed.
  Lemma D_free_start : forall w x a, freet w -> D a = w ++ x -> exists a1, a = w ++ a1 /\ D a1 = x.
  Proof.
    induction w as [|c w IH]; intros x a F E; [exists a; auto|]. destruct a as [|z a]; [discriminate|]. cbn [flat_map] in E. pose proof (Forall_inv F) as Fc.
    destruct (dec_cases z) as [(Z & Ez)|(Z & Ez)].
    - rewrite Ez in E. cbn in E. injection E as -> E. destruct (IH x a (Forall_inv_tail F) E) as (a1 & -> & E1). exists a1. auto.
    - exfalso. pose proof (dec_nonnil z) as Nz. destruct (dec z) as [|y l]; [congruence|]. cbn in E. injection E as -> _. apply Forall_inv in Ez. cbv beta in Ez. congruence.
  Qed.

  Fixpoint free (r : re) : Prop := match r with Eps => True | Cls p => forall c, sp c = true -> p c = false | Cat r s | Alt r s => free r /\ free s | Star r => free r end.
  Lemma free_match : forall r t, matches r t -> free r -> freet t.
  Proof.
    intros r t M. induction M; cbn [free]; intros F; try (constructor; fail); try (destruct F; auto; fail).
    - constructor; [|constructor]. destruct (sp c) eqn:E; [|reflexivity]. rewrite (F c E) in H. discriminate.
    - destruct F as (F1 & F2). apply Forall_app. split; [exact (IHM1 F1)|exact (IHM2 F2)].
    - apply Forall_app. split; [apply IHM1|apply IHM2]; exact F.
  Qed.
  Lemma free_not_ends : forall r b y, free r -> nullable r = false -> sp y = true -> ~ ends_with r (b ++ [y]).
  Proof.
    intros r b y F N Y (b1 & b2 & E & M). pose proof (free_match _ _ M F) as Fm. destruct b2 as [|z b2] using rev_ind; [rewrite (not_nullable _ _ M eq_refl) in N; discriminate|]. clear IHb2.
    rewrite app_assoc in E. apply app_inj_tail in E. destruct E as (_ & ->). apply Forall_app in Fm. destruct Fm as (_ & Fm). apply Forall_inv in Fm. congruence.
  Qed.

  Definition lok (r : re) : Prop := forall b, ends_with r b <-> ends_with r (D b).
  Definition rok (r : re) : Prop := forall a, starts_with r a <-> starts_with r (D a).
  Lemma lok_eps : lok Eps.
  Proof. intros b. split; intros _; [exists (D b)|exists b]; exists []; rewrite app_nil_r; split; auto; constructor. Qed.
  Lemma rok_eps : rok Eps.
  Proof. intros a. split; intros _; exists []; [exists (D a)|exists a]; split; auto; constructor. Qed.
  Lemma lok_one : forall r p, one r p -> (forall x, sp x = true -> forall l y, dec x = l ++ [y] -> p x = p y) -> lok r.
  Proof.
    intros r p O H b. destruct b as [|x b] using rev_ind; [reflexivity|]. clear IHb. rewrite D_app, D_one. destruct (dec_cases x) as [(X & E)|(X & _)].
    - rewrite E, !(ends_one r p O). reflexivity.
    - destruct (exists_last (dec_nonnil x)) as (l & y & E). rewrite E, app_assoc, !(ends_one r p O), (H x X l y E). reflexivity.
  Qed.
  Lemma rok_one : forall r p, one r p -> (forall x, sp x = true -> forall y l, dec x = y :: l -> p x = p y) -> rok r.
  Proof.
    intros r p O H a. destruct a as [|x a]; [reflexivity|]. cbn [flat_map]. destruct (dec_cases x) as [(X & E)|(X & _)].
    - rewrite E. cbn [app]. rewrite !(starts_one r p O). reflexivity.
    - destruct (dec x) as [|y l] eqn:E; [destruct (dec_nonnil x E)|]. cbn [app]. rewrite !(starts_one r p O), (H x X y l E). reflexivity.
  Qed.
  Lemma ends_cat : forall r s b, ends_with (Cat r s) b <-> exists b1 w, b = b1 ++ w /\ matches s w /\ ends_with r b1.
  Proof.
    intros r s b. split.
    - intros (b1 & b2 & -> & M). inversion M; subst. exists (b1 ++ t), u. rewrite app_assoc. split; [reflexivity|]. split; [assumption|]. exists b1, t. auto.
    - intros (b1 & w & -> & M & (x & y & -> & M')). exists x, (y ++ w). rewrite app_assoc. split; [reflexivity|]. constructor; assumption.
  Qed.
  Lemma starts_cat : forall r s a, starts_with (Cat r s) a <-> exists w a1, a = w ++ a1 /\ matches r w /\ starts_with s a1.
  Proof.
    intros r s a. split.
    - intros (a1 & a2 & -> & M). inversion M; subst. exists t, (u ++ a2). rewrite app_assoc. split; [reflexivity|]. split; [assumption|]. exists u, a2. auto.
    - intros (w & a1 & -> & M & (x & y & -> & M')). exists (w ++ x), y. rewrite app_assoc. split; [reflexivity|]. constructor; assumption.
  Qed.
  Lemma lok_cat : forall r s, lok r -> free s -> lok (Cat r s).
  Proof.
    intros r s L F b. rewrite !ends_cat. split.
    - intros (b1 & w & -> & M & E). exists (D b1), w. rewrite D_app, (D_free w (free_match _ _ M F)). split; [reflexivity|]. split; [exact M|]. apply (proj1 (L _)). exact E.
    - intros (x & w & E & M & H). destruct (D_free_end w x b (free_match _ _ M F) E) as (b1 & -> & <-). exists b1, w. split; [reflexivity|]. split; [exact M|]. apply (proj2 (L _)). exact H.
  Qed.
  Lemma rok_cat : forall r s, free r -> rok s -> rok (Cat r s).
  Proof.
    intros r s F L a. rewrite !starts_cat. split.
    - intros (w & a1 & -> & M & E). exists w, (D a1). rewrite D_app, (D_free w (free_match _ _ M F)). split; [reflexivity|]. split; [exact M|]. apply (proj1 (L _)). exact E.
    - intros (w & x & E & M & H). destruct (D_free_start w x a (free_match _ _ M F) E) as (a1 & -> & <-). exists w, a1. split; [reflexivity|]. split; [exact M|]. apply (proj2 (L _)). exact H.
  Qed.
  Lemma lok_free : forall r, free r -> lok r.
  Proof.
    intros r F b. split.
    - intros (b1 & w & -> & M). exists (D b1), w. rewrite D_app, (D_free w (free_match _ _ M F)). auto.
    - intros (x & w & E & M). destruct (D_free_end w x b (free_match _ _ M F) E) as (b1 & -> & <-). exists b1, w. auto.
  Qed.
  Lemma rok_free : forall r, free r -> rok r.
  Proof.
    intros r F a. split.
    - intros (w & a1 & -> & M). exists w, (D a1). rewrite D_app, (D_free w (free_match _ _ M F)). auto.
    - intros (w & x & E & M). destruct (D_free_start w x a (free_match _ _ M F) E) as (a1 & -> & <-). exists w, a1. auto.
  Qed.
  Lemma sot_free : forall r, free r -> forall b, matches r b <-> matches r (D b).
  Proof.
    intros r F b. split; intros M.
    - rewrite (D_free b (free_match _ _ M F)). exact M.
    - destruct (D_free_start (D b) [] b (free_match _ _ M F) (eq_sym (app_nil_r _))) as (a1 & E & E1). apply D_nil in E1. subst a1. rewrite app_nil_r in E. rewrite E. exact M.
  Qed.

  Definition okrule (r : rule) : Prop := (match r_left r with Suffix l => lok l | Sot l => free l end) /\ rok (r_right r).
  Lemma applies_exp : forall r, okrule r -> forall b a, applies r b a <-> applies r (D b) (D a).
  Proof.
    intros r (L & R) b a. unfold applies. rewrite (R a). destruct (r_left r) as [l|l]; cbn [left_applies]; [rewrite (L b)|rewrite (sot_free l L b)]; reflexivity.
  Qed.
  Lemma says_exp : forall rs b a v, Forall okrule rs -> says b a rs v <-> says (D b) (D a) rs v.
  Proof.
    induction rs as [|r rs IH]; intros b a v F.
    - split; intros S; inversion S; subst; apply says_none.
    - pose proof (applies_exp r (Forall_inv F) b a) as A. pose proof (fun v => IH b a v (Forall_inv_tail F)) as I. split; intros S; inversion S; subst.
      + apply says_this, A. assumption.
      + apply says_next; [intros X; apply A in X; contradiction|apply I; assumption].
      + apply says_this, A. assumption.
      + apply says_next; [intros X; apply A in X; contradiction|apply I; assumption].
  Qed.

  (** Removing ignored characters. *)
  Section Red.
    Variables ign keep : N -> bool.
    Hypothesis ign_sp : forall c, sp c = true -> ign c = false.
    Hypothesis keep_sp : forall c, sp c = true -> keep c = false.
    Definition held (p : option N) : bool := match p with Some p => negb (keep p) | None => false end.
    Lemma reduce_sp : forall l t p, Forall (fun y => sp y = true) l -> l <> [] -> exists q, held q = true /\ reduce ign keep p (l ++ t) = l ++ reduce ign keep q t.
    Proof.
      induction l as [|y l IH]; intros t p F N; [congruence|]. pose proof (Forall_inv F) as Y. cbv beta in Y. cbn [app reduce]. rewrite (ign_sp y Y). cbn [andb]. destruct l as [|y' l].
      - exists (Some y). cbn [held app]. rewrite (keep_sp y Y). split; reflexivity.
      - destruct (IH t (Some y) (Forall_inv_tail F) ltac:(discriminate)) as (q & Q & E). exists q. rewrite E. split; [exact Q|reflexivity].
    Qed.
    Lemma reduce_held : forall t p q, held p = held q -> reduce ign keep p t = reduce ign keep q t.
    Proof. intros [|c t] p q H; [reflexivity|]. cbn [reduce]. change (match p with Some p => negb (keep p) | None => false end) with (held p). change (match q with Some p => negb (keep p) | None => false end) with (held q). rewrite H. reflexivity. Qed.
    Lemma reduce_exp : forall t p, reduce ign keep p (D t) = D (reduce ign keep p t).
    Proof.
      induction t as [|c t IH]; intros p; [reflexivity|]. cbn [flat_map reduce]. destruct (dec_cases c) as [(C & E)|(C & E)].
      - rewrite E. cbn [app reduce]. destruct (ign c && _); [apply IH|]. cbn [flat_map]. rewrite E, <- IH. reflexivity.
      - destruct (reduce_sp (dec c) (D t) p E (dec_nonnil c)) as (q & Q & ->). rewrite (ign_sp c C). cbn [andb flat_map]. rewrite (reduce_held _ q (Some c)), IH; [reflexivity|]. rewrite Q. cbn [held]. rewrite (keep_sp c C). reflexivity.
    Qed.
    Lemma last_exp : forall b t, reduce ign keep (last_char (D b)) t = reduce ign keep (last_char b) t.
    Proof.
      assert (L : forall b x, last_char (b ++ [x]) = Some x).
      { induction b as [|c b IHb]; intros x; [reflexivity|]. cbn [app last_char]. rewrite IHb. destruct (b ++ [x]) eqn:E; [destruct b; discriminate|reflexivity]. }
      intros b t. destruct b as [|x b] using rev_ind; [reflexivity|]. clear IHb. rewrite D_app, D_one, L. destruct (dec_cases x) as [(C & E)|(C & E)]; [rewrite E, L; reflexivity|].
      destruct (exists_last (dec_nonnil x)) as (l & y & El). rewrite El in *. rewrite app_assoc, L. apply reduce_held. apply Forall_app in E. destruct E as (_ & E). apply Forall_inv in E. cbn [held].
      rewrite (keep_sp x C), (keep_sp y E). reflexivity.
    Qed.
    Lemma reduce_end : forall t y p, ign y = false -> reduce ign keep p (t ++ [y]) = reduce ign keep p t ++ [y].
    Proof. induction t as [|c t IH]; intros y p H; cbn [app reduce]; [rewrite H; reflexivity|]. destruct (ign c && _); [apply IH; exact H|]. rewrite IH by exact H. reflexivity. Qed.
    Lemma reduce_start : forall y t p, ign y = false -> reduce ign keep p (y :: t) = y :: reduce ign keep (Some y) t.
    Proof. intros y t p H. cbn [reduce]. rewrite H. reflexivity. Qed.
  End Red.

  (** ** Segmentations *)
  Lemma split_cases : forall cps b' a', D cps = b' ++ a' ->
    (exists b a, cps = b ++ a /\ b' = D b /\ a' = D a)
    \/ (exists b x a j1 j2, cps = b ++ x :: a /\ dec x = j1 ++ j2 /\ j1 <> [] /\ j2 <> [] /\ b' = D b ++ j1 /\ a' = j2 ++ D a).
  Proof.
    induction cps as [|x cps IH]; intros b' a' E.
    - destruct b'; [|discriminate]. cbn in E. subst a'. left. exists [], []. auto.
    - cbn [flat_map] in E. apply app_eq_app in E. destruct E as (l & [(E1 & E2)|(E1 & E2)]).
      + destruct b' as [|c b']; [left; exists [], (x :: cps); cbn in E1; subst l; auto|]. destruct l as [|e l].
        * rewrite app_nil_r in E1. cbn in E2. left. exists [x], cps. rewrite D_one, E1. auto.
        * right. exists [], x, cps, (c :: b'), (e :: l). repeat split; auto; discriminate.
      + destruct (IH l a' E2) as [(b & a & -> & -> & ->)|(b & y & a & j1 & j2 & -> & Ey & N1 & N2 & -> & ->)].
        * left. exists (x :: b), a. cbn [flat_map]. auto.
        * right. exists (x :: b), y, a, j1, j2. cbn [flat_map]. rewrite E1, <- app_assoc. auto 10.
  Qed.
  Lemma D_len : forall b, length b <= length (D b).
  Proof. induction b as [|x b IH]; [cbn; lia|]. cbn [flat_map length]. rewrite app_length. pose proof (dec_nonnil x). destruct (dec x); [congruence|cbn [length]; lia]. Qed.

  Theorem seg_exp : forall Dc : text -> text -> op -> Prop,
    (forall b a, Dc b a Break <-> Dc (D b) (D a) Break) ->
    (forall b x a j1 j2, dec x = j1 ++ j2 -> j1 <> [] -> j2 <> [] -> ~ Dc (D b ++ j1) (j2 ++ D a) Break) ->
    forall cps segs, segmentation Dc cps segs -> segmentation Dc (D cps) (map D segs).
  Proof.
    intros Dc HD HI cps segs (H1 & H2 & H3). assert (CM : forall s : list text, concat (map D s) = D (concat s)).
    { induction s as [|t s IH]; [reflexivity|]. cbn [map concat]. rewrite IH, D_app. reflexivity. }
    split; [rewrite CM, H1; reflexivity|]. split; [apply Forall_map; eapply Forall_impl; [|exact H2]; intros s Hs E; apply Hs, D_nil, E|].
    intros b' a' Nb Na E. destruct (split_cases _ _ _ E) as [(b & a & Ec & -> & ->)|(b & x & a & j1 & j2 & Ec & Ex & N1 & N2 & -> & ->)].
    - assert (Nb' : b <> []) by (intros ->; apply Nb; reflexivity). assert (Na' : a <> []) by (intros ->; apply Na; reflexivity).
      rewrite <- HD, <- (H3 b a Nb' Na' Ec). split.
      + intros (s1 & s2 & Es & E1). apply map_eq_app in Es. destruct Es as (t1 & t2 & -> & <- & <-). exists t1, t2. split; [reflexivity|]. rewrite CM in E1.
        rewrite Ec, concat_app in H1. clear - H1 E1 dec_other dec_sp. apply app_eq_app in H1. destruct H1 as (l & [(A & B)|(A & B)]).
        * rewrite A, D_app in E1. rewrite <- (app_nil_r (D b)) in E1 at 2. apply app_inv_head in E1. apply D_nil in E1. subst l. rewrite A. apply app_nil_r.
        * rewrite A, D_app in E1. rewrite <- (app_nil_r (D (concat t1))) in E1 at 1. apply app_inv_head in E1. symmetry in E1. apply D_nil in E1. subst l. rewrite A. symmetry. apply app_nil_r.
      + intros (s1 & s2 & -> & <-). exists (map D s1), (map D s2). rewrite map_app, CM. auto.
    - split; [|intros HB; destruct (HI b x a j1 j2 Ex N1 N2 HB)]. intros (s1 & s2 & Es & E1). exfalso. apply map_eq_app in Es. destruct Es as (t1 & t2 & -> & <- & <-). rewrite CM in E1.
      rewrite Ec, concat_app in H1. assert (L1 : length j1 <> 0) by (destruct j1; [congruence|discriminate]). assert (L2 : length j2 <> 0) by (destruct j2; [congruence|discriminate]).
      apply (f_equal (@length N)) in E1. rewrite app_length in E1. apply app_eq_app in H1. destruct H1 as (l & [(A & B)|(A & B)]).
      + destruct l as [|y l]; [rewrite app_nil_r in A; rewrite A in E1; lia|]. cbn in B. injection B as <- B. rewrite A in E1. rewrite D_app, app_length in E1. cbn [flat_map] in E1. rewrite Ex, !app_length in E1. lia.
      + rewrite A, D_app, app_length in E1. lia.
  Qed.
End Exp.
