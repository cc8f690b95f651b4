(** Facts about patterns and rule lists. *)
From Verif Require Import Base ListFacts SpecRules.

(** ** Inversion *)
Lemma matches_eps : forall t, matches Eps t <-> t = [].
Proof. intros; split; [intros H; inversion H; reflexivity|intros ->; constructor]. Qed.
Lemma matches_cls : forall p t, matches (Cls p) t <-> exists c, t = [c] /\ p c = true.
Proof. intros; split; [intros H; inversion H; subst; eauto | intros (c & -> & H); constructor; exact H]. Qed.
Lemma matches_cat : forall r s t, matches (Cat r s) t <-> exists t1 t2, t = t1 ++ t2 /\ matches r t1 /\ matches s t2.
Proof. intros; split; [intros H; inversion H; subst; eauto 6 | intros (t1 & t2 & -> & H1 & H2); constructor; auto]. Qed.
Lemma matches_alt : forall r s t, matches (Alt r s) t <-> matches r t \/ matches s t.
Proof. intros; split; [intros H; inversion H; subst; auto | intros [H|H]; [apply m_altl|apply m_altr]; auto]. Qed.
Lemma matches_opt : forall r t, matches (Opt r) t <-> matches r t \/ t = [].
Proof. intros. unfold Opt. rewrite matches_alt, matches_eps. reflexivity. Qed.

(** A pattern that matches exactly the single characters of a class. *)
Definition single (r : re) (p : N -> bool) : Prop := forall t, matches r t <-> exists c, t = [c] /\ p c = true.
Lemma single_cls : forall p, single (Cls p) p.
Proof. intros p t. apply matches_cls. Qed.
Lemma single_alt : forall r s p q, single r p -> single s q -> single (Alt r s) (fun c => p c || q c).
Proof.
  intros r s p q Hr Hs t. rewrite matches_alt, (Hr t), (Hs t). split.
  - intros [(c & -> & H)|(c & -> & H)]; exists c; rewrite H; auto using orb_true_r.
  - intros (c & -> & H). apply orb_prop in H. destruct H; eauto.
Qed.

(** Starred single patterns. *)
Lemma star_single : forall r p, single r p -> forall t, matches (Star r) t <-> Forall (fun c => p c = true) t.
Proof.
  intros r p H t. split.
  - intros M. remember (Star r) as s eqn:Es. induction M; inversion Es; subst; [constructor|].
    apply Forall_app. split; [|apply IHM2; reflexivity]. apply H in M1. destruct M1 as (c & -> & Hc). auto.
  - intros F. induction F as [|c t Hc F IH]; [constructor|]. change (c :: t) with ([c] ++ t). constructor; [|exact IH].
    apply H. eauto.
Qed.

(** ** Suffixes *)
Lemma ends_any : forall b, ends_with Any b.
Proof. intros b. exists b, []. rewrite app_nil_r. split; [reflexivity|constructor]. Qed.

Lemma ends_single : forall r p, single r p -> forall b x, ends_with r (b ++ [x]) <-> p x = true.
Proof.
  intros r p H b x. split.
  - intros (b1 & b2 & E & M). apply H in M. destruct M as (c & -> & Hc). apply app_inj_tail in E. destruct E as [_ ->]. exact Hc.
  - intros Hx. exists b, [x]. split; [reflexivity|]. apply H. eauto.
Qed.
Lemma ends_single_nil : forall r p, single r p -> ~ ends_with r [].
Proof.
  intros r p H (b1 & b2 & E & M). apply H in M. destruct M as (c & -> & _). destruct b1; discriminate.
Qed.

Lemma ends_cat_single : forall s p, single s p -> forall r b x, ends_with (Cat r s) (b ++ [x]) <-> p x = true /\ ends_with r b.
Proof.
  intros s p H r b x. split.
  - intros (b1 & b2 & E & M). apply matches_cat in M. destruct M as (t1 & t2 & -> & M1 & M2).
    apply H in M2. destruct M2 as (c & -> & Hc). rewrite app_assoc in E. apply app_inj_tail in E. destruct E as [-> ->].
    split; [exact Hc|]. exists b1, t1. auto.
  - intros (Hx & b1 & b2 & -> & M). exists b1, (b2 ++ [x]). rewrite app_assoc. split; [reflexivity|].
    constructor; [exact M|]. apply H. eauto.
Qed.
Lemma ends_cat_single_nil : forall s p, single s p -> forall r, ~ ends_with (Cat r s) [].
Proof.
  intros s p H r (b1 & b2 & E & M). apply matches_cat in M. destruct M as (t1 & t2 & -> & M1 & M2).
  apply H in M2. destruct M2 as (c & -> & _). destruct b1, t1; discriminate.
Qed.

Lemma ends_cat_star : forall s p, single s p -> forall r b x,
  ends_with (Cat r (Star s)) (b ++ [x]) <-> ends_with r (b ++ [x]) \/ (p x = true /\ ends_with (Cat r (Star s)) b).
Proof.
  intros s p H r b x. split.
  - intros (b1 & b2 & E & M). apply matches_cat in M. destruct M as (t1 & t2 & -> & M1 & M2).
    apply (star_single _ _ H) in M2. destruct t2 as [|y t2 _] using rev_ind.
    + left. rewrite app_nil_r in E. exists b1, t1. auto.
    + right. rewrite !app_assoc in E. apply app_inj_tail in E. destruct E as [-> ->].
      apply Forall_app in M2. destruct M2 as [F1 F2]. split; [exact (Forall_inv F2)|].
      exists b1, (t1 ++ t2). rewrite app_assoc. split; [reflexivity|]. constructor; [exact M1|]. apply (star_single _ _ H). exact F1.
  - intros [(b1 & b2 & E & M)|(Hx & b1 & b2 & -> & M)].
    + exists b1, (b2 ++ []). rewrite app_nil_r. split; [exact E|]. rewrite <- (app_nil_r b2). constructor; [exact M|constructor].
    + apply matches_cat in M. destruct M as (t1 & t2 & -> & M1 & M2).
      exists b1, (t1 ++ (t2 ++ [x])). rewrite !app_assoc. split; [reflexivity|]. rewrite <- app_assoc. constructor; [exact M1|].
      apply (star_single _ _ H). apply (star_single _ _ H) in M2. apply Forall_app. auto.
Qed.
Lemma ends_cat_star_nil : forall s r, ends_with (Cat r (Star s)) [] -> ends_with r [].
Proof.
  intros s r (b1 & b2 & E & M). apply matches_cat in M. destruct M as (t1 & t2 & -> & M1 & M2).
  destruct b1, t1; try discriminate. exists [], []. auto.
Qed.
Lemma ends_cat_opt : forall r s b, ends_with (Cat r (Opt s)) b <-> ends_with r b \/ ends_with (Cat r s) b.
Proof.
  intros r s b. split.
  - intros (b1 & b2 & -> & M). apply matches_cat in M. destruct M as (t1 & t2 & -> & M1 & M2).
    apply matches_opt in M2. destruct M2 as [M2| ->].
    + right. exists b1, (t1 ++ t2). split; [reflexivity|]. constructor; auto.
    + left. exists b1, t1. rewrite app_nil_r. auto.
  - intros [(b1 & b2 & -> & M)|(b1 & b2 & -> & M)].
    + exists b1, (b2 ++ []). rewrite app_nil_r. split; [reflexivity|]. rewrite <- (app_nil_r b2). constructor; [exact M|].
      apply matches_opt. auto.
    + apply matches_cat in M. destruct M as (t1 & t2 & -> & M1 & M2). exists b1, (t1 ++ t2). split; [reflexivity|].
      constructor; [exact M1|]. apply matches_opt. auto.
Qed.

(** ** Prefixes *)
Lemma starts_any : forall a, starts_with Any a.
Proof. intros a. exists [], a. split; [reflexivity|constructor]. Qed.
Lemma starts_single : forall r p, single r p -> forall x a, starts_with r (x :: a) <-> p x = true.
Proof.
  intros r p H x a. split.
  - intros (a1 & a2 & E & M). apply H in M. destruct M as (c & -> & Hc). injection E as -> _. exact Hc.
  - intros Hx. exists [x], a. split; [reflexivity|]. apply H. eauto.
Qed.
Lemma starts_single_nil : forall r p, single r p -> ~ starts_with r [].
Proof. intros r p H (a1 & a2 & E & M). apply H in M. destruct M as (c & -> & _). discriminate. Qed.
Lemma starts_cat_single : forall r p, single r p -> forall s x a, starts_with (Cat r s) (x :: a) <-> p x = true /\ starts_with s a.
Proof.
  intros r p H s x a. split.
  - intros (a1 & a2 & E & M). apply matches_cat in M. destruct M as (t1 & t2 & -> & M1 & M2).
    apply H in M1. destruct M1 as (c & -> & Hc). injection E as -> ->. split; [exact Hc|]. exists t2, a2. auto.
  - intros (Hx & a1 & a2 & -> & M). exists ([x] ++ a1), a2. split; [reflexivity|]. constructor; [apply H; eauto|exact M].
Qed.
Lemma starts_cat_single_nil : forall r p, single r p -> forall s, ~ starts_with (Cat r s) [].
Proof.
  intros r p H s (a1 & a2 & E & M). apply matches_cat in M. destruct M as (t1 & t2 & -> & M1 & M2).
  apply H in M1. destruct M1 as (c & -> & Hc). discriminate.
Qed.
Lemma starts_star_cat : forall r p, single r p -> forall s x a,
  starts_with (Cat (Star r) s) (x :: a) <-> starts_with s (x :: a) \/ (p x = true /\ starts_with (Cat (Star r) s) a).
Proof.
  intros r p H s x a. split.
  - intros (a1 & a2 & E & M). apply matches_cat in M. destruct M as (t1 & t2 & -> & M1 & M2).
    apply (star_single _ _ H) in M1. destruct t1 as [|y t1].
    + left. exists t2, a2. auto.
    + right. injection E as -> ->. split; [exact (Forall_inv M1)|]. exists (t1 ++ t2), a2. split; [reflexivity|].
      constructor; [|exact M2]. apply (star_single _ _ H). exact (Forall_inv_tail M1).
  - intros [(a1 & a2 & E & M)|(Hx & a1 & a2 & -> & M)].
    + exists ([] ++ a1), a2. split; [exact E|]. constructor; [constructor|exact M].
    + apply matches_cat in M. destruct M as (t1 & t2 & -> & M1 & M2). exists (([x] ++ t1) ++ t2), a2. split; [reflexivity|].
      constructor; [|exact M2]. constructor; [apply H; eauto|exact M1].
Qed.
Lemma starts_star_cat_nil : forall r s, starts_with (Cat (Star r) s) [] <-> starts_with s [].
Proof.
  intros r s. split.
  - intros (a1 & a2 & E & M). apply matches_cat in M. destruct M as (t1 & t2 & -> & M1 & M2).
    destruct t1, t2; try discriminate. exists [], []. auto.
  - intros (a1 & a2 & E & M). exists ([] ++ a1), a2. split; [exact E|]. constructor; [constructor|exact M].
Qed.

(** ** Trailing runs and their parity *)
Definition trun (p : N -> bool) (b : text) : nat := fold_left (fun n c => if p c then S n else 0) b 0.
Lemma trun_snoc : forall p b x, trun p (b ++ [x]) = if p x then S (trun p b) else 0.
Proof. intros. unfold trun. rewrite fold_left_app. reflexivity. Qed.
Lemma trun_split : forall p b, exists b1 b2, b = b1 ++ b2 /\ length b2 = trun p b /\ Forall (fun c => p c = true) b2
  /\ (b1 = [] \/ exists b0 y, b1 = b0 ++ [y] /\ p y = false).
Proof.
  intros p b. induction b as [|x b IH] using rev_ind.
  { exists [], []. repeat split; auto. }
  rewrite trun_snoc. destruct IH as (b1 & b2 & E & L & F & T). destruct (p x) eqn:Ex.
  - exists b1, (b2 ++ [x]). repeat split; auto.
    + rewrite app_assoc, <- E. reflexivity.
    + rewrite app_length. simpl. lia.
    + apply Forall_app. auto.
  - exists (b ++ [x]), []. rewrite app_nil_r. repeat split; auto. right. eauto.
Qed.

Lemma pairs_match : forall r p, single r p -> forall t,
  matches (Cat (Star (Cat r r)) r) t <-> Forall (fun c => p c = true) t /\ Nat.odd (length t) = true.
Proof.
  intros r p H t. split.
  - intros M. apply matches_cat in M. destruct M as (t1 & t2 & -> & M1 & M2). apply H in M2. destruct M2 as (c & -> & Hc).
    assert (HE : Forall (fun c => p c = true) t1 /\ Nat.even (length t1) = true).
    { remember (Star (Cat r r)) as s eqn:Es. induction M1; inversion Es; subst; [split; [constructor|reflexivity]|].
      destruct (IHM1_2 eq_refl) as [F E]. apply matches_cat in M1_1. destruct M1_1 as (u1 & u2 & -> & A & B).
      apply H in A, B. destruct A as (c1 & -> & A), B as (c2 & -> & B). split; [|exact E].
      cbn [app]. auto. }
    destruct HE as [F E]. split; [apply Forall_app; auto|]. rewrite app_length. cbn [length].
    rewrite Nat.add_1_r, Nat.odd_succ. exact E.
  - intros [F O]. remember (length t) as n eqn:En. revert t F En. induction n as [n IH] using (well_founded_induction Wf_nat.lt_wf).
    intros t F En. destruct t as [|x [|y t]].
    + subst n. discriminate.
    + inversion F; subst. change [x] with ([] ++ [x]). constructor; [constructor|]. apply H. eauto.
    + inversion F as [|? ? Hx F1]; subst. inversion F1 as [|? ? Hy F2]; subst.
      assert (M : matches (Cat (Star (Cat r r)) r) t) by (apply (IH (length t)); [simpl; lia | exact O | exact F2 | reflexivity]).
      apply matches_cat in M. destruct M as (t1 & t2 & -> & M1 & M2).
      change (x :: y :: t1 ++ t2) with ((([x] ++ [y]) ++ t1) ++ t2). constructor; [|exact M2]. constructor; [|exact M1].
      constructor; apply H; eauto.
Qed.

(** sot (RI RI)* RI, or [^RI] (RI RI)* RI: the trailing run is odd. *)
Lemma odd_run : forall r p nr, single r p -> single nr (fun c => negb (p c)) -> forall b,
  (matches (Cat (Star (Cat r r)) r) b \/ ends_with (Cat nr (Cat (Star (Cat r r)) r)) b) <-> Nat.odd (trun p b) = true.
Proof.
  intros r p nr H Hn b. destruct (trun_split p b) as (b1 & b2 & E & L & F & T). split.
  - intros [M|(c1 & c2 & E2 & M)].
    + apply (pairs_match _ _ H) in M. destruct M as [F2 O].
      assert (b1 = []) as ->.
      { destruct T as [->|(b0 & y & -> & Hy)]; [reflexivity|]. rewrite E in F2. rewrite <- app_assoc in F2.
        apply Forall_app in F2. destruct F2 as [_ F2]. inversion F2; subst. congruence. }
      cbn [app] in E. subst b2. rewrite L in O. exact O.
    + apply matches_cat in M. destruct M as (t1 & t2 & -> & M1 & M2). apply Hn in M1. destruct M1 as (c & -> & Hc).
      apply (pairs_match _ _ H) in M2. destruct M2 as [F2 O]. apply negb_true_iff in Hc.
      assert (HT : trun p b = length t2).
      { rewrite E2. clear - F2 Hc. induction t2 as [|x t2 IH] using rev_ind.
        - rewrite app_nil_r. rewrite trun_snoc, Hc. reflexivity.
        - apply Forall_app in F2. destruct F2 as [F2 Fx]. apply Forall_inv in Fx.
          rewrite !app_assoc. rewrite trun_snoc, Fx, app_length. rewrite <- !app_assoc. rewrite IH by exact F2. simpl. lia. }
      rewrite HT. exact O.
  - intros O. rewrite <- L in O. destruct T as [->|(b0 & y & -> & Hy)].
    + left. cbn [app] in E. subst b. apply (pairs_match _ _ H). auto.
    + right. exists b0, ([y] ++ b2). rewrite <- app_assoc in E. split; [exact E|]. constructor.
      * apply Hn. exists y. rewrite Hy. auto.
      * apply (pairs_match _ _ H). auto.
Qed.

(** ** Rule lists *)
Fixpoint cascade (cs : list (bool * op)) : option op :=
  match cs with [] => None | (c, o) :: r => if c then Some o else cascade r end.

Lemma says_cascade : forall b a rs cs,
  Forall2 (fun r co => (applies r b a <-> fst co = true) /\ r_op r = snd co) rs cs -> says b a rs (cascade cs).
Proof.
  intros b a rs cs H. induction H as [|r [c o] rs cs [H1 H2] H IH]; [constructor|]. cbn [cascade fst snd] in *.
  destruct c.
  - subst o. constructor. apply H1. reflexivity.
  - constructor; [|exact IH]. intros Ha. apply H1 in Ha. discriminate.
Qed.
Lemma says_fun : forall b a rs v1 v2, says b a rs v1 -> says b a rs v2 -> v1 = v2.
Proof.
  intros b a rs v1 v2 H. revert v2. induction H; intros v2 H2; inversion H2; subst; auto; contradiction.
Qed.

(** The two halves of the parity rules, separately. *)
Lemma sot_pairs : forall r p, single r p -> forall b,
  matches (Cat (Star (Cat r r)) r) b <-> forallb p b && Nat.odd (length b) = true.
Proof.
  intros r p H b. rewrite (pairs_match _ _ H), andb_true_iff, forallb_forall, Forall_forall. reflexivity.
Qed.
Lemma trun_all : forall p b, forallb p b = true -> trun p b = length b.
Proof.
  intros p b. induction b as [|x b IH] using rev_ind; [reflexivity|]. rewrite forallb_app, trun_snoc, app_length.
  cbn [forallb length]. rewrite andb_true_r. intros H. apply andb_prop in H. destruct H as [H1 H2]. rewrite H2, IH by exact H1. lia.
Qed.
Lemma suffix_pairs : forall r p nr, single r p -> single nr (fun c => negb (p c)) -> forall b,
  ends_with (Cat nr (Cat (Star (Cat r r)) r)) b <-> Nat.odd (trun p b) && negb (forallb p b) = true.
Proof.
  intros r p nr H Hn b. split.
  - intros M. pose proof (proj1 (odd_run r p nr H Hn b) (or_intror M)) as O. rewrite O. cbn [andb].
    destruct M as (b1 & b2 & -> & M). apply matches_cat in M. destruct M as (t1 & t2 & -> & M1 & M2).
    apply Hn in M1. destruct M1 as (c & -> & Hc). apply negb_true_iff in Hc. apply negb_true_iff.
    rewrite !forallb_app. cbn [forallb]. rewrite Hc. cbn [andb]. apply andb_false_r.
  - intros B. apply andb_prop in B. destruct B as [O F]. apply (odd_run r p nr H Hn b) in O. destruct O as [M|M]; [|exact M].
    apply (sot_pairs _ _ H) in M. apply andb_prop in M. destruct M as [M _]. rewrite M in F. discriminate.
Qed.
Lemma pairs_either : forall p b, (forallb p b && Nat.odd (length b)) || (Nat.odd (trun p b) && negb (forallb p b)) = Nat.odd (trun p b).
Proof.
  intros p b. destruct (forallb p b) eqn:F; cbn [andb orb negb].
  - rewrite (trun_all _ _ F). rewrite andb_false_r, orb_false_r. reflexivity.
  - apply andb_true_r.
Qed.
