(** Patterns, rules and segmentations of texts that differ in how their lines end. *)
From Verif Require Import Base ListFacts SpecRules SegFacts RuleFacts SpecEndings CanonSeg.
From Verif Require HangulFacts.
Local Open Scope N_scope.

Definition ender (X : text) : Prop := X <> [] /\ Forall (fun c => ends_line c = true) X.
Lemma ender_last : forall X, ender X -> exists l x, X = l ++ [x] /\ ends_line x = true.
Proof. intros X (N1 & F). destruct (exists_last N1) as (l & x & ->). exists l, x. apply Forall_app in F. split; [reflexivity|exact (Forall_inv (proj2 F))]. Qed.
Lemma in_enders : forall c, ends_line c = true -> In c line_ends.
Proof. intros c H. apply existsb_exists in H. destruct H as (x & I & E). apply N.eqb_eq in E. subst x. exact I. Qed.

(** A class without line ends, and patterns made of such classes. *)
Definition off (p : N -> bool) : Prop := forallb (fun c => negb (p c)) line_ends = true.
Lemma off_at : forall p c, off p -> ends_line c = true -> p c = false.
Proof. intros p c H E. apply negb_true_iff. exact (proj1 (forallb_forall _ _) H c (in_enders c E)). Qed.
Fixpoint lineless (r : re) : Prop := match r with Eps => True | Cls p => off p | Cat r s | Alt r s => lineless r /\ lineless s | Star r => lineless r end.
Lemma lineless_match : forall r t, matches r t -> lineless r -> Forall (fun c => ends_line c = false) t.
Proof.
  intros r t M. induction M; cbn [lineless]; intros F; try (constructor; fail); try (destruct F; auto; fail).
  - constructor; [|constructor]. destruct (ends_line c) eqn:E; [|reflexivity]. rewrite (off_at p c F E) in H. discriminate.
  - destruct F as (F1 & F2). apply Forall_app. auto.
  - apply Forall_app. auto.
Qed.
Lemma suffix_of : forall (u X b b1 w : text), ender X -> u ++ X ++ b = b1 ++ w -> Forall (fun c => ends_line c = false) w -> exists b0, b = b0 ++ w /\ b1 = u ++ X ++ b0.
Proof.
  intros u X b b1 w EX E F. rewrite app_assoc in E. destruct (prefix_cmp _ _ _ _ E) as [(e & -> & ->)|(e & E1 & ->)]; [exists e; rewrite app_assoc; auto|].
  destruct (ender_last X EX) as (l & x & -> & Hx). destruct e as [|y e] using rev_ind; [exists []; rewrite !app_nil_r in *; auto|]. clear IHe. rewrite !app_assoc in E1. apply app_inj_tail in E1. destruct E1 as (_ & <-).
  apply Forall_app in F. destruct F as (F & _). apply Forall_app in F. destruct F as (_ & F). apply Forall_inv in F. congruence.
Qed.
Lemma prefix_of : forall (a X v w a2 : text), ender X -> a ++ X ++ v = w ++ a2 -> Forall (fun c => ends_line c = false) w -> exists a0, a = w ++ a0.
Proof.
  intros a X v w a2 (N1 & FX) E F. destruct (prefix_cmp _ _ _ _ E) as [(e & -> & E1)|(e & -> & _)]; [|eauto]. destruct e as [|y e]; [exists []; rewrite !app_nil_r; reflexivity|]. destruct X as [|x X]; [contradiction|]. injection E1 as <- _.
  apply Forall_app in F. destruct F as (_ & F). apply Forall_inv in F. apply Forall_inv in FX. congruence.
Qed.
Lemma ends_lineless : forall r u X b, lineless r -> ender X -> ends_with r (u ++ X ++ b) <-> ends_with r b.
Proof.
  intros r u X b L EX. split.
  - intros (b1 & b2 & E & M). destruct (suffix_of _ _ _ _ _ EX E (lineless_match _ _ M L)) as (b0 & -> & _). exists b0, b2. auto.
  - intros (b1 & b2 & -> & M). exists (u ++ X ++ b1), b2. rewrite <- !app_assoc. auto.
Qed.
Lemma starts_lineless : forall r a X v, lineless r -> ender X -> starts_with r (a ++ X ++ v) <-> starts_with r a.
Proof.
  intros r a X v L EX. split.
  - intros (a1 & a2 & E & M). destruct (prefix_of _ _ _ _ _ EX E (lineless_match _ _ M L)) as (a0 & ->). exists a1, a0. auto.
  - intros (a1 & a2 & -> & M). exists a1, (a2 ++ X ++ v). rewrite <- app_assoc. auto.
Qed.

Definition lok (r : re) : Prop := forall u X Y b, ender X -> ender Y -> b <> [] -> ends_with r (u ++ X ++ b) -> ends_with r (u ++ Y ++ b).
Definition rok (r : re) : Prop := forall a X Y v, ender X -> ender Y -> a <> [] -> starts_with r (a ++ X ++ v) -> starts_with r (a ++ Y ++ v).
Lemma lok_lineless : forall r, lineless r -> lok r.
Proof. intros r L u X Y b EX EY _ H. apply (ends_lineless r u Y b L EY). exact (proj1 (ends_lineless r u X b L EX) H). Qed.
Lemma rok_lineless : forall r, lineless r -> rok r.
Proof. intros r L a X Y v EX EY _ H. apply (starts_lineless r a Y v L EY). exact (proj1 (starts_lineless r a X v L EX) H). Qed.
Lemma lok_single : forall r p, single r p -> lok r.
Proof. intros r p S u X Y b EX EY N1 H. destruct (exists_last N1) as (b' & y & ->). rewrite !app_assoc in *. apply (ends_single r p S). exact (proj1 (ends_single r p S _ _) H). Qed.
Lemma rok_single : forall r p, single r p -> rok r.
Proof. intros r p S a X Y v EX EY N1 H. destruct a as [|y a]; [contradiction|]. cbn [app] in *. apply (starts_single r p S). exact (proj1 (starts_single r p S _ _) H). Qed.
Lemma lok_after : forall s p r, single s p -> (forall c, ends_line c = true -> p c = true) -> lineless r -> lok (Cat s r).
Proof.
  intros s p r S P L u X Y b EX EY _ H. apply HangulFacts.ends_cat in H. destruct H as (b1 & w & E & M & H). destruct (suffix_of _ _ _ _ _ EX E (lineless_match _ _ M L)) as (b0 & -> & ->).
  apply HangulFacts.ends_cat. exists (u ++ Y ++ b0), w. split; [rewrite <- !app_assoc; reflexivity|]. split; [exact M|]. destruct b0 as [|y b0] using rev_ind.
  - destruct (ender_last Y EY) as (l & x & -> & Hx). rewrite app_nil_r, app_assoc. apply (ends_single s p S). exact (P x Hx).
  - clear IHb0. rewrite !app_assoc in *. apply (ends_single s p S). exact (proj1 (ends_single s p S _ _) H).
Qed.
Lemma lok_opt : forall r s p, single s p -> lineless r -> lok (Cat r (Opt s)).
Proof.
  intros r s p S L u X Y b EX EY N1 H. apply ends_cat_opt in H. apply ends_cat_opt. destruct H as [H|H]; [left; exact (lok_lineless r L u X Y b EX EY N1 H)|right].
  destruct (exists_last N1) as (b' & y & ->). rewrite !app_assoc in *. apply (ends_cat_single s p S) in H. apply (ends_cat_single s p S). destruct H as (H1 & H2). split; [exact H1|]. rewrite <- !app_assoc in *. apply (ends_lineless r u Y b' L EY). exact (proj1 (ends_lineless r u X b' L EX) H2).
Qed.

Definition okrule (r : rule) : Prop := (match r_left r with Suffix l => lok l | Sot l => lineless l end) /\ rok (r_right r).
Lemma sot_not : forall r u X b, lineless r -> ender X -> ~ matches r (u ++ X ++ b).
Proof.
  intros r u X b L EX M. pose proof (lineless_match _ _ M L) as F. destruct (ender_last X EX) as (l & x & -> & Hx). apply Forall_app in F. destruct F as (_ & F). apply Forall_app in F. destruct F as (F & _). apply Forall_app in F. destruct F as (_ & F). apply Forall_inv in F. congruence.
Qed.
Lemma applies_left : forall r u X Y b a, okrule r -> ender X -> ender Y -> b <> [] -> applies r (u ++ X ++ b) a -> applies r (u ++ Y ++ b) a.
Proof.
  intros r u X Y b a (L & _) EX EY N1 (H1 & H2). split; [|exact H2]. destruct (r_left r) as [l|l]; cbn [left_applies] in *; [exact (L u X Y b EX EY N1 H1)|]. destruct (sot_not l u X b L EX H1).
Qed.
Lemma applies_right : forall r b a X Y v, okrule r -> ender X -> ender Y -> a <> [] -> applies r b (a ++ X ++ v) -> applies r b (a ++ Y ++ v).
Proof. intros r b a X Y v (_ & R) EX EY N1 (H1 & H2). split; [exact H1|exact (R a X Y v EX EY N1 H2)]. Qed.
Lemma says_same : forall rs b a b' a' o, Forall (fun r => applies r b a <-> applies r b' a') rs -> says b a rs o -> says b' a' rs o.
Proof.
  intros rs b a b' a' o F S. induction S as [|r rs A|r rs v A S IH]; [constructor|constructor; exact (proj1 (Forall_inv F) A)|]. constructor; [intros H; exact (A (proj2 (Forall_inv F) H))|exact (IH (Forall_inv_tail F))].
Qed.
Lemma says_left : forall rs u X Y b a o, Forall okrule rs -> ender X -> ender Y -> b <> [] -> says (u ++ X ++ b) a rs o -> says (u ++ Y ++ b) a rs o.
Proof. intros rs u X Y b a o F EX EY N1. apply says_same. eapply Forall_impl; [|exact F]. intros r O. split; apply applies_left; assumption. Qed.
Lemma says_right : forall rs b a X Y v o, Forall okrule rs -> ender X -> ender Y -> a <> [] -> says b (a ++ X ++ v) rs o -> says b (a ++ Y ++ v) rs o.
Proof. intros rs b a X Y v o F EX EY N1. apply says_same. eapply Forall_impl; [|exact F]. intros r O. split; apply applies_right; assumption. Qed.
Lemma says_none_not : forall b a rs, says b a rs None -> Forall (fun r => ~ applies r b a) rs.
Proof. intros b a rs S. remember None as o eqn:E. induction S; [constructor|discriminate|constructor; auto]. Qed.

Lemma last_some : forall (b : text) d, last_char (d :: b) = None -> False.
Proof. induction b as [|c b IH]; intros d H; [discriminate|exact (IH c H)]. Qed.
Section Reduced.
  Variables ign keep : N -> bool.
  Hypothesis hi : off ign.
  Hypothesis hk : forallb keep line_ends = true.
  Lemma keeps_line : forall c, ends_line c = true -> keep c = true.
  Proof. intros c H. exact (proj1 (forallb_forall _ _) hk c (in_enders c H)). Qed.
  Lemma reduce_kept : forall c d t, keep c = keep d -> reduce ign keep (Some c) t = reduce ign keep (Some d) t.
  Proof. intros c d [|x t] E; [reflexivity|]. cbn [reduce]. rewrite E. reflexivity. Qed.
  Lemma reduce_ender : forall X p v, ender X -> reduce ign keep p (X ++ v) = X ++ reduce ign keep (Some 10) v.
  Proof.
    intros X. induction X as [|c X IH]; intros p v (N1 & F); [contradiction|]. pose proof (Forall_inv F) as Hc. cbv beta in Hc. cbn [app reduce]. rewrite (off_at ign c hi Hc). cbn [andb]. f_equal.
    destruct X as [|d X]; [cbn [app]; apply reduce_kept; rewrite (keeps_line c Hc); symmetry; apply keeps_line; reflexivity|]. apply IH. split; [discriminate|exact (Forall_inv_tail F)].
  Qed.
  Lemma reduce_mid : forall a p X v, ender X -> reduce ign keep p (a ++ X ++ v) = reduce ign keep p a ++ X ++ reduce ign keep (Some 10) v.
  Proof. induction a as [|c a IH]; intros p X v EX; cbn [app reduce]; [apply reduce_ender; exact EX|]. destruct (ign c && _); rewrite (IH _ X v EX); reflexivity. Qed.
  Lemma reduce_first : forall b, b <> [] -> reduce ign keep (Some 10) b <> [].
  Proof. intros [|c b] N1; [contradiction|]. cbn [reduce]. rewrite (keeps_line 10 eq_refl). cbn [negb]. rewrite andb_false_r. discriminate. Qed.
  Lemma reduce_last : forall b y, ign y = false -> reduce ign keep None (b ++ [y]) = reduce ign keep None b ++ [y].
  Proof. intros b y H. generalize (@None N). induction b as [|c b IH]; intros p; cbn [app reduce]; [rewrite H; reflexivity|]. destruct (ign c && _); rewrite IH; reflexivity. Qed.
  (** What is left of a text that does not end in a line end does not end in one. *)
  Lemma reduce_ends : forall b p, match last_char b with Some y => keep y = false | None => match p with Some y => keep y = false | None => True end end ->
    forall b' y, reduce ign keep p b = b' ++ [y] -> keep y = true -> False.
  Proof.
    induction b as [|c b IH]; intros p H b' y E K; [destruct b'; discriminate|]. cbn [reduce] in E.
    assert (H' : match last_char b with Some y => keep y = false | None => keep c = false end) by (destruct b as [|d b]; [exact H|]; change (last_char (c :: d :: b)) with (last_char (d :: b)) in H; destruct (last_char (d :: b)) eqn:Z; [exact H|destruct (last_some _ _ Z)]).
    destruct (ign c && _); [exact (IH (Some c) H' b' y E K)|]. destruct b' as [|d b']; cbn [app] in E.
    - injection E as -> E. destruct b as [|e b]; [cbn in H'; congruence|]. cbn [reduce] in E. rewrite K in E. cbn [negb] in E. rewrite andb_false_r in E. discriminate.
    - injection E as _ E. exact (IH (Some c) H' b' y E K).
  Qed.
End Reduced.
