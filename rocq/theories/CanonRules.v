(** Canonical equivalence and the rules of the four packages. *)
From Verif Require Import Base ListFacts SpecUcd SpecUtf8 SpecRules SegFacts SpecSame SameFacts SameRules SpecMarks MarkFacts MarkRules CanonSeg Trie Lk Engine SpecLookup UcdGraphemes RuleFacts BitFacts.
From Verif Require SpecGraphemes SpecWords SpecSentences TableGraphemes Graphemes GraphemesConform.

(** Writing [Y] for [X] anywhere moves no boundary and puts none inside. *)
Definition placed (D : text -> text -> op -> Prop) (X Y : text) : Prop :=
  X <> [] /\ Y <> [] /\ forall u v,
  (forall x1 x2, X = x1 ++ x2 -> x1 <> [] -> x2 <> [] -> ~ D (u ++ x1) (x2 ++ v) Break) /\
  (forall y1 y2, Y = y1 ++ y2 -> y1 <> [] -> y2 <> [] -> ~ D (u ++ y1) (y2 ++ v) Break) /\
  (forall b a, b <> [] -> u = b ++ a -> D b (a ++ X ++ v) Break <-> D b (a ++ Y ++ v) Break) /\
  (forall b a, a <> [] -> v = b ++ a -> D (u ++ X ++ b) a Break <-> D (u ++ Y ++ b) a Break).
Lemma placed_change : forall D X Y, placed D X Y -> forall u v segs, segmentation D (u ++ X ++ v) segs ->
  exists s1 p q s2, segs = s1 ++ [p ++ X ++ q] ++ s2 /\ segmentation D (u ++ Y ++ v) (s1 ++ [p ++ Y ++ q] ++ s2).
Proof. intros D X Y (NX & NY & H) u v. destruct (H u v) as (H1 & H2 & H3 & H4). exact (local_change D u X Y v NX NY H1 H2 H3 H4). Qed.

Lemma one_inside : forall (c : N) x1 x2, [c] = x1 ++ x2 -> x1 <> [] -> x2 <> [] -> False.
Proof. intros c [|x [|]] x2 E N1 N2; try discriminate; [contradiction|]. injection E as _ E. destruct x2; [contradiction|discriminate]. Qed.

(** A character and marks, in general: the rules that skip marks. *)
Section Marked.
  Variable D0 : text -> text -> op -> Prop.
  Variables mk tk : N -> Prop.
  Variable R : N -> N -> Prop.
  Hypothesis rr : forall c, R c c.
  Hypothesis rs : forall x y, R x y -> R y x.
  Hypothesis resp : forall b a o b' a', Forall2 R b b' -> Forall2 R a a' -> D0 b a o -> D0 b' a' o.
  Hypothesis says : forall b a, Forall (ok mk tk) b -> Forall (ok mk tk) a -> D0 (B b) (B a) Break <-> D0 (D b) (D a) Break.
  Hypothesis inner : forall b y m a, tk y \/ mk y -> mk m -> ~ D0 (b ++ [y]) (m :: a) Break.

  Definition bare (t : text) : list (N * list N) := map (fun c => (c, [])) t.
  Lemma bare_ok : forall t, Forall (ok mk tk) (bare t).
  Proof. intros t. unfold bare. apply Forall_map, Forall_forall. intros c _. split; [left; reflexivity|constructor]. Qed.
  Lemma bare_B : forall t, B (bare t) = t.
  Proof. intros t. unfold B, bare. rewrite map_map. apply map_id. Qed.
  Lemma bare_D : forall t, D (bare t) = t.
  Proof. induction t as [|c t IH]; [reflexivity|]. cbn [bare map]. rewrite D_cons. cbn [fst snd app]. f_equal. exact IH. Qed.
  Lemma refl2 : forall t, Forall2 R t t.
  Proof. induction t; constructor; auto. Qed.
  Lemma swap_R : forall u x y v, R x y -> Forall2 R (u ++ x :: v) (u ++ y :: v).
  Proof. intros u x y v H. apply Forall2_app; [apply refl2|]. constructor; [exact H|apply refl2]. Qed.
  Lemma resp_iff : forall b a b' a', Forall2 R b b' -> Forall2 R a a' -> D0 b a Break <-> D0 b' a' Break.
  Proof. intros b a b' a' Fb Fa. split; apply resp; auto; apply rel_sym; auto. Qed.

  Lemma inside_marks : forall u y ms y1 y2 v, tk y \/ mk y -> Forall mk ms -> y :: ms = y1 ++ y2 -> y1 <> [] -> y2 <> [] -> ~ D0 (u ++ y1) (y2 ++ v) Break.
  Proof.
    intros u y ms y1 y2 v T M E N1 N2. destruct y2 as [|m y2]; [contradiction|]. destruct (exists_last N1) as (l & z & ->). rewrite app_assoc. cbn [app].
    destruct l as [|y' l]; cbn [app] in E; injection E as <- E.
    - apply inner; [exact T|]. subst ms. exact (Forall_inv M).
    - subst ms. rewrite <- app_assoc in M. apply Forall_app in M. destruct M as (_ & M). cbn [app] in M. apply inner; [right; exact (Forall_inv M)|exact (Forall_inv (Forall_inv_tail M))].
  Qed.
  Lemma placed_marks : forall c a ms, R c a -> tk a \/ ms = [] -> Forall mk ms -> placed D0 [c] (a :: ms).
  Proof.
    intros c a ms H T M. split; [discriminate|]. split; [discriminate|]. intros u v. split; [|split; [|split]].
    - intros x1 x2 E N1 N2. destruct (one_inside c x1 x2 E N1 N2).
    - intros y1 y2 E N1 N2. destruct T as [T| ->]; [|destruct (one_inside a y1 y2 E N1 N2)]. exact (inside_marks u a ms y1 y2 v (or_introl T) M E N1 N2).
    - intros b e _ ->. transitivity (D0 b (e ++ a :: v) Break); [apply resp_iff; [apply refl2|exact (swap_R e c a v H)]|].
      assert (O : Forall (ok mk tk) (bare e ++ (a, ms) :: bare v)).
      { apply Forall_app. split; [apply bare_ok|]. apply Forall_cons; [|apply bare_ok]. split; [cbn; tauto|exact M]. }
      pose proof (says (bare b) _ (bare_ok b) O) as S. rewrite B_app, D_app', D_cons, !bare_B, !bare_D in S. cbn [B map fst snd] in S. fold (B (bare v)) in S. rewrite bare_B in S. exact S.
    - intros b e _ ->. transitivity (D0 (u ++ a :: b) e Break); [apply resp_iff; [exact (swap_R u c a b H)|apply refl2]|].
      assert (O : Forall (ok mk tk) (bare u ++ (a, ms) :: bare b)).
      { apply Forall_app. split; [apply bare_ok|]. apply Forall_cons; [|apply bare_ok]. split; [cbn; tauto|exact M]. }
      pose proof (says _ (bare e) O (bare_ok e)) as S. rewrite B_app, D_app', D_cons, !bare_B, !bare_D in S. cbn [B map fst snd] in S. fold (B (bare b)) in S. rewrite bare_B in S. exact S.
  Qed.
  Lemma placed_swap : forall x y, R x y -> mk x -> mk y -> placed D0 [x; y] [y; x].
  Proof.
    intros x y H Mx My. split; [discriminate|]. split; [discriminate|]. intros u v.
    assert (F : Forall2 R [x; y] [y; x]) by (repeat constructor; auto). split; [|split; [|split]].
    - intros x1 x2 E. apply (inside_marks u x [y]); auto.
    - intros x1 x2 E. apply (inside_marks u y [x]); auto.
    - intros b e _ ->. apply resp_iff; [apply refl2|]. apply Forall2_app; [apply refl2|]. apply Forall2_app; [exact F|apply refl2].
    - intros b e _ ->. apply resp_iff; [|apply refl2]. apply Forall2_app; [apply refl2|]. apply Forall2_app; [exact F|apply refl2].
  Qed.
End Marked.

Lemma w_refl : forall c, same_word c c. Proof. split; reflexivity. Qed.
Lemma s_refl : forall c, same_sentence c c. Proof. reflexivity. Qed.

(** Graphemes, by the automaton that reads the text before a position. *)
Section GP.
  Import SpecGraphemes TableGraphemes Graphemes GraphemesConform.
  Local Open Scope N_scope.
  Definition special : N := N.lor _Ctl (N.lor _L (N.lor _V (N.lor _LV (N.lor _LVT (N.lor _T _Prepend))))).
  Definition neutral (l : N) : bool := negb (is l special).
  Definition alike (t t' : gtrack) : Prop := t_cons t = t_cons t' /\ t_link t = t_link t' /\ t_pict t = t_pict t' /\ t_zwj t = t_zwj t' /\ t_run t = t_run t'
    /\ (t_last t = t_last t' \/ (neutral (t_last t) = true /\ neutral (t_last t') = true)).
  Lemma alike_step : forall t t' x, alike t t' -> alike (gstep t x) (gstep t' x).
  Proof. intros t t' x (A & B & C & D & E & _). unfold alike, gstep. cbn [t_cons t_link t_pict t_zwj t_run t_last]. rewrite A, B, C, E. repeat split; auto. Qed.
  Lemma alike_fold : forall b t t', alike t t' -> alike (fold_left gstep b t) (fold_left gstep b t').
  Proof. induction b as [|x b IH]; intros t t' H; [exact H|]. cbn [fold_left]. apply IH, alike_step. exact H. Qed.
  Lemma neutral_is : forall l, neutral l = true -> is l _CR = false /\ is l _Ctl = false /\ is l _L = false /\ is l (N.lor _LV _V) = false /\ is l (N.lor _LVT _T) = false /\ is l _Prepend = false.
  Proof.
    intros l H. unfold neutral, special, _Ctl in *. apply negb_true_iff in H. rewrite !is_lor_r in *. repeat match type of H with _ || _ = false => apply orb_false_elim in H; let X := fresh "X" in destruct H as (X & H); try (apply orb_false_elim in X; let Y := fresh "Y" in destruct X as (Y & X)); try (apply orb_false_elim in X; let Y := fresh "Y" in destruct X as (Y & X)) end.
    repeat match goal with E : is l _ = false |- _ => rewrite E; clear E end. auto 10.
  Qed.
  Lemma alike_dec : forall t t' c, alike t t' -> gdec t c = gdec t' c.
  Proof.
    intros t t' c (A & B & C & D & E & L). unfold gdec. rewrite B, D, E. destruct L as [->|(L1 & L2)]; [reflexivity|].
    destruct (neutral_is _ L1) as (-> & -> & -> & -> & -> & ->). destruct (neutral_is _ L2) as (-> & -> & -> & -> & -> & ->). reflexivity.
  Qed.
  Lemma decides_iff : forall b x y a, grapheme_decides (b ++ [x]) (y :: a) Break <-> gdec (gtr (b ++ [x])) (P y) = Break.
  Proof.
    intros b x y a. pose proof (g_spec b x y a) as S. split; intros H.
    - pose proof (says_fun _ _ _ _ _ H S) as E. injection E as E. symmetry. exact E.
    - rewrite H in S. exact S.
  Qed.
  Lemma gtr_app : forall b a, gtr (b ++ a) = fold_left gstep a (gtr b).
  Proof. intros. unfold gtr. apply fold_left_app. Qed.
  (** The text before counts for no more than the automaton keeps. *)
  Lemma left_alike : forall b b' a, b <> [] -> b' <> [] -> a <> [] -> alike (gtr b) (gtr b') -> grapheme_decides b a Break <-> grapheme_decides b' a Break.
  Proof.
    intros b b' a N1 N2 N3 H. destruct a as [|y a]; [contradiction|]. destruct (exists_last N1) as (l & x & ->). destruct (exists_last N2) as (l' & x' & ->). rewrite !decides_iff, (alike_dec _ _ (P y) H). reflexivity.
  Qed.
  Lemma right_alike : forall b y y' a a', b <> [] -> P y = P y' -> grapheme_decides b (y :: a) Break <-> grapheme_decides b (y' :: a') Break.
  Proof. intros b y y' a a' N1 H. destruct (exists_last N1) as (l & x & ->). rewrite !decides_iff, H. reflexivity. Qed.

  Definition g_mark (c : N) : Prop := GCB c = GCB_Extend /\ (InCB c = InCB_Extend \/ InCB c = InCB_Linker) /\ ExtPict c = false.
  Definition g_takes (c : N) : Prop := GCB c = GCB_Other \/ GCB c = GCB_Extend \/ GCB c = GCB_SpacingMark.
  Lemma mark_neutral : forall m, g_mark m -> neutral (P m) = true.
  Proof. intros m (G & [I|I] & X); unfold graphemes_property; rewrite G, I, X; reflexivity. Qed.
  Lemma takes_neutral : forall c, g_takes c -> neutral (P c) = true /\ is (P c) _ZWJ = false /\ is (P c) _RegionalIndicator = false.
  Proof. intros c [G|[G|G]]; unfold graphemes_property; rewrite G; destruct (InCB c), (ExtPict c); split; try split; reflexivity. Qed.
  Lemma mark_step : forall t m, g_mark m -> gstep t m = {| t_last := P m; t_cons := t_cons t; t_link := is (P m) _InCBLinker && t_cons t || t_link t; t_pict := t_pict t; t_zwj := false; t_run := 0 |}.
  Proof. intros t m (G & [I|I] & X); unfold gstep, graphemes_property; rewrite G, I, X; cbn; destruct (t_cons t), (t_link t), (t_pict t); reflexivity. Qed.
  Lemma mark_join : forall b x m a, g_mark m -> g_takes x -> ~ grapheme_decides (b ++ [x]) (m :: a) Break.
  Proof.
    intros b x m a (G & I & X) T H. apply decides_iff in H. unfold gdec in H. rewrite gtr_last in H. destruct (takes_neutral x T) as (Nx & _). destruct (neutral_is _ Nx) as (E1 & E2 & _). rewrite E1, E2 in H.
    revert H. unfold graphemes_property. rewrite G, X. destruct I as [->| ->]; cbn; discriminate.
  Qed.
  Lemma mark_takes : forall m, g_mark m -> g_takes m. Proof. intros m (G & _). right. left. exact G. Qed.
  Lemma inside : forall u y ms y1 y2 v, g_takes y -> Forall g_mark ms -> y :: ms = y1 ++ y2 -> y1 <> [] -> y2 <> [] -> ~ grapheme_decides (u ++ y1) (y2 ++ v) Break.
  Proof.
    intros u y ms y1 y2 v T M E N1 N2. destruct y2 as [|m y2]; [contradiction|]. destruct (exists_last N1) as (l & z & ->). rewrite app_assoc. cbn [app].
    destruct l as [|y' l]; cbn [app] in E; injection E as <- E.
    - apply mark_join; [|exact T]. subst ms. exact (Forall_inv M).
    - subst ms. rewrite <- app_assoc in M. apply Forall_app in M. destruct M as (_ & M). cbn [app] in M. apply mark_join; [exact (Forall_inv (Forall_inv_tail M))|apply mark_takes; exact (Forall_inv M)].
  Qed.
  Lemma placed_any : forall X Y x X' y Y', X = x :: X' -> Y = y :: Y' -> P x = P y -> (forall t, alike (fold_left gstep X t) (fold_left gstep Y t)) ->
    (forall u v x1 x2, X = x1 ++ x2 -> x1 <> [] -> x2 <> [] -> ~ grapheme_decides (u ++ x1) (x2 ++ v) Break) ->
    (forall u v x1 x2, Y = x1 ++ x2 -> x1 <> [] -> x2 <> [] -> ~ grapheme_decides (u ++ x1) (x2 ++ v) Break) -> placed grapheme_decides X Y.
  Proof.
    intros X Y x X' y Y' EX EY HP HA HX HY. split; [subst; discriminate|]. split; [subst; discriminate|]. intros u v. split; [apply HX|]. split; [apply HY|]. split.
    - intros b a Nb _. destruct a as [|z a]; subst X Y; cbn [app]; apply right_alike; auto.
    - intros b a Na _. apply left_alike; [| |exact Na|].
      + subst X. intros Z. apply app_eq_nil in Z. destruct Z as (_ & Z). discriminate Z.
      + subst Y. intros Z. apply app_eq_nil in Z. destruct Z as (_ & Z). discriminate Z.
      + rewrite !app_assoc, !(gtr_app _ b). apply alike_fold. rewrite !gtr_app. apply HA.
  Qed.
  Lemma same_P : forall c a, same_grapheme c a -> P c = P a.
  Proof. intros c a (G & I & X). unfold graphemes_property. rewrite G, I, X. reflexivity. Qed.
  Definition g_mark0 (c : N) : Prop := GCB c = GCB_Extend /\ InCB c = InCB_Extend /\ ExtPict c = false.
  Lemma mark0_step : forall t m, g_mark0 m -> gstep t m = {| t_last := P m; t_cons := t_cons t; t_link := t_link t; t_pict := t_pict t; t_zwj := false; t_run := 0 |}.
  Proof. intros t m (G & I & X); unfold gstep, graphemes_property; rewrite G, I, X; cbn; destruct (t_cons t), (t_link t), (t_pict t); reflexivity. Qed.
  Lemma mark0 : forall m, g_mark0 m -> g_mark m. Proof. intros m (A & B & C). split; [exact A|]. split; [left; exact B|exact C]. Qed.
  Lemma marks_stay : forall ms, Forall g_mark0 ms -> forall t, t_zwj t = false -> t_run t = O -> neutral (t_last t) = true -> alike t (fold_left gstep ms t).
  Proof.
    assert (K : forall ms, Forall g_mark0 ms -> forall t l, neutral l = true -> t_zwj t = false -> t_run t = O -> neutral (t_last t) = true ->
      exists l', neutral l' = true /\ fold_left gstep ms t = {| t_last := l'; t_cons := t_cons t; t_link := t_link t; t_pict := t_pict t; t_zwj := false; t_run := 0 |}).
    { intros ms M. induction M as [|m ms H M IH]; intros t l Hl Z R L.
      - exists (t_last t). split; [exact L|]. cbn. destruct t. cbn in *. subst. reflexivity.
      - cbn [fold_left]. rewrite (mark0_step t m H). destruct (IH {| t_last := P m; t_cons := t_cons t; t_link := t_link t; t_pict := t_pict t; t_zwj := false; t_run := 0 |} _ Hl eq_refl eq_refl (mark_neutral m (mark0 m H))) as (l' & A & E). exists l'. split; [exact A|]. rewrite E. reflexivity. }
    intros ms M t Z R L. destruct (K ms M t _ L Z R L) as (l' & A & ->). unfold alike. cbn. auto 10.
  Qed.
  Lemma g_placed_marks : forall c a ms, same_grapheme c a -> g_takes a \/ ms = [] -> Forall g_mark0 ms -> placed grapheme_decides [c] (a :: ms).
  Proof.
    intros c a ms S T M. eapply placed_any; [reflexivity|reflexivity|exact (same_P c a S)| | |].
    - intros t. cbn [fold_left]. replace (gstep t c) with (gstep t a) by (unfold gstep; rewrite (same_P c a S); reflexivity).
      destruct T as [T| ->]; [|cbn; unfold alike; auto 10]. destruct (takes_neutral a T) as (N1 & N2 & N3). apply marks_stay; [exact M| | |exact N1]; cbn [gstep t_zwj t_run]; [rewrite N2; reflexivity|rewrite N3; reflexivity].
    - intros u v x1 x2 E N1 N2. destruct (one_inside c x1 x2 E N1 N2).
    - intros u v y1 y2 E N1 N2. destruct T as [T| ->]; [|destruct (one_inside a y1 y2 E N1 N2)]. refine (inside u a ms y1 y2 v T _ E N1 N2). eapply Forall_impl; [exact mark0|exact M].
  Qed.
  Lemma right_mark : forall b y y' a a', b <> [] -> g_mark y -> g_mark y' -> grapheme_decides b (y :: a) Break <-> grapheme_decides b (y' :: a') Break.
  Proof.
    intros b y y' a a' N1 (G & I & X) (G' & I' & X'). destruct (exists_last N1) as (l & x & ->). rewrite !decides_iff. unfold gdec, graphemes_property. rewrite G, G', X, X'. destruct I as [->| ->], I' as [->| ->]; reflexivity.
  Qed.
  Lemma g_placed_swap : forall x y, g_mark x -> g_mark y -> placed grapheme_decides [x; y] [y; x].
  Proof.
    intros x y Mx My. split; [discriminate|]. split; [discriminate|]. intros u v. split; [|split; [|split]].
    - intros x1 x2 E. apply (inside u x [y]); auto using mark_takes.
    - intros x1 x2 E. apply (inside u y [x]); auto using mark_takes.
    - intros b a Nb _. destruct a as [|z a]; cbn [app]; [apply right_mark; auto|apply right_alike; auto].
    - intros b a Na _. apply left_alike; [| |exact Na|].
      + intros Z. apply app_eq_nil in Z. destruct Z as (_ & Z). discriminate Z.
      + intros Z. apply app_eq_nil in Z. destruct Z as (_ & Z). discriminate Z.
      + rewrite !app_assoc, !(gtr_app _ b). apply alike_fold. rewrite !gtr_app. cbn [fold_left]. rewrite !mark_step by assumption. unfold alike. cbn [t_cons t_link t_pict t_zwj t_run t_last].
        split; [reflexivity|]. split; [destruct (is (P x) _InCBLinker), (is (P y) _InCBLinker), (t_cons (gtr u)), (t_link (gtr u)); reflexivity|]. repeat split. right. split; apply mark_neutral; assumption.
  Qed.
End GP.
