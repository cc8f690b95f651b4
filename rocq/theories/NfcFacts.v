(** Normalization Form C: composing gives an equivalent text, and every part of a composed text is composed. *)
From Verif Require Import Base ListFacts SpecHangul SpecDecomp SpecCanon SpecNorm NormFacts SpecNfc.
Local Open Scope N_scope.

(** ** Composites *)
Definition upto (n : nat) : list N := map N.of_nat (seq 0 n).
Lemma upto_in : forall n x, x < N.of_nat n -> In x (upto n).
Proof. intros n x H. unfold upto. rewrite <- (N2Nat.id x). apply in_map, in_seq. lia. Qed.
Lemma lv_checked : forallb (fun l => forallb (fun v => let p := SBase + (l * VCount + v) * TCount in syllable p && if list_eq_dec N.eq_dec (jamo p) [LBase + l; VBase + v] then true else false) (upto 21)) (upto 19) = true.
Proof. vm_compute. reflexivity. Qed.
Lemma lvt_checked : forallb (fun i => forallb (fun k => let a := SBase + i * TCount in let p := a + N.succ k in
  syllable a && syllable p && if list_eq_dec N.eq_dec (jamo p) (jamo a ++ [TBase + N.succ k]) then true else false) (upto 27)) (upto 399) = true.
Proof. vm_compute. reflexivity. Qed.
Lemma some_inj : forall (x y : N), Some x = Some y -> x = y. Proof. intros x y H. injection H as H. exact H. Qed.
Lemma composed_canon : forall a b p, composed a b = Some p -> canon [] [a; b] [p].
Proof.
  intros a b p H. unfold composed in H. destruct (_ && _ && _ && _) eqn:E1.
  { apply andb_prop in E1. destruct E1 as (E1 & E4). apply andb_prop in E1. destruct E1 as (E1 & E3). apply andb_prop in E1. destruct E1 as (E1 & E2). apply N.leb_le in E1, E3. apply N.ltb_lt in E2, E4.
    assert (B1 : a - LBase < N.of_nat 19) by (change (N.of_nat 19) with 19; lia). assert (B2 : b - VBase < N.of_nat 21) by (change (N.of_nat 21) with VCount; lia).
    pose proof lv_checked as C. rewrite forallb_forall in C. specialize (C (a - LBase) (upto_in 19 _ B1)). rewrite forallb_forall in C. specialize (C (b - VBase) (upto_in 21 _ B2)).
    cbv zeta in C. apply some_inj in H. rewrite H in C. apply andb_prop in C. destruct C as (S & C). destruct (list_eq_dec _ _ _) as [J|]; [|discriminate]. replace (LBase + (a - LBase)) with a in J by lia. replace (VBase + (b - VBase)) with b in J by lia.
    apply canon_sym. rewrite <- J, <- (app_nil_r (jamo p)). exact (canon_hangul [] [] p [] S). }
  clear E1. destruct (_ && _ && _ && _) eqn:E1.
  { apply andb_prop in E1. destruct E1 as (E1 & E4). apply andb_prop in E1. destruct E1 as (E1 & E3). apply andb_prop in E1. destruct E1 as (E1 & E2). apply N.ltb_lt in E3, E4. apply N.eqb_eq in E2.
    unfold syllable in E1. apply andb_prop in E1. destruct E1 as (E0 & E1). apply N.leb_le in E0. apply N.ltb_lt in E1.
    assert (HA : a = SBase + ((a - SBase) / TCount) * TCount). { pose proof (N.div_mod (a - SBase) TCount ltac:(discriminate)) as D. rewrite E2 in D. lia. }
    assert (HI : (a - SBase) / TCount < 399). { apply N.div_lt_upper_bound; [discriminate|]. unfold SBase, SCount, NCount, VCount, TCount in *. lia. }
    set (i := (a - SBase) / TCount) in *. clearbody i.
    assert (B3 : b - TBase - 1 < N.of_nat 27) by (change (N.of_nat 27) with 27; change (TBase + TCount) with (TBase + 28) in E4; lia).
    pose proof lvt_checked as C. rewrite forallb_forall in C. specialize (C i (upto_in 399 _ HI)). rewrite forallb_forall in C. specialize (C (b - TBase - 1) (upto_in 27 _ B3)).
    cbv zeta in C. rewrite <- HA in C. replace (N.succ (b - TBase - 1)) with (b - TBase) in C by lia. replace (TBase + (b - TBase)) with b in C by lia. apply some_inj in H. rewrite H in C.
    apply andb_prop in C. destruct C as (S & C). apply andb_prop in S. destruct S as (S & S'). destruct (list_eq_dec _ _ _) as [J|]; [|discriminate].
    apply (canon_trans _ _ (jamo p)); [|apply canon_sym; rewrite <- (app_nil_r (jamo p)); exact (canon_hangul [] [] p [] S')]. rewrite J. apply (canon_hangul [] [] a [b] S). }
  destruct (find _ decompositions) as [(p', d)|] eqn:F; [|discriminate]. cbn in H. injection H as ->. apply find_some in F. destruct F as (I & F). apply andb_prop in F. destruct F as (F & _). cbn [snd] in F.
  destruct d as [|x [|y [|z d]]]; try discriminate. apply andb_prop in F. destruct F as (F1 & F2). apply N.eqb_eq in F1, F2. subst x y.
  apply canon_sym. exact (canon_mapping [] [] p [a; b] [] I (fun X => X)).
Qed.
Lemma canon_slide : forall c m, Forall (fun x => 0 < ccc x < ccc c) m -> canon [] (m ++ [c]) (c :: m).
Proof.
  intros c m. induction m as [|x m IH]; intros F; [apply canon_refl|]. inversion F as [|? ? H F']; subst. apply (canon_trans _ _ (x :: c :: m)).
  - pose proof (canon_around [] _ _ [x] [] (IH F')) as K. rewrite !app_nil_r in K. exact K.
  - apply canon_sym. exact (canon_order [] [] c x m H).
Qed.

(** ** Composing, with what has been put out before *)
Definition state := (list N * option N * list N)%type.
Definition step (s : state) (c : N) : state :=
  let '(o, l, m) := s in match meets l m c with Some p => (o, Some p, m) | None => if ccc c =? 0 then (o ++ held l m, Some c, []) else (o, l, m ++ [c]) end.
Definition run (t : list N) : state := fold_left step t ([], None, []).
Definition output (s : state) : list N := let '(o, l, m) := s in o ++ held l m.
Lemma compose_run : forall t o l m, o ++ compose l m t = output (fold_left step t (o, l, m)).
Proof.
  induction t as [|c t IH]; intros o l m; [reflexivity|]. cbn [compose fold_left step]. destruct (meets l m c) as [p|]; [apply IH|]. destruct (ccc c =? 0); [|apply IH]. rewrite <- IH, app_assoc. reflexivity.
Qed.
Lemma nfc_run : forall t, nfc t = output (run (nfd t)). Proof. intros t. unfold nfc, run. rewrite <- compose_run. reflexivity. Qed.
Lemma run_snoc : forall t c, run (t ++ [c]) = step (run t) c. Proof. intros. unfold run. rewrite fold_left_app. reflexivity. Qed.
Lemma run_marks : forall t, Forall (fun x => 0 < ccc x) t -> run t = ([], None, t).
Proof.
  intros t. induction t as [|c t IH] using rev_ind; intros F; [reflexivity|]. apply Forall_app in F. destruct F as (F & G). rewrite run_snoc, (IH F). cbn [step meets]. inversion G; subst. destruct (N.eqb_spec (ccc c) 0); [lia|reflexivity].
Qed.

Definition lc (t : list N) : N := match rev t with x :: _ => ccc x | [] => 0 end.
Lemma lc_snoc : forall t c, lc (t ++ [c]) = ccc c. Proof. intros. unfold lc. rewrite rev_app_distr. reflexivity. Qed.
Lemma sorted_snoc : forall t c, sorted t -> ~ (0 < ccc c < lc t) -> sorted (t ++ [c]).
Proof.
  intros t c S H u a b v E. destruct v as [|z v] using rev_ind.
  - rewrite app_nil_r in E. replace (u ++ [a; b]) with ((u ++ [a]) ++ [b]) in E by (rewrite <- app_assoc; reflexivity). apply app_inj_tail in E. destruct E as (-> & ->). rewrite lc_snoc in H. exact H.
  - rewrite !app_assoc in E. apply app_inj_tail in E. destruct E as (E & _). rewrite <- !app_assoc in E. exact (S u a b v E).
Qed.
Lemma nfd_snoc : forall t c, in_nfd t -> plain c -> ~ (0 < ccc c < lc t) -> in_nfd (t ++ [c]).
Proof. intros t c (P & S) Pc H. split; [apply Forall_app; split; [exact P|apply Forall_cons; [exact Pc|apply Forall_nil]]|exact (sorted_snoc t c S H)]. Qed.
Lemma nfd_unsnoc : forall t c, in_nfd (t ++ [c]) -> in_nfd t /\ plain c /\ ~ (0 < ccc c < lc t).
Proof.
  intros t c H. split; [exact (in_nfd_part [] t [c] H)|]. destruct H as (P & S). apply Forall_app in P. split; [exact (Forall_inv (proj2 P))|].
  destruct t as [|x t _] using rev_ind; [cbn; lia|]. rewrite lc_snoc. apply (S t x c []). rewrite <- app_assoc, app_nil_r. reflexivity.
Qed.

(** What holds of a decomposed text [y] that has been composed to [s]: the marks that stayed are in order; and what is left of the output when its end or its beginning is taken away is the output for some other decomposed text. *)
Definition fine (y : list N) (s : state) : Prop := let '(o, l, m) := s in
  Forall plain m /\ Forall (fun x => 0 < ccc x <= lc y) m /\ sorted m /\ canon [] y (output s)
  /\ (forall u v, o = u ++ v -> exists y', in_nfd y' /\ output (run y') = u)
  /\ (forall m0 m1, m = m0 ++ m1 -> exists y', in_nfd y' /\ run y' = (o, l, m0) /\ lc y' <= lc y)
  /\ (forall u v, o = u ++ v -> exists y', in_nfd y' /\ run y' = (v, l, m) /\ lc y' <= lc y).
Lemma in_nfd_nil : in_nfd []. Proof. split; [apply Forall_nil|]. intros [|] ? ? ? E; discriminate. Qed.
Lemma sorted_nil : sorted []. Proof. intros [|] ? ? ? E; discriminate. Qed.
Lemma below : forall y c, ~ (0 < ccc c < lc y) -> forall y', lc y' <= lc y -> ~ (0 < ccc c < lc y'). Proof. intros. lia. Qed.
Lemma split_two : forall (a b u v : list N), a ++ b = u ++ v -> (exists w, a = u ++ w /\ v = w ++ b) \/ (exists w, u = a ++ w /\ b = w ++ v).
Proof.
  intros a. induction a as [|x a IH]; intros b u v E; [right; exists u; split; [reflexivity|exact E]|]. destruct u as [|z u]; [left; exists (x :: a); split; [reflexivity|symmetry; exact E]|].
  cbn in E. injection E as <- E. destruct (IH b u v E) as [(w & -> & ->)|(w & -> & ->)]; [left|right]; exists w; split; reflexivity.
Qed.
Lemma lc_last : forall m, Forall (fun x => 0 < ccc x) m -> forall k, Forall (fun x => ccc x <= k) m -> lc m <= k.
Proof. intros m _ k F. unfold lc. destruct (rev m) as [|x r] eqn:E; [lia|]. rewrite Forall_forall in F. apply F. apply in_rev. rewrite E. left. reflexivity. Qed.
Lemma held_split : forall l m u v, held l m = u ++ v -> u = [] \/ (exists w, u = held l w /\ m = w ++ v).
Proof.
  intros l m u v E. destruct l as [a|]; cbn [held] in E.
  - destruct u as [|x u]; [left; reflexivity|]. cbn in E. injection E as <- ->. right. exists u. split; reflexivity.
  - right. exists u. split; [reflexivity|exact E].
Qed.
Lemma marks_nfd : forall m, Forall plain m -> sorted m -> in_nfd m. Proof. intros m P S. split; assumption. Qed.
Lemma fine_run : forall y, in_nfd y -> fine y (run y).
Proof.
  intros y. induction y as [|c y IH] using rev_ind; intros HN.
  { cbn [run fold_left fine output held app]. repeat split; try apply Forall_nil; try exact sorted_nil; [apply canon_refl| | |].
    - intros u v E. symmetry in E. apply app_eq_nil in E. destruct E as (-> & _). exists []. split; [exact in_nfd_nil|reflexivity].
    - intros u v E. symmetry in E. apply app_eq_nil in E. destruct E as (-> & _). exists []. split; [exact in_nfd_nil|]. split; [reflexivity|apply N.le_refl].
    - intros u v E. symmetry in E. apply app_eq_nil in E. destruct E as (_ & ->). exists []. split; [exact in_nfd_nil|]. split; [reflexivity|apply N.le_refl]. }
  destruct (nfd_unsnoc y c HN) as (Hy & Pc & Hc). specialize (IH Hy). rewrite run_snoc. destruct (run y) as [[o l] m] eqn:ER. destruct IH as (I1 & I2 & I3 & I4 & I5 & I6 & I7). cbn [step]. destruct (meets l m c) as [p|] eqn:EM.
  - (* composed *)
    destruct l as [a|]; [|discriminate]. cbn [meets] in EM. destruct (unblocked m c) eqn:EU; [|discriminate]. unfold unblocked in EU. rewrite forallb_forall in EU.
    assert (HM : Forall (fun x => 0 < ccc x < ccc c) m). { apply Forall_forall. intros x Ix. rewrite Forall_forall in I2. specialize (I2 x Ix). specialize (EU x Ix). apply N.ltb_lt in EU. lia. }
    assert (ST : forall o' m0 m1, m = m0 ++ m1 -> step (o', Some a, m0) c = (o', Some p, m0)).
    { intros o' m0 m1 ->. cbn [step meets]. apply Forall_app in HM. assert (unblocked m0 c = true) as -> by (apply forallb_forall; intros x Ix; apply N.ltb_lt; destruct HM as (HM & _); rewrite Forall_forall in HM; apply (HM x Ix)). rewrite EM. reflexivity. }
    cbn [fine]. split; [exact I1|]. split; [rewrite lc_snoc; eapply Forall_impl; [|exact HM]; cbv beta; intros; lia|]. split; [exact I3|]. split; [|split; [exact I5|split]].
    + apply (canon_trans _ _ (o ++ [a] ++ m ++ [c])).
      { pose proof (canon_around [] _ _ [] [c] I4) as K. cbn [output held app] in K. rewrite <- app_assoc in K. exact K. }
      cbn [output held]. apply (canon_trans _ _ (o ++ [a; c] ++ m)).
      { pose proof (canon_around [] _ _ (o ++ [a]) [] (canon_slide c m HM)) as K. rewrite !app_nil_r, <- !app_assoc in K. exact K. }
      exact (canon_around [] _ _ o m (composed_canon a c p EM)).
    + intros m0 m1 E. destruct (I6 m0 m1 E) as (y' & H1 & H2 & H3). exists (y' ++ [c]). split; [apply nfd_snoc; [exact H1|exact Pc|exact (below _ _ Hc _ H3)]|]. rewrite run_snoc, H2, !lc_snoc. split; [exact (ST o m0 m1 E)|lia].
    + intros u v E. destruct (I7 u v E) as (y' & H1 & H2 & H3). exists (y' ++ [c]). split; [apply nfd_snoc; [exact H1|exact Pc|exact (below _ _ Hc _ H3)]|]. rewrite run_snoc, H2, !lc_snoc. split; [exact (ST v m [] (eq_sym (app_nil_r m)))|lia].
  - assert (K : canon [] (y ++ [c]) (o ++ held l m ++ [c])) by (pose proof (canon_around [] _ _ [] [c] I4) as K; cbn [output app] in K; rewrite <- app_assoc in K; exact K).
    destruct (N.eqb_spec (ccc c) 0) as [C0|C0].
    + (* a new starter *)
      assert (SN : forall y', in_nfd y' -> in_nfd (y' ++ [c])) by (intros y' H; apply nfd_snoc; [exact H|exact Pc|lia]).
      cbn [fine]. split; [apply Forall_nil|]. split; [apply Forall_nil|]. split; [exact sorted_nil|]. split; [cbn [output held]; rewrite <- app_assoc; exact K|]. split; [|split].
      * intros u v E. apply split_two in E. destruct E as [(w & -> & _)|(w & -> & E)]; [exact (I5 u w eq_refl)|]. apply held_split in E. destruct E as [->|(m0 & -> & E)].
        { rewrite app_nil_r. exact (I5 o [] (eq_sym (app_nil_r o))). }
        destruct (I6 m0 v E) as (y' & H1 & H2 & _). exists y'. split; [exact H1|]. rewrite H2. reflexivity.
      * intros m0 m1 E. symmetry in E. apply app_eq_nil in E. destruct E as (-> & _). exists (y ++ [c]). split; [exact HN|]. rewrite run_snoc, ER. cbn [step]. rewrite EM, C0. split; [reflexivity|lia].
      * intros u v E. apply split_two in E. destruct E as [(w & E & ->)|(w & -> & E)].
        { destruct (I7 u w E) as (y' & H1 & H2 & H3). exists (y' ++ [c]). split; [exact (SN _ H1)|]. rewrite run_snoc, H2, !lc_snoc. cbn [step]. rewrite EM, C0. split; [reflexivity|lia]. }
        pose proof (held_split _ _ _ _ E) as E'. destruct E' as [->|(m0 & -> & ->)].
        { destruct (I7 o [] (eq_sym (app_nil_r o))) as (y' & H1 & H2 & H3). exists (y' ++ [c]). split; [exact (SN _ H1)|]. rewrite run_snoc, H2, !lc_snoc. cbn [step]. rewrite EM, C0. cbn [app] in E. subst v. split; [reflexivity|lia]. }
        apply Forall_app in I1, I2. exists (v ++ [c]). split; [apply SN, marks_nfd; [apply I1|exact (sorted_part m0 v [] ltac:(rewrite app_nil_r; exact I3))]|].
        rewrite run_snoc, !lc_snoc, run_marks by (eapply Forall_impl; [|exact (proj2 I2)]; cbv beta; intros; lia). cbn [step meets]. rewrite C0. split; [reflexivity|lia].
    + (* a mark that stays *)
      assert (HL : lc y <= ccc c) by lia.
      cbn [fine]. rewrite lc_snoc. split; [apply Forall_app; split; [exact I1|apply Forall_cons; [exact Pc|apply Forall_nil]]|].
      split; [apply Forall_app; split; [eapply Forall_impl; [|exact I2]; cbv beta; intros; lia|apply Forall_cons; [lia|apply Forall_nil]]|].
      split; [apply sorted_snoc; [exact I3|]; assert (lc m <= ccc c) by (apply lc_last; eapply Forall_impl; [|exact I2|..|exact I2]; cbv beta; intros; lia); lia|].
      assert (HH : held l (m ++ [c]) = held l m ++ [c]) by (destruct l; reflexivity).
      assert (ST : forall o', step (o', l, m) c = (o', l, m ++ [c])) by (intros o'; cbn [step]; rewrite EM; destruct (N.eqb_spec (ccc c) 0); [lia|reflexivity]).
      split; [cbn [output]; rewrite HH; exact K|]. split; [exact I5|]. split.
      * intros m0 m1 E. destruct m1 as [|z m1 _] using rev_ind.
        { rewrite app_nil_r in E. subst m0. exists (y ++ [c]). split; [exact HN|]. rewrite run_snoc, ER, lc_snoc. split; [apply ST|lia]. }
        rewrite app_assoc in E. apply app_inj_tail in E. destruct E as (E & _). destruct (I6 m0 m1 E) as (y' & H1 & H2 & H3). exists y'. split; [exact H1|]. split; [exact H2|lia].
      * intros u v E. destruct (I7 u v E) as (y' & H1 & H2 & H3). exists (y' ++ [c]). split; [apply nfd_snoc; [exact H1|exact Pc|exact (below _ _ Hc _ H3)]|]. rewrite run_snoc, H2, lc_snoc. split; [apply ST|lia].
Qed.

(** ** What follows *)
Lemma front : forall y u v, in_nfd y -> output (run y) = u ++ v -> exists y', in_nfd y' /\ output (run y') = u.
Proof.
  intros y u v H E. pose proof (fine_run y H) as F. destruct (run y) as [[o l] m]. destruct F as (_ & _ & _ & _ & I5 & I6 & _). cbn [output] in E. apply split_two in E. destruct E as [(w & E & _)|(w & -> & E)]; [exact (I5 u w E)|].
  apply held_split in E. destruct E as [->|(m0 & -> & E)]; [rewrite app_nil_r; exact (I5 o [] (eq_sym (app_nil_r o)))|]. destruct (I6 m0 v E) as (y' & H1 & H2 & _). exists y'. split; [exact H1|]. rewrite H2. reflexivity.
Qed.
Lemma back : forall y u v, in_nfd y -> output (run y) = u ++ v -> exists y', in_nfd y' /\ output (run y') = v.
Proof.
  intros y u v H E. pose proof (fine_run y H) as F. destruct (run y) as [[o l] m]. destruct F as (I1 & I2 & I3 & _ & _ & _ & I7). cbn [output] in E. apply split_two in E. destruct E as [(w & E & ->)|(w & -> & E)].
  { destruct (I7 u w E) as (y' & H1 & H2 & _). exists y'. split; [exact H1|]. rewrite H2. reflexivity. }
  pose proof (held_split _ _ _ _ E) as E'. destruct E' as [->|(m0 & -> & ->)].
  - cbn [app] in E. subst v. destruct (I7 o [] (eq_sym (app_nil_r o))) as (y' & H1 & H2 & _). exists y'. split; [exact H1|]. rewrite H2. reflexivity.
  - apply Forall_app in I1, I2. exists v. split; [apply marks_nfd; [apply I1|exact (sorted_part m0 v [] ltac:(rewrite app_nil_r; exact I3))]|]. rewrite run_marks by (eapply Forall_impl; [|exact (proj2 I2)]; cbv beta; intros; lia). reflexivity.
Qed.
Lemma run_canon : forall y, in_nfd y -> canon [] y (output (run y)).
Proof. intros y H. pose proof (fine_run y H) as F. destruct (run y) as [[o l] m]. apply F. Qed.
Lemma run_nfc : forall y, in_nfd y -> nfc (output (run y)) = output (run y).
Proof. intros y H. rewrite nfc_run at 1. rewrite <- (canon_nfd _ _ _ (run_canon y H)), (in_nfd_nfd y H). reflexivity. Qed.
Lemma nfc_canon : forall t, canon [] t (nfc t).
Proof.
  intros t. rewrite nfc_run. apply (canon_trans _ _ (nfd t)); [|exact (run_canon _ (nfd_in t))]. apply (canon_to_nfd [] aside_none). apply Forall_forall. intros c _ [].
Qed.
Lemma canon_nfc : forall t t', canon [] t t' -> nfc t = nfc t'. Proof. intros t t' K. unfold nfc. rewrite (canon_nfd _ _ _ K). reflexivity. Qed.
Lemma nfc_eq_canon : forall t t', nfc t = nfc t' -> canon [] t t'.
Proof. intros t t' E. apply (canon_trans _ _ (nfc t)); [apply nfc_canon|]. rewrite E. apply canon_sym, nfc_canon. Qed.
Lemma nfc_part : forall t u s v, nfc t = t -> t = u ++ s ++ v -> nfc s = s.
Proof.
  intros t u s v H E. assert (O : output (run (nfd t)) = u ++ s ++ v) by (rewrite <- nfc_run, H; exact E). rewrite app_assoc in O.
  destruct (front _ _ _ (nfd_in t) O) as (y1 & H1 & O1). destruct (back _ _ _ H1 O1) as (y2 & H2 & O2). rewrite <- O2. exact (run_nfc y2 H2).
Qed.
Lemma nfc_nfc : forall t, nfc (nfc t) = nfc t. Proof. intros t. symmetry. apply canon_nfc, nfc_canon. Qed.
