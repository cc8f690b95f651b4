(** From single line ends to whole texts: the segmentation of a text with its line ends replaced. *)
From Verif Require Import Base ListFacts SpecRules SegFacts SpecEndings CanonSeg EndingFacts.
Local Open Scope N_scope.

Definition no_cr (t : text) : Prop := ~ In 13 t.
Lemma unix_cons : forall c r, c <> 13 -> unix (c :: r) = (if ends_line c then 10 else c) :: unix r.
Proof. intros c r H. cbn [unix]. apply N.eqb_neq in H. rewrite H. destruct (ends_line c); reflexivity. Qed.
Lemma unix_app : forall p t, no_cr p -> unix (p ++ t) = unix p ++ unix t.
Proof.
  induction p as [|c p IH]; intros t H; [reflexivity|]. assert (N1 : c <> 13) by (intros ->; apply H; left; reflexivity). cbn [app]. rewrite !unix_cons by exact N1. cbn [app]. f_equal. apply IH. intros I. apply H. right. exact I.
Qed.
Lemma unix_crlf : forall r, unix (13 :: 10 :: r) = 10 :: unix r.
Proof. reflexivity. Qed.
Lemma unix_cr : forall r, hd_error r <> Some 10 -> unix (13 :: r) = 10 :: unix r.
Proof. intros [|d r] H; [reflexivity|]. cbn [unix]. cbn [N.eqb Pos.eqb]. destruct (N.eqb_spec d 10) as [->|]; [destruct (H eq_refl)|reflexivity]. Qed.
Definition unixed (t : text) : Prop := Forall (fun c => ends_line c = false \/ c = 10) t.
Lemma unixed_no_cr : forall t, unixed t -> no_cr t.
Proof. intros t F I. pose proof (proj1 (Forall_forall _ _) F 13 I) as [H|H]; discriminate. Qed.
Lemma unix_unixed : forall n t, (length t <= n)%nat -> unixed (unix t).
Proof.
  induction n as [|n IH]; intros [|c t] L; cbn [length] in L; try (constructor; fail); [lia|]. destruct (N.eq_dec c 13) as [->|H].
  - destruct t as [|d t]; [constructor; [right; reflexivity|constructor]|]. destruct (N.eq_dec d 10) as [->|H]; [rewrite unix_crlf|rewrite unix_cr by (cbn; congruence)]; (constructor; [right; reflexivity|apply IH; cbn [length] in *; lia]).
  - rewrite (unix_cons c t H). constructor; [destruct (ends_line c) eqn:E; auto|apply IH; lia].
Qed.
Lemma unix_id : forall t, unixed t -> unix t = t.
Proof.
  intros t F. induction F as [|c t H F IH]; [reflexivity|]. assert (N1 : c <> 13) by (intros ->; destruct H; discriminate). rewrite (unix_cons c t N1), IH. destruct H as [H|H]; [rewrite H; reflexivity|subst c; reflexivity].
Qed.
Lemma single_inside : forall (c : N) x1 x2, [c] = x1 ++ x2 -> x1 <> [] -> x2 <> [] -> False.
Proof. intros c [|x [|]] x2 E N1 N2; try discriminate; [contradiction|]. injection E as _ E. destruct x2; [contradiction|discriminate]. Qed.
Lemma unix_refl : forall segs : list text, Forall2 (fun s s' => unix s = unix s') segs segs.
Proof. induction segs; constructor; auto. Qed.

Section Steps.
  Variable D : text -> text -> op -> Prop.
  Hypothesis left : forall u X Y b a, ender X -> ender Y -> b <> [] -> D (u ++ X ++ b) a Break -> D (u ++ Y ++ b) a Break.
  Hypothesis right : forall b a X Y v, ender X -> ender Y -> a <> [] -> D b (a ++ X ++ v) Break -> D b (a ++ Y ++ v) Break.
  Hypothesis after : forall b x a, ends_line x = true -> a <> [] -> ~ (x = 13 /\ hd_error a = Some 10) -> D (b ++ [x]) a Break.
  Hypothesis crlf : forall b a, ~ D (b ++ [13]) (10 :: a) Break.
  Hypothesis before : forall b y h k v w, ends_line h = true -> ends_line k = true -> y <> 13 -> D (b ++ [y]) (h :: v) Break -> D (b ++ [y]) (k :: w) Break.

  Definition spelling (X : text) : Prop := X = [13; 10] \/ exists c, X = [c] /\ ends_line c = true.
  Lemma spelling_ender : forall X, spelling X -> ender X.
  Proof. intros X [->|(c & -> & H)]; (split; [discriminate|]); repeat constructor; exact H. Qed.
  Lemma step : forall u X v segs, spelling X -> no_cr u -> (X = [13] -> hd_error v <> Some 10) -> segmentation D (u ++ X ++ v) segs ->
    exists segs', segmentation D (u ++ [10] ++ v) segs' /\ Forall2 (fun s s' => unix s = unix s') segs segs'.
  Proof.
    intros u X v segs SX NC HV G. pose proof (spelling_ender X SX) as EX. assert (EY : ender [10]) by (apply spelling_ender; right; exists 10; split; reflexivity).
    destruct (local_change_at D u X [10] v) with (segs := segs) as (s1 & p & q & s2 & -> & Eu & Ev & G'); [exact (proj1 EX)|discriminate| | | | |exact G|].
    - intros x1 x2 E N1 N2. destruct SX as [->|(c & -> & H)]; [|destruct (single_inside c x1 x2 E N1 N2)]. destruct x1 as [|a x1]; [contradiction|]. injection E as <- E. destruct x1 as [|b x1]; [cbn [app] in E; rewrite <- E; apply crlf|]. injection E as <- E. symmetry in E. apply app_eq_nil in E. tauto.
    - intros y1 y2 E N1 N2. destruct (single_inside 10 y1 y2 E N1 N2).
    - intros b a N1 ->. destruct a as [|z a].
      + destruct (exists_last N1) as (b0 & y & ->). assert (Ny : y <> 13) by (intros ->; apply NC; rewrite app_nil_r; apply in_or_app; right; left; reflexivity). destruct EX as (NX & FX). destruct X as [|h X]; [contradiction|]. apply Forall_inv in FX. cbn [app].
        split; apply before; auto.
      + split; apply right; auto; discriminate.
    - intros b a N1 E. destruct b as [|z b].
      + rewrite !app_nil_r. cbn [app] in E. subst a. split; intros _.
        * apply after; [reflexivity|exact N1|intros (Z & _); discriminate].
        * destruct SX as [->|(c & -> & H)].
          -- change [13; 10] with ([13] ++ [10]). rewrite app_assoc. apply after; [reflexivity|exact N1|intros (Z & _); discriminate].
          -- apply after; [exact H|exact N1|]. intros (-> & Z). exact (HV eq_refl Z).
      + split; apply left; auto; discriminate.
    - exists (s1 ++ [p ++ [10] ++ q] ++ s2). split; [exact G'|]. apply Forall2_app; [apply unix_refl|]. apply Forall2_app; [|apply unix_refl]. constructor; [|constructor].
      assert (Np : no_cr p) by (intros I; apply NC; rewrite Eu; apply in_or_app; right; exact I). rewrite !(unix_app p) by exact Np. f_equal. destruct SX as [->|(c & -> & H)]; [reflexivity|]. cbn [app]. rewrite (unix_cons 10) by discriminate. destruct (N.eq_dec c 13) as [->|Nc].
      + apply unix_cr. destruct q as [|d q]; [discriminate|]. specialize (HV eq_refl). rewrite Ev in HV. exact HV.
      + rewrite (unix_cons c q Nc), H. reflexivity.
  Qed.
  Lemma steps : forall n t u segs, (length t <= n)%nat -> no_cr u -> segmentation D (u ++ t) segs ->
    exists segs', segmentation D (u ++ unix t) segs' /\ Forall2 (fun s s' => unix s = unix s') segs segs'.
  Proof.
    induction n as [|n IH]; intros [|c t] u segs L NC G; cbn [length] in L; try (exists segs; split; [exact G|apply unix_refl]); [lia|].
    assert (K : forall d, d <> 13 -> no_cr (u ++ [d])) by (intros d Nd I; apply in_app_or in I; destruct I as [I|[I|[]]]; [exact (NC I)|exact (Nd I)]).
    assert (Z : forall X v, spelling X -> (X = [13] -> hd_error v <> Some 10) -> (length v <= n)%nat -> unix (X ++ v) = 10 :: unix v -> segmentation D (u ++ X ++ v) segs ->
      exists segs', segmentation D (u ++ unix (X ++ v)) segs' /\ Forall2 (fun s s' => unix s = unix s') segs segs').
    { intros X v SX HV Lv E G1. destruct (step u X v segs SX NC HV G1) as (s' & G2 & F). rewrite app_assoc in G2. destruct (IH v (u ++ [10]) s' Lv (K 10 ltac:(discriminate)) G2) as (s'' & G3 & F').
      exists s''. split; [rewrite E; rewrite <- app_assoc in G3; exact G3|]. clear - F F'. revert s'' F'. induction F as [|x y l l' H F IHF]; intros s'' F'; inversion F' as [|? y' ? k E F2]; subst; constructor; [congruence|apply IHF; exact F2]. }
    destruct (N.eq_dec c 13) as [->|Nc].
    - destruct t as [|d t]; [apply (Z [13] []); [right; exists 13; split; reflexivity|discriminate|cbn; lia|reflexivity|exact G]|]. destruct (N.eq_dec d 10) as [->|Nd].
      + apply (Z [13; 10] t); [left; reflexivity|discriminate|cbn [length] in L; lia|reflexivity|exact G].
      + assert (H10 : hd_error (d :: t) <> Some 10) by (cbn; congruence). apply (Z [13] (d :: t)); [right; exists 13; split; reflexivity|intros _; exact H10|lia|exact (unix_cr _ H10)|exact G].
    - destruct (ends_line c) eqn:E.
      + apply (Z [c] t); [right; eauto|congruence|lia|cbn [app]; rewrite (unix_cons c t Nc), E; reflexivity|exact G].
      + rewrite (unix_cons c t Nc), E. change (c :: t) with ([c] ++ t) in G. rewrite app_assoc in G. destruct (IH t (u ++ [c]) segs ltac:(lia) (K c Nc) G) as (s' & G' & F). exists s'. rewrite <- app_assoc in G'. auto.
  Qed.
  Theorem seg_unix : forall t segs, segmentation D t segs -> segmentation D (unix t) (map unix segs).
  Proof.
    intros t segs G. destruct (steps (length t) t [] segs (le_n _) ltac:(intros []) G) as (segs' & G' & F). cbn [app] in G'.
    assert (E : map unix segs = segs'); [|rewrite E; exact G']. assert (U : Forall unixed segs').
    { pose proof (unix_unixed _ t (le_n _)) as U. rewrite <- (proj1 G') in U. clear - U. induction segs' as [|s l IH]; [constructor|]. cbn [concat] in U. apply Forall_app in U. destruct U as (U1 & U2). constructor; auto. }
    clear - F U. induction F as [|x y l l' H F IH]; [reflexivity|]. cbn [map]. rewrite H, (unix_id y (Forall_inv U)), (IH (Forall_inv_tail U)). reflexivity.
  Qed.
End Steps.
