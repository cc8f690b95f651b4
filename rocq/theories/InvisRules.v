(** Marks and format characters, and the rules of words, phrases and sentences. *)
From Verif Require Import Base ListFacts SpecUcd SpecRules SegFacts SpecMarks HangulFacts MarkFacts MarkRules SpecInvis.
From Verif Require SpecWords SpecSentences WordsConform SentencesConform PhrasesConform.

Definition w_skip (c : N) : Prop := WB c = WB_Extend \/ WB c = WB_Format.
Definition s_skip (c : N) : Prop := SB c = SB_Extend \/ SB c = SB_Format.
Section W.
  Import SpecWords.
  Lemma takes_wb : forall c, w_takes c -> forall k, In k [WB_CR; WB_LF; WB_Newline; WB_ZWJ; WB_WSegSpace] -> wc k c = false.
  Proof. intros c N k I. unfold w_takes in N. unfold wc. destruct (wb_beq (WB c) k) eqn:E; [|reflexivity]. apply internal_wb_dec_bl in E. subst k. contradiction. Qed.
  Ltac wt := let c := fresh "c" in let H := fresh "H" in intros c H; cbv beta; rewrite ?(takes_wb c H) by (cbn; auto 6); reflexivity.
  Ltac wm := let c := fresh "c" in let H := fresh "H" in intros c H; cbv beta; unfold wc; destruct H as [H|H]; rewrite H; reflexivity.
  Ltac lone := eapply lokm_one; [solve_one|wt|wm].
  Lemma rules_1_okm : Forall (okm w_skip w_takes) word_rules_1.
  Proof.
    unfold word_rules_1. repeat (first [apply Forall_nil|apply Forall_cons]); (split; cbn [r_left r_right]; [|rok]); try (apply lokm_eps); lone.
  Qed.
  Lemma mark_w : forall c, w_skip c -> ignored c = true /\ line_end c = false.
  Proof. intros c W. unfold ignored, line_end, wc. destruct W as [W|W]; rewrite W; split; reflexivity. Qed.
  Lemma takes_w : forall c, w_takes c -> line_end c = false.
  Proof. intros c H. unfold line_end. rewrite !(takes_wb c H) by (cbn; auto 6). reflexivity. Qed.
  Lemma like_inner : forall al more b y m a, w_takes y \/ w_skip y -> w_skip m -> word_like al more (b ++ [y]) (m :: a) Join.
  Proof.
    intros al more b y m a Hy Hm. left. unfold word_rules_1.
    assert (Ky : forall k, In k [WB_CR; WB_LF; WB_Newline; WB_ZWJ; WB_WSegSpace] -> wc k y = false).
    { intros k I. destruct Hy as [Hy|Wy]; [exact (takes_wb y Hy k I)|]. unfold wc. cbn in I. destruct I as [<-|[<-|[<-|[<-|[<-|[]]]]]]; destruct Wy as [Wy|Wy]; rewrite Wy; reflexivity. }
    assert (EN : forall r p, one r p -> p y = false -> ~ left_applies (Suffix r) (b ++ [y])) by (intros r p O E X; apply (ends_one r p O) in X; congruence).
    assert (SN : forall r p, one r p -> p m = false -> ~ starts_with r (m :: a)) by (intros r p O E X; apply (starts_one r p O) in X; congruence).
    apply says_next; [intros (X & _); revert X; eapply EN; [solve_one|]; cbv beta; rewrite !Ky by (cbn; auto 6); reflexivity|].
    apply says_next; [intros (X & _); revert X; eapply EN; [solve_one|]; cbv beta; rewrite !Ky by (cbn; auto 6); reflexivity|].
    apply says_next; [intros (_ & X); revert X; eapply SN; [solve_one|]; cbv beta; unfold wc; destruct Hm as [Wm|Wm]; rewrite Wm; reflexivity|].
    apply says_next; [intros (X & _); revert X; eapply EN; [solve_one|]; cbv beta; rewrite !Ky by (cbn; auto 6); reflexivity|].
    apply says_next; [intros (X & _); revert X; eapply EN; [solve_one|]; cbv beta; rewrite !Ky by (cbn; auto 6); reflexivity|].
    apply (says_this _ _ (Rule (Suffix Any) Join Ignored)). split; cbn [r_left r_right left_applies].
    + exists (b ++ [y]), []. split; [rewrite app_nil_r; reflexivity|constructor].
    + apply (starts_one Ignored ignored (one_cls _)). exact (proj1 (mark_w m Hm)).
  Qed.
  Lemma like_says : forall al more b a, Forall (ok w_skip w_takes) b -> Forall (ok w_skip w_takes) a -> word_like al more (B b) (B a) Break <-> word_like al more (D b) (D a) Break.
  Proof.
    intros al more b a Fb Fa. unfold word_like. rewrite (last_marks w_skip w_takes ignored line_end (fun c H => proj2 (mark_w c H)) takes_w b _ Fb).
    rewrite !(reduce_marks w_skip w_takes ignored line_end (fun c H => proj1 (mark_w c H)) (fun c H => proj2 (mark_w c H)) takes_w) by assumption.
    rewrite !(says_marks w_skip w_takes word_rules_1 b a _ rules_1_okm Fb Fa). reflexivity.
  Qed.
  Lemma like_marks : forall al more, (forall b a, word_like al more b a Break -> word_like al more b a Join -> False) -> forall t segs, Forall (ok w_skip w_takes) t -> segmentation (word_like al more) (B t) segs ->
    exists gs, concat gs = t /\ segs = map B gs /\ segmentation (word_like al more) (D t) (map D gs).
  Proof.
    intros al more DJ t segs F. apply (seg_marks w_skip w_takes); [apply like_says| |exact F].
    intros b y m a Hy Hm X. exact (DJ _ _ X (like_inner al more b y m a Hy Hm)).
  Qed.
End W.

Section S.
  Import SpecSentences.
  Lemma takes_sb : forall c, s_takes c -> forall k, In k [SB_Sep; SB_CR; SB_LF] -> sc k c = false.
  Proof. intros c N k I. unfold s_takes in N. unfold sc. destruct (sb_beq (SB c) k) eqn:E; [|reflexivity]. apply internal_sb_dec_bl in E. subst k. contradiction. Qed.
  Ltac st := let c := fresh "c" in let H := fresh "H" in intros c H; cbv beta; rewrite ?(takes_sb c H) by (cbn; auto 6); reflexivity.
  Ltac sm := let c := fresh "c" in let H := fresh "H" in intros c H; cbv beta; unfold sc; destruct H as [H|H]; rewrite H; reflexivity.
  Lemma srules_1_okm : Forall (okm s_skip s_takes) sentence_rules_1.
  Proof.
    unfold sentence_rules_1. repeat (first [apply Forall_nil|apply Forall_cons]); (split; cbn [r_left r_right]; [|rok]); try (apply lokm_eps); (eapply lokm_one; [solve_one|st|sm]).
  Qed.
  Lemma mark_s : forall c, s_skip c -> ignored c = true /\ para_sep c = false.
  Proof. intros c W. unfold ignored, para_sep, sc. destruct W as [W|W]; rewrite W; split; reflexivity. Qed.
  Lemma takes_s : forall c, s_takes c -> para_sep c = false.
  Proof. intros c H. unfold para_sep. rewrite !(takes_sb c H) by (cbn; auto 6). reflexivity. Qed.
  Lemma s_inner : forall b y m a, s_takes y \/ s_skip y -> s_skip m -> sentence_decides (b ++ [y]) (m :: a) Join.
  Proof.
    intros b y m a Hy Hm. left. unfold sentence_rules_1.
    assert (Ky : forall k, In k [SB_Sep; SB_CR; SB_LF] -> sc k y = false).
    { intros k I. destruct Hy as [Hy|Wy]; [exact (takes_sb y Hy k I)|]. unfold sc. cbn in I. destruct I as [<-|[<-|[<-|[]]]]; destruct Wy as [Wy|Wy]; rewrite Wy; reflexivity. }
    assert (EN : forall r p, one r p -> p y = false -> ~ left_applies (Suffix r) (b ++ [y])) by (intros r p O E X; apply (ends_one r p O) in X; congruence).
    apply says_next; [intros (X & _); revert X; eapply EN; [solve_one|]; cbv beta; rewrite !Ky by (cbn; auto 6); reflexivity|].
    apply says_next; [intros (X & _); revert X; eapply EN; [solve_one|]; cbv beta; rewrite !Ky by (cbn; auto 6); reflexivity|].
    apply (says_this _ _ (Rule (Suffix Any) Join Ignored)). split; cbn [r_left r_right left_applies].
    + exists (b ++ [y]), []. split; [rewrite app_nil_r; reflexivity|constructor].
    + apply (starts_one Ignored ignored (one_cls _)). exact (proj1 (mark_s m Hm)).
  Qed.
  Lemma s_says : forall b a, Forall (ok s_skip s_takes) b -> Forall (ok s_skip s_takes) a -> sentence_decides (B b) (B a) Break <-> sentence_decides (D b) (D a) Break.
  Proof.
    intros b a Fb Fa. unfold sentence_decides. rewrite (last_marks s_skip s_takes ignored para_sep (fun c H => proj2 (mark_s c H)) takes_s b _ Fb).
    rewrite !(reduce_marks s_skip s_takes ignored para_sep (fun c H => proj1 (mark_s c H)) (fun c H => proj2 (mark_s c H)) takes_s) by assumption.
    rewrite !(says_marks s_skip s_takes sentence_rules_1 b a _ srules_1_okm Fb Fa). reflexivity.
  Qed.
  Lemma s_marks : forall t segs, Forall (ok s_skip s_takes) t -> segmentation sentence_decides (B t) segs ->
    exists gs, concat gs = t /\ segs = map B gs /\ segmentation sentence_decides (D t) (map D gs).
  Proof.
    intros t segs F. apply (seg_marks s_skip s_takes); [exact s_says| |exact F].
    intros b y m a Hy Hm X. exact (SentencesConform.s_disjoint _ _ X (s_inner b y m a Hy Hm)).
  Qed.
End S.

(** A text grouped into characters and what is removed after them. *)
Section Group.
  Variables inv holds : N -> bool.
  Fixpoint group (held : bool) (t : text) : list N * list (N * list N) :=
    match t with
    | [] => ([], [])
    | c :: r => if held && inv c then let (ms, g) := group true r in (c :: ms, g) else let (ms, g) := group (holds c) r in ([], (c, ms) :: g)
    end.
  Fixpoint fits (held : bool) (g : list (N * list N)) : Prop :=
    match g with [] => True | (c, ms) :: r => held && inv c = false /\ (ms = [] \/ holds c = true) /\ Forall (fun m => inv m = true) ms /\ fits (holds c) r end.
  Lemma group_ok : forall t h, let (ms, g) := group h t in
    (ms = [] \/ h = true) /\ Forall (fun m => inv m = true) ms /\ fits h g /\ t = ms ++ D g.
  Proof.
    induction t as [|c t IH]; intros h; [cbn; auto|]. cbn [group]. destruct (h && inv c) eqn:E.
    - apply andb_prop in E. destruct E as (-> & E). specialize (IH true). destruct (group true t) as (ms, g). destruct IH as (_ & F & G & ->). split; [right; reflexivity|]. split; [constructor; assumption|]. split; [exact G|reflexivity].
    - specialize (IH (holds c)). destruct (group (holds c) t) as (ms, g). destruct IH as (K & F & G & ->). split; [left; reflexivity|]. split; [constructor|]. split; [cbn [fits]; auto|]. rewrite D_cons. reflexivity.
  Qed.
  Lemma strip_marks : forall ms t, Forall (fun m => inv m = true) ms -> strip_from inv holds true (ms ++ t) = strip_from inv holds true t.
  Proof. intros ms t F. induction F as [|m ms H F IH]; [reflexivity|]. cbn [app strip_from]. rewrite H. exact IH. Qed.
  Lemma strip_B : forall g h, fits h g -> strip_from inv holds h (D g) = B g.
  Proof.
    induction g as [|(c, ms) g IH]; intros h F; [reflexivity|]. destruct F as (H1 & H2 & H3 & H4). rewrite D_cons. cbn [fst snd strip_from B map]. rewrite H1. f_equal. destruct H2 as [-> |H2]; [exact (IH _ H4)|]. rewrite H2 in *. rewrite (strip_marks ms _ H3). exact (IH _ H4).
  Qed.
  Lemma fits_false : forall g h, fits h g -> fits false g.
  Proof. intros [|(c, ms) g] h F; [exact I|]. destruct F as (_ & F). split; [reflexivity|exact F]. Qed.
  Lemma fits_app : forall g1 g2 h, fits h (g1 ++ g2) -> fits h g1 /\ exists h', fits h' g2.
  Proof.
    induction g1 as [|(c, ms) g1 IH]; intros g2 h F; [split; [exact I|exists h; exact F]|]. cbn [app fits] in *. destruct F as (H1 & H2 & H3 & H4). destruct (IH g2 _ H4) as (A & B). auto.
  Qed.
  Lemma fits_parts : forall gs h, fits h (concat gs) -> Forall (fits false) gs.
  Proof.
    induction gs as [|g gs IH]; intros h F; [constructor|]. cbn [concat] in F. apply fits_app in F. destruct F as (A & h' & B'). constructor; [exact (fits_false _ _ A)|exact (IH h' B')].
  Qed.
  Variables skip takes : N -> Prop.
  Hypothesis inv_skip : forall c, inv c = true -> skip c.
  Hypothesis holds_takes : forall c, holds c = true -> takes c.
  Lemma fits_ok : forall g h, fits h g -> Forall (ok skip takes) g.
  Proof.
    induction g as [|(c, ms) g IH]; intros h F; [constructor|]. destruct F as (H1 & H2 & H3 & H4). constructor; [|exact (IH _ H4)]. split; [destruct H2 as [H2|H2]; [left; exact H2|right; exact (holds_takes c H2)]|]. eapply Forall_impl; [|exact H3]. exact inv_skip.
  Qed.
  Theorem seg_strip : forall Dc : text -> text -> op -> Prop,
    (forall t segs, Forall (ok skip takes) t -> segmentation Dc (B t) segs -> exists gs, concat gs = t /\ segs = map B gs /\ segmentation Dc (D t) (map D gs)) ->
    forall t segs segs', segmentation Dc t segs -> segmentation Dc (strip inv holds t) segs' -> segs' = map (strip inv holds) segs.
  Proof.
    intros Dc HM t segs segs' G G'. pose proof (group_ok t false) as K. destruct (group false t) as (ms, g). destruct K as ([-> |K] & _ & F & ->); [|discriminate]. cbn [app] in *. unfold strip in *. rewrite (strip_B g _ F) in G'.
    destruct (HM g segs' (fits_ok _ _ F) G') as (gs & <- & -> & G2). rewrite (segmentation_unique _ _ _ _ G G2), map_map. apply map_ext_in. intros h I. symmetry. apply strip_B. exact (proj1 (Forall_forall _ _) (fits_parts gs _ F) h I).
  Qed.
End Group.
Lemma w_inv : forall c, w_invisible c = true -> w_skip c. Proof. intros c H. unfold w_invisible in H. unfold w_skip. destruct (WB c); auto; discriminate. Qed.
Lemma w_hold : forall c, w_holds c = true -> w_takes c. Proof. intros c H I. unfold w_holds in H. cbn [In] in I. repeat destruct I as [I|I]; try contradiction; rewrite <- I in H; discriminate. Qed.
Lemma s_inv : forall c, s_invisible c = true -> s_skip c. Proof. intros c H. unfold s_invisible in H. unfold s_skip. destruct (SB c); auto; discriminate. Qed.
Lemma s_hold : forall c, s_holds c = true -> s_takes c. Proof. intros c H I. unfold s_holds in H. cbn [In] in I. repeat destruct I as [I|I]; try contradiction; rewrite <- I in H; discriminate. Qed.
