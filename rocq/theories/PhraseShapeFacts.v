(** Phrases are the texts of the shapes. *)
From Verif Require Import Base ListFacts SpecUcd SpecRules SpecWords SpecSpace SpecShape SpecPhraseShape RuleFacts WordFacts SpaceFacts GreedyFacts ShapeFacts.

Local Notation dec2 := (word_dec2 phrase_letter [Phrasal]).
Local Notation dec := (word_dec phrase_letter [Phrasal]).

(** Pictographs are letters or of no class. *)
Lemma pict_class : forall c, ExtPict c = true -> WB c = WB_ALetter \/ WB c = WB_Other.
Proof.
  intros c E. destruct (range_in _ false extpict_table c) as [Q|(lo & hi & I & B)]; fold (ExtPict c) in *; [congruence|]. rewrite E in I.
  destruct (range_in _ WB_Other wb_table c) as [Q|(l & h & J & B')]; fold (WB c) in *; [right; exact Q|].
  assert (A : forallb (fun e : N * N * bool => let '(lo, hi, v) := e in negb v || forallb (fun f : N * N * wb => let '(l, h, k) := f in (h <? lo)%N || (hi <? l)%N || wb_beq k WB_ALetter || wb_beq k WB_Other) wb_table) extpict_table = true) by (vm_compute; reflexivity).
  rewrite forallb_forall in A. specialize (A _ I). cbv beta iota in A. cbn [negb orb] in A. rewrite forallb_forall in A. specialize (A _ J). cbv beta iota in A. rewrite !orb_true_iff, !N.ltb_lt in A.
  destruct A as [[[A|A]|A]|A]; [lia|lia|left; apply internal_wb_dec_bl; exact A|right; apply internal_wb_dec_bl; exact A].
Qed.
Lemma pclass_wb : forall k c, k <> WB_ALetter -> k <> WB_Other -> WB c = k <-> pclass c = k.
Proof.
  intros k c N1 N2. unfold pclass. destruct (ExtPict c) eqn:E; [|reflexivity]. destruct (pict_class c E) as [Q|Q]; rewrite Q; split; congruence.
Qed.
Lemma pc_iff : forall k c, k <> WB_ALetter -> k <> WB_Other -> wc k c = true <-> pclass c = k.
Proof. intros k c N1 N2. rewrite wc_iff. apply pclass_wb; assumption. Qed.
Lemma pl_iff : forall c, phrase_letter c = true <-> pclass c = WB_ALetter.
Proof. intros c. unfold phrase_letter, pclass. rewrite orb_true_iff, wc_iff. destruct (ExtPict c); split; intuition congruence. Qed.

Definition p_mlet (m : N) : Prop := pclass m = WB_MidLetter \/ pclass m = WB_MidNumLet \/ p_quote m.
Definition p_mnum (m : N) : Prop := pclass m = WB_MidNum \/ pclass m = WB_MidNumLet \/ p_quote m.
Definition p_dq (m : N) : Prop := pclass m = WB_Double_Quote.
Definition p_flagc (m : N) : Prop := pclass m = WB_Regional_Indicator.
Definition p_wchar (c : N) : Prop := p_letter c \/ p_digit c \/ p_katakana c \/ p_connector c.
Ltac pc := apply pc_iff; discriminate.

Lemma p_ah_iff : forall c, spred (AHLetter phrase_letter) c = true <-> p_letter c.
Proof. intros c. unfold AHLetter, HebrewLetter, p_letter, p_hebrew. cbn [spred]. rewrite orb_true_iff, pl_iff, pc_iff by discriminate. reflexivity. Qed.
Lemma p_ml_iff : forall c, spred (Alt MidLetter MidNumLetQ) c = true <-> p_mlet c.
Proof. intros c. unfold MidLetter, MidNumLetQ, MidNumLet, SingleQuote, p_mlet, p_quote. cbn [spred]. rewrite !orb_true_iff, !pc_iff by discriminate. reflexivity. Qed.
Lemma p_mn_iff : forall c, spred (Alt MidNum MidNumLetQ) c = true <-> p_mnum c.
Proof. intros c. unfold MidNum, MidNumLetQ, MidNumLet, SingleQuote, p_mnum, p_quote. cbn [spred]. rewrite !orb_true_iff, !pc_iff by discriminate. reflexivity. Qed.
Lemma p_he_iff : forall c, spred HebrewLetter c = true <-> p_hebrew c.
Proof. intros c. pc. Qed.
Lemma p_sq_iff : forall c, spred SingleQuote c = true <-> p_quote c.
Proof. intros c. pc. Qed.
Lemma p_dq_iff : forall c, spred DoubleQuote c = true <-> p_dq c.
Proof. intros c. pc. Qed.
Lemma p_nu_iff : forall c, spred Numeric c = true <-> p_digit c.
Proof. intros c. pc. Qed.
Lemma p_sp_iff : forall c, spred WSegSpace c = true <-> p_space c.
Proof. intros c. pc. Qed.
Lemma p_ka_iff : forall c, spred Katakana c = true <-> p_katakana c.
Proof. intros c. pc. Qed.
Lemma p_en_iff : forall c, spred ExtendNumLet c = true <-> p_connector c.
Proof. intros c. pc. Qed.
Lemma p_ri_iff : forall c, spred RI c = true <-> p_flagc c.
Proof. intros c. pc. Qed.
Lemma p_wch_iff : forall c, spred (Alt (AHLetter phrase_letter) (Alt Numeric (Alt Katakana ExtendNumLet))) c = true <-> p_wchar c.
Proof. intros c. unfold p_wchar. rewrite <- p_ah_iff, <- p_nu_iff, <- p_ka_iff, <- p_en_iff. cbn [spred]. rewrite !orb_true_iff. reflexivity. Qed.
Lemma p_lnk_iff : forall c, spred (Alt (AHLetter phrase_letter) (Alt Numeric Katakana)) c = true <-> p_letter c \/ p_digit c \/ p_katakana c.
Proof. intros c. rewrite <- p_ah_iff, <- p_nu_iff, <- p_ka_iff. cbn [spred]. rewrite !orb_true_iff. reflexivity. Qed.
Lemma p_ph_iff : forall c, spred Phrasal c = true <-> phrasal c.
Proof. intros c. unfold phrasal. rewrite <- p_ah_iff, <- p_nu_iff, <- p_sp_iff. unfold Phrasal. cbn [spred]. rewrite !orb_true_iff. reflexivity. Qed.

Lemma p_dec2_join : forall lx ll run y n, dec2 lx ll run y n = Join <->
  isp p_letter lx /\ p_letter y \/ isp p_letter lx /\ (p_mlet y /\ isp p_letter n) \/ (isp p_mlet lx /\ isp p_letter ll) /\ p_letter y
  \/ isp p_hebrew lx /\ p_quote y \/ isp p_hebrew lx /\ (p_dq y /\ isp p_hebrew n) \/ (isp p_dq lx /\ isp p_hebrew ll) /\ p_hebrew y
  \/ isp p_digit lx /\ p_digit y \/ isp p_letter lx /\ p_digit y \/ isp p_digit lx /\ p_letter y
  \/ (isp p_mnum lx /\ isp p_digit ll) /\ p_digit y \/ isp p_digit lx /\ (p_mnum y /\ isp p_digit n)
  \/ isp p_katakana lx /\ p_katakana y \/ isp p_wchar lx /\ p_connector y \/ isp p_connector lx /\ (p_letter y \/ p_digit y \/ p_katakana y)
  \/ Nat.odd run = true /\ p_flagc y \/ isp phrasal lx /\ phrasal y.
Proof.
  intros lx ll run y n.
  rewrite <- !(on_iff _ _ p_ah_iff), <- !(on_iff _ _ p_ml_iff), <- !(on_iff _ _ p_mn_iff), <- !(on_iff _ _ p_he_iff), <- !(on_iff _ _ p_dq_iff), <- !(on_iff _ _ p_nu_iff), <- !(on_iff _ _ p_ka_iff), <- !(on_iff _ _ p_en_iff), <- !(on_iff _ _ p_wch_iff), <- !(on_iff _ _ p_ph_iff), <- p_lnk_iff, <- p_ri_iff, <- p_ph_iff, <- p_ah_iff, <- p_ml_iff, <- p_mn_iff, <- p_sq_iff, <- p_dq_iff, <- p_he_iff, <- p_nu_iff, <- p_ka_iff, <- p_en_iff.
  rewrite <- !andb_true_iff, <- !orb_true_iff. unfold word_dec2. cbn [existsb].
  rewrite orb_false_r. repeat match goal with |- context [if ?c then _ else _] => destruct c; cbn [orb]; [split; reflexivity|] end. split; discriminate.
Qed.

Ltac pclasses := unfold p_together, phrase_char, p_wchar, p_between in *; unfold phrasal in *; unfold p_letter, p_hebrew, p_digit, p_space, p_katakana, p_connector, p_quote, p_mlet, p_mnum, p_dq, p_flagc in *; cbn [isp] in *.
Lemma p_step_core : forall x ll run y n, phrase_char x -> phrase_char y -> dec2 (Some x) ll run y n = Join -> p_together x y.
Proof.
  intros x ll run y n _ _ J. apply p_dec2_join in J. pclasses. repeat split; intros [A B]; repeat (destruct J as [J|J]); try solve [intuition congruence].
Qed.
Lemma p_step_mid : forall x ll run y n, phrase_char x -> Nat.odd run = false -> ~ phrase_char y -> dec2 (Some x) ll run y n = Join -> (exists z, n = Some z /\ p_between x y z) \/ p_hebrew x /\ p_quote y.
Proof.
  intros x ll run y n Hx Hr Hy J. apply p_dec2_join in J. rewrite Hr in J. destruct n as [z|].
  - assert (B : p_between x y z \/ p_hebrew x /\ p_quote y).
    { pclasses. repeat (destruct J as [J|J]); try solve [intuition congruence]. }
    destruct B as [B|B]; [left; exists z; auto|right; exact B].
  - right. pclasses. repeat (destruct J as [J|J]); try solve [intuition congruence].
Qed.
Lemma p_step_apos : forall m x run z n, p_hebrew x -> p_quote m -> Nat.odd run = false -> dec2 (Some m) (Some x) run z n = Join -> p_letter z.
Proof. intros m x run z n Hx Hm Hr J. apply p_dec2_join in J. rewrite Hr in J. pclasses. repeat (destruct J as [J|J]); try solve [intuition congruence]. Qed.
Lemma p_step_start : forall c run d n, dec2 (Some c) None run d n = Join -> phrase_char c \/ Nat.odd run = true /\ p_flagc d.
Proof. intros c run d n J. apply p_dec2_join in J. pclasses. repeat (destruct J as [J|J]); try solve [intuition congruence]. Qed.
Lemma p_step_flag : forall x ll run y n, p_flagc x -> Nat.odd run = false -> dec2 (Some x) ll run y n = Join -> False.
Proof. intros x ll run y n Hx Hr J. apply p_dec2_join in J. rewrite Hr in J. pclasses. repeat (destruct J as [J|J]); try solve [intuition congruence]. Qed.
Lemma p_back_core : forall x ll run y n, phrase_char x -> phrase_char y -> p_together x y -> dec2 (Some x) ll run y n = Join.
Proof. intros x ll run y n Hx Hy G. apply p_dec2_join. pclasses. destruct Hx as [[[Hx|Hx]|[Hx|Hx]]|[Hx|Hx]], Hy as [[[Hy|Hy]|[Hy|Hy]]|[Hy|Hy]]; rewrite Hx, Hy in *; tauto. Qed.
Lemma p_back_mid : forall x ll run m z, p_between x m z -> dec2 (Some x) ll run m (Some z) = Join.
Proof. intros x ll run m z B. apply p_dec2_join. pclasses. tauto. Qed.
Lemma p_back_mid2 : forall x run m z n, p_between x m z -> dec2 (Some m) (Some x) run z n = Join.
Proof. intros x run m z n B. apply p_dec2_join. pclasses. tauto. Qed.
Lemma p_back_apos : forall x ll run m n, p_hebrew x -> p_quote m -> dec2 (Some x) ll run m n = Join.
Proof. intros x ll run m n H1 H2. apply p_dec2_join. pclasses. tauto. Qed.
Lemma p_between_chars : forall x m z, p_between x m z -> phrase_char x /\ phrase_char z /\ ~ phrase_char m.
Proof. intros x m z B. pclasses. intuition congruence. Qed.
Lemma phrase_char_dec : forall c, phrase_char c \/ ~ phrase_char c.
Proof.
  intros c. unfold phrase_char. rewrite <- p_ph_iff, <- p_ka_iff, <- p_en_iff. destruct (spred Phrasal c), (spred Katakana c), (spred ExtendNumLet c); intuition discriminate.
Qed.

(** ** On the characters that are not marks *)
Definition p_dec2_at (P : text) (y : N) (q : text) : Prop := forall lx ll, last2 P lx ll -> dec2 lx ll (trun wri P) y (hd_error q) = Join.
Fixpoint p_okr (P r : text) : Prop := match r with [] => True | y :: q => p_dec2_at P y q /\ p_okr (P ++ [y]) q end.
Lemma p_trun_word : forall P x, phrase_char x -> trun wri (P ++ [x]) = 0.
Proof. intros P x Hx. rewrite trun_snoc. unfold wri. destruct (wc WB_Regional_Indicator x) eqn:E; [|reflexivity]. apply p_ri_iff in E. pclasses. intuition congruence. Qed.

Lemma p_okr_chain : forall n r P x, length r <= n -> phrase_char x -> p_okr (P ++ [x]) r -> p_chain x r.
Proof.
  induction n as [|n IH]; intros [|y q] P x L Hx H; try (cbn [length] in L; lia); [constructor|constructor|].
  cbn [p_okr length] in *. destruct H as [H1 H2]. destruct (raw_last2 P x) as (ll & L2). pose proof (H1 _ _ L2) as J. rewrite (p_trun_word P x Hx) in J.
  destruct (phrase_char_dec y) as [Hy|Hy].
  - apply PChain_next; [exact Hy|exact (p_step_core _ _ _ _ _ Hx Hy J)|]. apply (IH q (P ++ [x]) y); [lia|exact Hy|exact H2].
  - assert (T : trun wri ((P ++ [x]) ++ [y]) = (if wri y then 1 else 0)) by (rewrite trun_snoc, (p_trun_word P x Hx); reflexivity).
    destruct (p_step_mid x ll 0 y (hd_error q) Hx eq_refl Hy J) as [(z & En & B)|[Hh Hs]].
    + destruct q as [|z' q]; [discriminate En|]. injection En as ->. cbn [p_okr length] in *. destruct (p_between_chars _ _ _ B) as (_ & Hz & _).
      apply PChain_inside; [exact B|]. apply (IH q ((P ++ [x]) ++ [y]) z); [lia|exact Hz|exact (proj2 H2)].
    + destruct q as [|z q]; [apply PChain_apostrophe; assumption|]. cbn [p_okr length] in *. destruct H2 as [H2 H3].
      assert (W : wri y = false). { unfold wri. destruct (wc WB_Regional_Indicator y) eqn:E; [|reflexivity]. apply p_ri_iff in E. pclasses. congruence. }
      assert (L3 : last2 ((P ++ [x]) ++ [y]) (Some y) (Some x)) by (rewrite <- app_assoc; apply last2_two).
      pose proof (H2 _ _ L3) as K. rewrite T, W in K. pose proof (p_step_apos y x 0 z (hd_error q) Hh Hs eq_refl K) as Hz.
      apply PChain_inside; [left; split; [right; exact Hh|]; split; [right; right; exact Hs|exact Hz]|]. apply (IH q ((P ++ [x]) ++ [y]) z); [lia|left; left; exact Hz|exact H3].
Qed.
Lemma p_dec2_at_intro : forall P x y q, (forall ll, last2 (P ++ [x]) (Some x) ll -> dec2 (Some x) ll (trun wri (P ++ [x])) y (hd_error q) = Join) -> p_dec2_at (P ++ [x]) y q.
Proof. intros P x y q H lx ll L. destruct (raw_last2 P x) as (l2 & L2). destruct (last2_fun _ _ _ _ _ L L2) as [-> ->]. exact (H l2 L2). Qed.
Lemma p_chain_okr : forall x r, p_chain x r -> phrase_char x -> forall P, p_okr (P ++ [x]) r.
Proof.
  intros x r C. induction C as [x|x y r Hy G C IH|x m z r B C IH|x m Hx Hm]; intros Wx P; cbn [p_okr].
  - exact I.
  - split; [apply p_dec2_at_intro; intros ll _; exact (p_back_core _ _ _ _ _ Wx Hy G)|]. exact (IH Hy (P ++ [x])).
  - destruct (p_between_chars _ _ _ B) as (_ & Hz & _). split; [apply p_dec2_at_intro; intros ll _; exact (p_back_mid _ _ _ _ _ B)|].
    split; [|exact (IH Hz ((P ++ [x]) ++ [m]))]. apply p_dec2_at_intro. intros ll L. rewrite <- app_assoc in L. destruct (last2_fun _ _ _ _ _ L (last2_two P x m)) as [_ ->]. exact (p_back_mid2 _ _ _ _ _ B).
  - split; [|exact I]. apply p_dec2_at_intro. intros ll _. exact (p_back_apos _ _ _ _ _ Hx Hm).
Qed.

Definition p_core_shape (c : N) (r : text) : Prop := r = [] \/ p_flagc c /\ (exists d, p_flagc d /\ r = [d]) \/ phrase_char c /\ p_chain c r.
Lemma p_okr_shape : forall c r, p_okr [c] r <-> p_core_shape c r.
Proof.
  intros c r. split.
  - destruct r as [|d r]; [left; reflexivity|]. intros H. destruct (phrase_char_dec c) as [Hc|Hc]; [right; right; split; [exact Hc|exact (p_okr_chain _ _ [] c (le_n _) Hc H)]|].
    right. left. cbn [p_okr] in H. destruct H as [H1 H2]. assert (L : last2 [c] (Some c) None) by (right; left; exists c; auto).
    destruct (p_step_start _ _ _ _ (H1 _ _ L)) as [Q|[O F]]; [contradiction|]. change [c] with ([] ++ [c]) in O. rewrite trun_snoc in O. destruct (wri c) eqn:E; [|discriminate O]. apply p_ri_iff in E. split; [exact E|].
    exists d. split; [exact F|]. destruct r as [|e r]; [reflexivity|]. exfalso. cbn [p_okr] in H2. destruct H2 as [H2 _].
    apply (p_step_flag d (Some c) 2 e (hd_error r) F eq_refl). pose proof (H2 _ _ (last2_two [] c d)) as K. replace (trun wri ([c] ++ [d])) with 2 in K; [exact K|]. rewrite trun_snoc. change [c] with ([] ++ [c]). rewrite trun_snoc. rewrite (proj2 (p_ri_iff _) F : wri d = true), (proj2 (p_ri_iff _) E : wri c = true). reflexivity.
  - intros [->|[[F (d & Fd & ->)]|[W C]]]; [exact I| |exact (p_chain_okr _ _ C W [])]. cbn [p_okr]. split; [|exact I]. change [c] with ([] ++ [c]). apply p_dec2_at_intro. intros ll _. apply p_dec2_join. do 14 right. left. split; [|exact Fd].
    rewrite trun_snoc, (proj2 (p_ri_iff _) F : wri c = true). reflexivity.
Qed.


(** ** On the text *)
Fixpoint p_glue (b a : text) : Prop := match a with [] => True | y :: a' => dec (wtrack b) y (after_red y a') = Join /\ p_glue (b ++ [y]) a' end.
Lemma p_glue_iff : forall a b, p_glue b a <-> forall u y v, a = u ++ y :: v -> dec (wtrack (b ++ u)) y (after_red y v) = Join.
Proof.
  induction a as [|c a IH]; intros b; cbn [p_glue].
  - split; [intros _ u y v E; destruct u; discriminate E|auto].
  - rewrite IH. split.
    + intros [H1 H2] [|z u] y v E; injection E as <- E; [subst; rewrite app_nil_r; exact H1|]. rewrite <- (H2 u y v E), <- app_assoc. reflexivity.
    + intros H. split; [rewrite <- (H [] c a eq_refl), app_nil_r; reflexivity|]. intros u y v ->. rewrite <- app_assoc. exact (H (c :: u) y v eq_refl).
Qed.
Lemma p_single_glue : forall c t, segmentation phrase_decides (c :: t) [c :: t] <-> p_glue [c] t.
Proof.
  intros c t. rewrite p_glue_iff. split.
  - intros G u y v ->. pose proof (proj2 (proj2 G) (c :: u) (y :: v) ltac:(discriminate) ltac:(discriminate) eq_refl) as [_ H2].
    destruct (exists_last (l := c :: u) ltac:(discriminate)) as (b & x & E). pose proof (word_spec phrase_letter [Phrasal] eq_refl b x y v) as Q. rewrite <- E in Q. change ([c] ++ u) with (c :: u).
    destruct (dec (wtrack (c :: u)) y (after_red y v)) eqn:K; [reflexivity|]. exfalso. destruct (H2 Q) as (s1 & s2 & E1 & E2).
    destruct s1 as [|z s1]; [discriminate E2|]. injection E1 as <- E1. symmetry in E1. apply app_eq_nil in E1 as [-> _]. cbn [concat] in E2. rewrite app_nil_r in E2. apply (f_equal (@length N)) in E2. cbn [length] in E2. rewrite app_length in E2. cbn [length] in E2. lia.
  - intros H. split; [cbn [concat]; apply app_nil_r|]. split; [constructor; [discriminate|constructor]|]. intros b a Nb Na E. split.
    + intros (s1 & s2 & E1 & E2). exfalso. destruct s1 as [|z s1]; [apply Nb; symmetry; exact E2|]. injection E1 as <- E1. symmetry in E1. apply app_eq_nil in E1 as [-> _]. cbn [concat] in E2. rewrite app_nil_r in E2. rewrite <- E2 in E.
      destruct a as [|y a]; [contradiction|]. apply (f_equal (@length N)) in E. rewrite app_length in E. cbn [length] in E. lia.
    + intros B. exfalso. destruct b as [|z u]; [contradiction|]. destruct a as [|y v]; [contradiction|]. injection E as <- E. specialize (H u y v E).
      destruct (exists_last (l := c :: u) ltac:(discriminate)) as (b & x & Eb). pose proof (word_spec phrase_letter [Phrasal] eq_refl b x y v) as Q. rewrite <- Eb in Q. change ([c] ++ u) with (c :: u) in H. rewrite H in Q. exact (w_excl _ [Phrasal] _ _ B Q).
Qed.

Lemma p_dec1_calm : forall x y, ~ line_char x -> ~ line_char y ->
  word_dec1 (Some x) y = if wc WB_ZWJ x && ExtPict y then Some Join else if wc WB_WSegSpace x && wc WB_WSegSpace y then Some Join else if ignored y then Some Join else None.
Proof.
  intros x y Hx Hy. unfold word_dec1. cbn [on].
  assert (A1 : spred CR x && spred LF y = false). { destruct (spred CR x && spred LF y) eqn:E; [|reflexivity]. apply andb_true_iff in E as [E _]. apply wc_iff in E. elim Hx. left. exact E. }
  assert (A2 : forall c, ~ line_char c -> spred (Alt Newline (Alt CR LF)) c = false). { intros c Hc. destruct (spred _ c) eqn:E; [|reflexivity]. cbn [spred Newline CR LF] in E. rewrite !orb_true_iff, !wc_iff in E. elim Hc. unfold line_char. tauto. }
  rewrite A1, (A2 x Hx), (A2 y Hy). reflexivity.
Qed.
Lemma p_dec_at : forall b y n q, n = hd_error q -> (dec2 (w_lx (wtrack b)) (w_ll (wtrack b)) (w_run (wtrack b)) y n = Join <-> p_dec2_at (red b) y q).
Proof.
  intros b y n q ->. destruct (wtrack_facts b) as (_ & H2 & H3). rewrite H3. split.
  - intros J lx ll L. destruct (last2_fun _ _ _ _ _ L H2) as [-> ->]. exact J.
  - intros J. exact (J _ _ H2).
Qed.
Lemma red_tail : forall b h ms, ~ word_mark h -> ~ line_char h -> Forall word_mark ms -> red (b ++ h :: ms) = red b ++ [h].
Proof.
  intros b h ms Nh Lh F. unfold red. rewrite reduce_app. f_equal. cbn [reduce]. destruct (ignored h) eqn:E; [apply mark_iff in E; contradiction|]. cbn [andb]. f_equal.
  rewrite (reduce_bases ms (Some h) Lh); [apply bases_none; exact F|]. eapply Forall_impl; [|exact F]. intros c Q. exact (proj1 (mark_calm c Q)).
Qed.
Lemma p_marks : forall h, phrase_char h -> ~ word_mark h.
Proof. intros h H Q. unfold word_mark in Q. rewrite !(pclass_wb _ h) in Q by discriminate. pclasses. intuition congruence. Qed.
Lemma p_lines : forall h, phrase_char h -> ~ line_char h.
Proof. intros h H Q. unfold line_char in Q. rewrite !(pclass_wb _ h) in Q by discriminate. pclasses. intuition congruence. Qed.
Lemma pict_letter : forall y, ExtPict y = true -> p_letter y.
Proof. intros y E. left. unfold pclass. rewrite E. reflexivity. Qed.

Lemma p_glue_okr : forall a b x, Forall (fun c => ~ line_char c) ((b ++ [x]) ++ a) -> joined_well ((b ++ [x]) ++ a) ->
  p_glue (b ++ [x]) a <-> p_okr (red (b ++ [x])) (bases a).
Proof.
  induction a as [|y a IH]; intros b x F Z; [reflexivity|]. pose proof F as F0. apply Forall_app in F0 as [F1 F2]. inversion F2 as [|? ? Hy Fa]; subst. apply Forall_app in F1 as [_ F1]. inversion F1 as [|? ? Hx _]; subst.
  assert (IH' : p_glue ((b ++ [x]) ++ [y]) a <-> p_okr (red ((b ++ [x]) ++ [y])) (bases a)) by (apply IH; rewrite <- app_assoc; assumption).
  cbn [p_glue]. rewrite IH'. cbn [bases filter]. fold (bases a). unfold word_dec. rewrite wl_snoc, (p_dec1_calm x y Hx Hy). destruct (ignored y) eqn:E; cbn [negb].
  - apply mark_iff in E. rewrite (red_mark b x y Hx E). destruct (wc WB_ZWJ x && ExtPict y), (wc WB_WSegSpace x && wc WB_WSegSpace y); tauto.
  - assert (Ny : ~ word_mark y) by (intros Q; apply mark_iff in Q; congruence). cbn [p_okr]. rewrite (red_base (b ++ [x]) y Ny).
    assert (K : match (if wc WB_ZWJ x && ExtPict y then Some Join else if wc WB_WSegSpace x && wc WB_WSegSpace y then Some Join else None) with
      | Some o => o | None => dec2 (w_lx (wtrack (b ++ [x]))) (w_ll (wtrack (b ++ [x]))) (w_run (wtrack (b ++ [x]))) y (after_red y a) end = Join <-> p_dec2_at (red (b ++ [x])) y (bases a)); [|rewrite K; reflexivity].
    destruct (wc WB_ZWJ x && ExtPict y) eqn:EZ.
    { split; [intros _|reflexivity]. apply andb_true_iff in EZ as [Z1 Z2]. apply wc_iff in Z1. destruct (Z b x y a) as (b' & h & ms & Eb & Fm & Hh); [rewrite <- app_assoc; reflexivity|exact Z1|exact Z2|].
      assert (Ph : phrase_char h) by (unfold phrase_char; tauto). rewrite Eb, (red_tail b' h ms (p_marks h Ph) (p_lines h Ph) Fm). apply p_dec2_at_intro. intros ll _. apply p_dec2_join. pose proof (pict_letter y Z2) as Ly.
      destruct Hh as [Hh|Hh]; [do 15 right; split; [exact Hh|left; exact Ly]|do 13 right; left; split; [exact Hh|left; exact Ly]]. }
    destruct (wc WB_WSegSpace x && wc WB_WSegSpace y) eqn:ES.
    { split; [intros _|reflexivity]. apply andb_true_iff in ES as [S1 S2]. apply p_sp_iff in S1, S2. assert (Px : phrase_char x) by (left; right; right; exact S1).
      rewrite (red_base b x (p_marks x Px)). apply p_dec2_at_intro. intros ll _. apply p_dec2_join. do 15 right. split; right; right; assumption. }
    apply p_dec_at. exact (after_bases y a Hy Fa).
Qed.
Lemma p_glue_calm : forall a b x, ~ line_char x -> p_glue (b ++ [x]) a -> Forall (fun c => ~ line_char c) a.
Proof.
  induction a as [|y a IH]; intros b x Hx H; [constructor|]. cbn [p_glue] in H. destruct H as [J H]. destruct (line_dec y) as [Ly|Ly].
  - unfold word_dec in J. rewrite wl_snoc, (line_stop x y Hx Ly) in J. discriminate J.
  - constructor; [exact Ly|exact (IH (b ++ [x]) y Ly H)].
Qed.
Lemma p_glue_line : forall c t, line_char c -> p_glue [c] t <-> t = [] \/ exists y, WB c = WB_CR /\ WB y = WB_LF /\ t = [y].
Proof.
  intros c t Hc. split.
  - destruct t as [|y t]; [left; reflexivity|]. cbn [p_glue]. unfold word_dec. change [c] with ([] ++ [c]). rewrite wl_snoc. intros [J H]. right. exists y.
    assert (K : WB c = WB_CR /\ WB y = WB_LF).
    { destruct (wc WB_CR c) eqn:E1; [destruct (wc WB_LF y) eqn:E2; [apply wc_iff in E1, E2; auto|]|]; (rewrite stop_line in J; [discriminate J|exact Hc|]); intros [Q1 Q2]; apply wc_iff in Q1, Q2; congruence. }
    destruct K as [K1 K2]. split; [exact K1|]. split; [exact K2|]. f_equal. destruct t as [|z t]; [reflexivity|]. cbn [p_glue] in H. unfold word_dec in H. rewrite wl_snoc in H. destruct H as [H _].
    rewrite stop_line in H; [discriminate H|right; left; exact K2|rewrite K2; intros [Q _]; discriminate Q].
  - intros [->|(y & E1 & E2 & ->)]; [exact I|]. cbn [p_glue]. split; [|exact I]. unfold word_dec. change [c] with ([] ++ [c]). rewrite wl_snoc. unfold word_dec1. cbn [on spred CR LF]. rewrite (proj2 (wc_iff _ c) E1), (proj2 (wc_iff _ y) E2). reflexivity.
Qed.
Lemma p_between_chars3 : forall x m z, p_between x m z -> ~ line_char m /\ ~ line_char z.
Proof.
  intros x m z B. destruct (p_between_chars _ _ _ B) as (_ & Hz & _). split; [|exact (p_lines z Hz)]. intros Q. unfold line_char in Q. rewrite !(pclass_wb _ m) in Q by discriminate. pclasses. intuition congruence.
Qed.
Lemma p_chain_calm : forall x r, p_chain x r -> Forall (fun c => ~ line_char c) r.
Proof.
  intros x r C. induction C as [x|x y r Hy G C IH|x m z r B C IH|x m Hx Hm].
  - constructor.
  - constructor; [exact (p_lines y Hy)|exact IH].
  - destruct (p_between_chars3 _ _ _ B). constructor; [assumption|constructor; assumption].
  - constructor; [|constructor]. intros Q. unfold line_char in Q. rewrite !(pclass_wb _ m) in Q by discriminate. pclasses. intuition congruence.
Qed.
Lemma p_shape_calm : forall s, phrase_shape s -> forall c t, s = c :: t -> ~ line_char c -> Forall (fun c => ~ line_char c) t.
Proof.
  intros s H c t E Hc. assert (M : forall c, word_mark c -> ~ line_char c) by (intros d Q; exact (proj1 (mark_calm d Q))). destruct H as [x y Ex Ey|d L|x y u Ex Ey Eb|x u Wx C|d u L F].
  - injection E as <- _. elim Hc. left. exact Ex.
  - injection E as <- _. contradiction.
  - injection E as _ <-. apply (bases_all _ u M). rewrite Eb. constructor; [|constructor]. unfold line_char. rewrite Ey. intuition discriminate.
  - injection E as _ <-. exact (bases_all _ u M (p_chain_calm _ _ C)).
  - injection E as _ <-. exact (Forall_impl _ M F).
Qed.

Theorem phrase_shape_single : forall s, s <> [] -> joined_well s -> segmentation phrase_decides s [s] <-> phrase_shape s.
Proof.
  intros s Ns Z. destruct s as [|c t]; [contradiction|]. rewrite p_single_glue. destruct (line_dec c) as [Lc|Lc].
  - rewrite (p_glue_line c t Lc). split.
    + intros [->|(y & E1 & E2 & ->)]; [apply PShape_line; exact Lc|apply PShape_crlf; assumption].
    + intros H. remember (c :: t) as s eqn:E. destruct H as [x y Ex Ey|d L|x y u Ex Ey Eb|x u Wx C|d u L F].
      * injection E as <- <-. right. exists y. auto.
      * injection E as <- <-. left. reflexivity.
      * injection E as -> _. exfalso. revert Lc. unfold line_char. rewrite Ex. intuition discriminate.
      * injection E as -> _. elim (p_lines c Wx Lc).
      * injection E as -> _. contradiction.
  - assert (G : forall X Y : Prop, (Forall (fun c => ~ line_char c) t -> (X <-> Y)) -> (X -> Forall (fun c => ~ line_char c) t) -> (Y -> Forall (fun c => ~ line_char c) t) -> (X <-> Y)) by tauto.
    apply G; [|exact (p_glue_calm t [] c Lc)|intros H; exact (p_shape_calm _ H c t eq_refl Lc)]. clear G. intros F.
    change [c] with ([] ++ [c]). rewrite (p_glue_okr t [] c); [|constructor; assumption|exact Z]. cbn [app].
    replace (red [c]) with [c] by (unfold red; cbn [reduce]; rewrite andb_false_r; reflexivity). rewrite p_okr_shape. unfold p_core_shape, p_flagc. split.
    + intros [H|[[Fc (d & Fd & H)]|[W C]]]; [apply PShape_other; [exact Lc|apply bases_none; exact H]| |exact (PShape_phrase c t W C)].
      apply (PShape_flag c d t); [apply pclass_wb in Fc; [exact Fc|discriminate|discriminate]|apply pclass_wb in Fd; [exact Fd|discriminate|discriminate]|exact H].
    + intros H. remember (c :: t) as s eqn:E. destruct H as [x y Ex Ey|d L|x y u Ex Ey Eb|x u Wx C|d u L Fu].
      * injection E as -> _. elim Lc. left. exact Ex.
      * injection E as -> _. contradiction.
      * injection E as -> ->. right. left. split; [apply pclass_wb; [discriminate|discriminate|exact Ex]|]. exists y. split; [apply pclass_wb; [discriminate|discriminate|exact Ey]|exact Eb].
      * injection E as -> ->. right. right. auto.
      * injection E as -> ->. left. apply bases_none. exact Fu.
Qed.
