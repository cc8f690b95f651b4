(** Words are the texts of the shapes. *)
From Verif Require Import Base ListFacts SpecUcd SpecRules SpecWords SpecSpace SpecShape RuleFacts WordFacts SpaceFacts GreedyFacts.

Local Notation dec2 := (word_dec2 (wc WB_ALetter) []).
Local Notation dec := (word_dec (wc WB_ALetter) []).
Definition isp (P : N -> Prop) (o : option N) : Prop := match o with Some x => P x | None => False end.
Lemma wc_iff : forall k c, wc k c = true <-> WB c = k.
Proof. intros k c. unfold wc. split; [apply internal_wb_dec_bl|apply internal_wb_dec_lb]. Qed.
Lemma on_iff : forall p P, (forall c, p c = true <-> P c) -> forall o, on p o = true <-> isp P o.
Proof. intros p P H [x|]; [apply H|]. cbn. split; [discriminate|tauto]. Qed.

Definition mlet (m : N) : Prop := WB m = WB_MidLetter \/ WB m = WB_MidNumLet \/ single_quote m.
Definition mnum (m : N) : Prop := WB m = WB_MidNum \/ WB m = WB_MidNumLet \/ single_quote m.
Definition dq (m : N) : Prop := WB m = WB_Double_Quote.
Definition flagc (m : N) : Prop := WB m = WB_Regional_Indicator.

Lemma ah_iff : forall c, spred (AHLetter (wc WB_ALetter)) c = true <-> letter c.
Proof. intros c. unfold AHLetter, HebrewLetter, letter, hebrew. cbn [spred]. rewrite orb_true_iff, !wc_iff. reflexivity. Qed.
Lemma ml_iff : forall c, spred (Alt MidLetter MidNumLetQ) c = true <-> mlet c.
Proof. intros c. unfold MidLetter, MidNumLetQ, MidNumLet, SingleQuote, mlet, single_quote. cbn [spred]. rewrite !orb_true_iff, !wc_iff. reflexivity. Qed.
Lemma mn_iff : forall c, spred (Alt MidNum MidNumLetQ) c = true <-> mnum c.
Proof. intros c. unfold MidNum, MidNumLetQ, MidNumLet, SingleQuote, mnum, single_quote. cbn [spred]. rewrite !orb_true_iff, !wc_iff. reflexivity. Qed.
Lemma he_iff : forall c, spred HebrewLetter c = true <-> hebrew c.
Proof. intros c. apply wc_iff. Qed.
Lemma sq_iff : forall c, spred SingleQuote c = true <-> single_quote c.
Proof. intros c. apply wc_iff. Qed.
Lemma dq_iff : forall c, spred DoubleQuote c = true <-> dq c.
Proof. intros c. apply wc_iff. Qed.
Lemma nu_iff : forall c, spred Numeric c = true <-> digit c.
Proof. intros c. apply wc_iff. Qed.
Lemma ka_iff : forall c, spred Katakana c = true <-> katakana c.
Proof. intros c. apply wc_iff. Qed.
Lemma en_iff : forall c, spred ExtendNumLet c = true <-> connector c.
Proof. intros c. apply wc_iff. Qed.
Lemma ri_iff : forall c, spred RI c = true <-> flagc c.
Proof. intros c. apply wc_iff. Qed.
Lemma wch_iff : forall c, spred (Alt (AHLetter (wc WB_ALetter)) (Alt Numeric (Alt Katakana ExtendNumLet))) c = true <-> word_char c.
Proof. intros c. unfold word_char. rewrite <- ah_iff, <- nu_iff, <- ka_iff, <- en_iff. cbn [spred]. rewrite !orb_true_iff. reflexivity. Qed.
Lemma lnk_iff : forall c, spred (Alt (AHLetter (wc WB_ALetter)) (Alt Numeric Katakana)) c = true <-> letter c \/ digit c \/ katakana c.
Proof. intros c. rewrite <- ah_iff, <- nu_iff, <- ka_iff. cbn [spred]. rewrite !orb_true_iff. reflexivity. Qed.

Lemma dec2_join : forall lx ll run y n, dec2 lx ll run y n = Join <->
  isp letter lx /\ letter y \/ isp letter lx /\ (mlet y /\ isp letter n) \/ (isp mlet lx /\ isp letter ll) /\ letter y
  \/ isp hebrew lx /\ single_quote y \/ isp hebrew lx /\ (dq y /\ isp hebrew n) \/ (isp dq lx /\ isp hebrew ll) /\ hebrew y
  \/ isp digit lx /\ digit y \/ isp letter lx /\ digit y \/ isp digit lx /\ letter y
  \/ (isp mnum lx /\ isp digit ll) /\ digit y \/ isp digit lx /\ (mnum y /\ isp digit n)
  \/ isp katakana lx /\ katakana y \/ isp word_char lx /\ connector y \/ isp connector lx /\ (letter y \/ digit y \/ katakana y)
  \/ Nat.odd run = true /\ flagc y.
Proof.
  intros lx ll run y n.
  rewrite <- !(on_iff _ _ ah_iff), <- !(on_iff _ _ ml_iff), <- !(on_iff _ _ mn_iff), <- !(on_iff _ _ he_iff), <- !(on_iff _ _ dq_iff), <- !(on_iff _ _ nu_iff), <- !(on_iff _ _ ka_iff), <- !(on_iff _ _ en_iff), <- !(on_iff _ _ wch_iff), <- lnk_iff, <- ri_iff, <- ah_iff, <- ml_iff, <- mn_iff, <- sq_iff, <- dq_iff, <- he_iff, <- nu_iff, <- ka_iff, <- en_iff.
  rewrite <- !andb_true_iff, <- !orb_true_iff. unfold word_dec2. cbn [existsb].
  repeat match goal with |- context [if ?c then _ else _] => destruct c; cbn [orb]; [split; reflexivity|] end. split; discriminate.
Qed.

Ltac classes := unfold word_char, go_together, between, letter, hebrew, digit, katakana, connector, single_quote, mlet, mnum, dq, flagc in *; cbn [isp] in *.
Lemma step_core : forall x ll run y n, word_char x -> word_char y -> dec2 (Some x) ll run y n = Join -> go_together x y.
Proof. intros x ll run y n Hx Hy J. apply dec2_join in J. classes. destruct Hx as [[Hx|Hx]|[Hx|[Hx|Hx]]], Hy as [[Hy|Hy]|[Hy|[Hy|Hy]]]; rewrite Hx, Hy in *; intuition congruence. Qed.
Lemma step_mid : forall x ll run y n, word_char x -> Nat.odd run = false -> ~ word_char y -> dec2 (Some x) ll run y n = Join -> (exists z, n = Some z /\ between x y z) \/ hebrew x /\ single_quote y.
Proof.
  intros x ll run y n Hx Hr Hy J. apply dec2_join in J. rewrite Hr in J. destruct n as [z|].
  - assert (B : between x y z \/ hebrew x /\ single_quote y).
    { classes. repeat (destruct J as [J|J]); try solve [intuition congruence]. }
    destruct B as [B|B]; [left; exists z; auto|right; exact B].
  - right. classes. repeat (destruct J as [J|J]); try solve [intuition congruence].
Qed.
Lemma step_apos : forall m x run z n, hebrew x -> single_quote m -> Nat.odd run = false -> dec2 (Some m) (Some x) run z n = Join -> letter z.
Proof. intros m x run z n Hx Hm Hr J. apply dec2_join in J. rewrite Hr in J. classes. repeat (destruct J as [J|J]); try solve [intuition congruence]. Qed.
Lemma step_start : forall c run d n, dec2 (Some c) None run d n = Join -> word_char c \/ Nat.odd run = true /\ flagc d.
Proof. intros c run d n J. apply dec2_join in J. classes. repeat (destruct J as [J|J]); try solve [intuition congruence]. Qed.
Lemma step_flag : forall x ll run y n, flagc x -> Nat.odd run = false -> dec2 (Some x) ll run y n = Join -> False.
Proof. intros x ll run y n Hx Hr J. apply dec2_join in J. rewrite Hr in J. classes. repeat (destruct J as [J|J]); try solve [intuition congruence]. Qed.
Lemma step_space : forall lx ll run y n, dec2 lx ll run y n = Join -> WB y <> WB_WSegSpace.
Proof. intros lx ll run y n J E. apply dec2_join in J. classes. repeat (destruct J as [J|J]); try solve [intuition congruence]. Qed.
Lemma space_step : forall x ll run y n, WB x = WB_WSegSpace -> Nat.odd run = false -> dec2 (Some x) ll run y n = Join -> False.
Proof. intros x ll run y n E Hr J. apply dec2_join in J. rewrite Hr in J. classes. repeat (destruct J as [J|J]); try solve [intuition congruence]. Qed.
Lemma back_core : forall x ll run y n, word_char x -> word_char y -> go_together x y -> dec2 (Some x) ll run y n = Join.
Proof. intros x ll run y n Hx Hy [G1 G2]. apply dec2_join. classes. destruct Hx as [[Hx|Hx]|[Hx|[Hx|Hx]]], Hy as [[Hy|Hy]|[Hy|[Hy|Hy]]]; rewrite Hx, Hy in *; tauto. Qed.
Lemma back_mid : forall x ll run m z, between x m z -> dec2 (Some x) ll run m (Some z) = Join.
Proof. intros x ll run m z B. apply dec2_join. classes. tauto. Qed.
Lemma back_mid2 : forall x run m z n, between x m z -> dec2 (Some m) (Some x) run z n = Join.
Proof. intros x run m z n B. apply dec2_join. classes. tauto. Qed.
Lemma back_apos : forall x ll run m n, hebrew x -> single_quote m -> dec2 (Some x) ll run m n = Join.
Proof. intros x ll run m n H1 H2. apply dec2_join. classes. tauto. Qed.
Lemma between_chars : forall x m z, between x m z -> word_char x /\ word_char z /\ ~ word_char m.
Proof. intros x m z B. classes. intuition congruence. Qed.
Lemma word_char_dec : forall c, word_char c \/ ~ word_char c.
Proof. intros c. destruct (spred (Alt (AHLetter (wc WB_ALetter)) (Alt Numeric (Alt Katakana ExtendNumLet))) c) eqn:E; [left|right]; rewrite <- wch_iff; congruence. Qed.

(** ** On the characters that are not marks *)
Definition dec2_at (P : text) (y : N) (q : text) : Prop := forall lx ll, last2 P lx ll -> dec2 lx ll (trun wri P) y (hd_error q) = Join.
Fixpoint okr (P r : text) : Prop := match r with [] => True | y :: q => dec2_at P y q /\ okr (P ++ [y]) q end.
Lemma trun_word : forall P x, word_char x -> trun wri (P ++ [x]) = 0.
Proof. intros P x Hx. rewrite trun_snoc. unfold wri. destruct (wc WB_Regional_Indicator x) eqn:E; [|reflexivity]. apply wc_iff in E. classes. intuition congruence. Qed.
Lemma last2_two : forall P x y, last2 (P ++ [x; y]) (Some y) (Some x).
Proof. intros P x y. right. right. exists P, x, y. auto. Qed.
Lemma last2_fun : forall r a b c d, last2 r a b -> last2 r c d -> a = c /\ b = d.
Proof.
  intros r a b c d [(E & -> & ->)|[(z & E & -> & ->)|(r0 & y & z & E & -> & ->)]] [(E' & -> & ->)|[(z' & E' & -> & ->)|(r0' & y' & z' & E' & -> & ->)]]; subst r; auto; try discriminate E'.
  - destruct r0'; discriminate E'.
  - injection E' as ->. auto.
  - destruct r0' as [|? [|? ?]]; discriminate E'.
  - destruct r0; discriminate E'.
  - destruct r0 as [|? [|? ?]]; discriminate E'.
  - change [y; z] with ([y] ++ [z]) in E'. change [y'; z'] with ([y'] ++ [z']) in E'. rewrite !app_assoc in E'. apply app_inj_tail in E' as [E' ->]. apply app_inj_tail in E' as [_ ->]. auto.
Qed.

Lemma okr_chain : forall n r P x, length r <= n -> word_char x -> okr (P ++ [x]) r -> chain x r.
Proof.
  induction n as [|n IH]; intros [|y q] P x L Hx H; try (cbn [length] in L; lia); [constructor|constructor|].
  cbn [okr length] in *. destruct H as [H1 H2]. destruct (raw_last2 P x) as (ll & L2). pose proof (H1 _ _ L2) as J. rewrite (trun_word P x Hx) in J.
  destruct (word_char_dec y) as [Hy|Hy].
  - apply Chain_next; [exact Hy|exact (step_core _ _ _ _ _ Hx Hy J)|]. apply (IH q (P ++ [x]) y); [lia|exact Hy|exact H2].
  - assert (T : trun wri ((P ++ [x]) ++ [y]) = (if wri y then 1 else 0)) by (rewrite trun_snoc, (trun_word P x Hx); reflexivity).
    destruct (step_mid x ll 0 y (hd_error q) Hx eq_refl Hy J) as [(z & En & B)|[Hh Hs]].
    + destruct q as [|z' q]; [discriminate En|]. injection En as ->. cbn [okr length] in *. destruct (between_chars _ _ _ B) as (_ & Hz & _).
      apply Chain_inside; [exact B|]. apply (IH q ((P ++ [x]) ++ [y]) z); [lia|exact Hz|exact (proj2 H2)].
    + destruct q as [|z q]; [apply Chain_apostrophe; assumption|]. cbn [okr length] in *. destruct H2 as [H2 H3].
      assert (W : wri y = false). { unfold wri. destruct (wc WB_Regional_Indicator y) eqn:E; [|reflexivity]. apply wc_iff in E. classes. congruence. }
      assert (L3 : last2 ((P ++ [x]) ++ [y]) (Some y) (Some x)) by (rewrite <- app_assoc; apply last2_two).
      pose proof (H2 _ _ L3) as K. rewrite T, W in K. pose proof (step_apos y x 0 z (hd_error q) Hh Hs eq_refl K) as Hz.
      apply Chain_inside; [left; split; [right; exact Hh|]; split; [right; right; exact Hs|exact Hz]|]. apply (IH q ((P ++ [x]) ++ [y]) z); [lia|left; exact Hz|exact H3].
Qed.
Lemma dec2_at_intro : forall P x y q, (forall ll, last2 (P ++ [x]) (Some x) ll -> dec2 (Some x) ll (trun wri (P ++ [x])) y (hd_error q) = Join) -> dec2_at (P ++ [x]) y q.
Proof. intros P x y q H lx ll L. destruct (raw_last2 P x) as (l2 & L2). destruct (last2_fun _ _ _ _ _ L L2) as [-> ->]. exact (H l2 L2). Qed.
Lemma chain_okr : forall x r, chain x r -> word_char x -> forall P, okr (P ++ [x]) r.
Proof.
  intros x r C. induction C as [x|x y r Hy G C IH|x m z r B C IH|x m Hx Hm]; intros Wx P; cbn [okr].
  - exact I.
  - split; [apply dec2_at_intro; intros ll _; exact (back_core _ _ _ _ _ Wx Hy G)|]. exact (IH Hy (P ++ [x])).
  - destruct (between_chars _ _ _ B) as (_ & Hz & _). split; [apply dec2_at_intro; intros ll _; exact (back_mid _ _ _ _ _ B)|].
    split; [|exact (IH Hz ((P ++ [x]) ++ [m]))]. apply dec2_at_intro. intros ll L. rewrite <- app_assoc in L. destruct (last2_fun _ _ _ _ _ L (last2_two P x m)) as [_ ->]. exact (back_mid2 _ _ _ _ _ B).
  - split; [|exact I]. apply dec2_at_intro. intros ll _. exact (back_apos _ _ _ _ _ Hx Hm).
Qed.

Definition core_shape (c : N) (r : text) : Prop := r = [] \/ flagc c /\ (exists d, flagc d /\ r = [d]) \/ word_char c /\ chain c r.
Lemma okr_shape : forall c r, okr [c] r <-> core_shape c r.
Proof.
  intros c r. split.
  - destruct r as [|d r]; [left; reflexivity|]. intros H. destruct (word_char_dec c) as [Hc|Hc]; [right; right; split; [exact Hc|exact (okr_chain _ _ [] c (le_n _) Hc H)]|].
    right. left. cbn [okr] in H. destruct H as [H1 H2]. assert (L : last2 [c] (Some c) None) by (right; left; exists c; auto).
    destruct (step_start _ _ _ _ (H1 _ _ L)) as [Q|[O F]]; [contradiction|]. change [c] with ([] ++ [c]) in O. rewrite trun_snoc in O. destruct (wri c) eqn:E; [|discriminate O]. apply wc_iff in E. split; [exact E|].
    exists d. split; [exact F|]. destruct r as [|e r]; [reflexivity|]. exfalso. cbn [okr] in H2. destruct H2 as [H2 _].
    apply (step_flag d (Some c) 2 e (hd_error r) F eq_refl). pose proof (H2 _ _ (last2_two [] c d)) as K. replace (trun wri ([c] ++ [d])) with 2 in K; [exact K|]. rewrite trun_snoc. change [c] with ([] ++ [c]). rewrite trun_snoc. rewrite (proj2 (wc_iff _ _) F : wri d = true), (proj2 (wc_iff _ _) E : wri c = true). reflexivity.
  - intros [->|[[F (d & Fd & ->)]|[W C]]]; [exact I| |exact (chain_okr _ _ C W [])]. cbn [okr]. split; [|exact I]. change [c] with ([] ++ [c]). apply dec2_at_intro. intros ll _. apply dec2_join. do 14 right. split; [|exact Fd].
    rewrite trun_snoc, (proj2 (wc_iff _ _) F : wri c = true). reflexivity.
Qed.

(** ** On the text *)
Lemma mark_iff : forall c, ignored c = true <-> word_mark c.
Proof. intros c. unfold ignored, word_mark. rewrite !orb_true_iff, !wc_iff. tauto. Qed.
Lemma line_iff : forall c, line_end c = true <-> line_char c.
Proof. intros c. unfold line_end, line_char. rewrite !orb_true_iff, !wc_iff. tauto. Qed.
Lemma space_iff : forall c, is_space c <-> WB c = WB_WSegSpace.
Proof. intros c. split; [intros I; exact (proj1 (space_wb c I))|exact (spaces_all c)]. Qed.
Lemma line_no : forall c, ~ line_char c -> line_end c = false.
Proof. intros c H. destruct (line_end c) eqn:E; [apply line_iff in E; contradiction|reflexivity]. Qed.
Lemma reduce_bases : forall t p, match p with Some x => ~ line_char x | None => False end -> Forall (fun c => ~ line_char c) t -> reduce ignored line_end p t = bases t.
Proof.
  induction t as [|c t IH]; intros p Hp F; [reflexivity|]. inversion F as [|? ? Hc Ft]; subst. cbn [reduce bases filter]. destruct p as [x|]; [|contradiction]. rewrite (line_no x Hp). cbn [negb]. rewrite andb_true_r.
  fold (bases t). rewrite (IH (Some c) Hc Ft). destruct (ignored c); reflexivity.
Qed.

Fixpoint glue (b a : text) : Prop := match a with [] => True | y :: a' => dec (wtrack b) y (after_red y a') = Join /\ glue (b ++ [y]) a' end.
Lemma glue_iff : forall a b, glue b a <-> forall u y v, a = u ++ y :: v -> dec (wtrack (b ++ u)) y (after_red y v) = Join.
Proof.
  induction a as [|c a IH]; intros b; cbn [glue].
  - split; [intros _ u y v E; destruct u; discriminate E|auto].
  - rewrite IH. split.
    + intros [H1 H2] [|z u] y v E; injection E as <- E; [subst; rewrite app_nil_r; exact H1|]. rewrite <- (H2 u y v E), <- app_assoc. reflexivity.
    + intros H. split; [rewrite <- (H [] c a eq_refl), app_nil_r; reflexivity|]. intros u y v ->. rewrite <- app_assoc. exact (H (c :: u) y v eq_refl).
Qed.
Lemma single_glue : forall c t, segmentation word_decides (c :: t) [c :: t] <-> glue [c] t.
Proof.
  intros c t. rewrite glue_iff. split.
  - intros G u y v ->. pose proof (proj2 (proj2 G) (c :: u) (y :: v) ltac:(discriminate) ltac:(discriminate) eq_refl) as [_ H2].
    destruct (exists_last (l := c :: u) ltac:(discriminate)) as (b & x & E). pose proof (word_spec (wc WB_ALetter) [] eq_refl b x y v) as Q. rewrite <- E in Q. change ([c] ++ u) with (c :: u).
    destruct (dec (wtrack (c :: u)) y (after_red y v)) eqn:K; [reflexivity|]. exfalso. destruct (H2 Q) as (s1 & s2 & E1 & E2).
    destruct s1 as [|z s1]; [discriminate E2|]. injection E1 as <- E1. symmetry in E1. apply app_eq_nil in E1 as [-> _]. cbn [concat] in E2. rewrite app_nil_r in E2. apply (f_equal (@length N)) in E2. cbn [length] in E2. rewrite app_length in E2. cbn [length] in E2. lia.
  - intros H. split; [cbn [concat]; apply app_nil_r|]. split; [constructor; [discriminate|constructor]|]. intros b a Nb Na E. split.
    + intros (s1 & s2 & E1 & E2). exfalso. destruct s1 as [|z s1]; [apply Nb; symmetry; exact E2|]. injection E1 as <- E1. symmetry in E1. apply app_eq_nil in E1 as [-> _]. cbn [concat] in E2. rewrite app_nil_r in E2. rewrite <- E2 in E.
      destruct a as [|y a]; [contradiction|]. apply (f_equal (@length N)) in E. rewrite app_length in E. cbn [length] in E. lia.
    + intros B. exfalso. destruct b as [|z u]; [contradiction|]. destruct a as [|y v]; [contradiction|]. injection E as <- E. specialize (H u y v E).
      destruct (exists_last (l := c :: u) ltac:(discriminate)) as (b & x & Eb). pose proof (word_spec (wc WB_ALetter) [] eq_refl b x y v) as Q. rewrite <- Eb in Q. change ([c] ++ u) with (c :: u) in H. rewrite H in Q. exact (w_excl _ [] _ _ B Q).
Qed.

(** The first decision, where there are no line endings and no joined pictographs. *)
Definition calm (o : option N) : Prop := match o with Some x => ~ line_char x | None => False end.
Lemma dec1_calm : forall x y, ~ line_char x -> ~ line_char y -> ~ (WB x = WB_ZWJ /\ ExtPict y = true) ->
  word_dec1 (Some x) y = if wc WB_WSegSpace x && wc WB_WSegSpace y then Some Join else if ignored y then Some Join else None.
Proof.
  intros x y Hx Hy Z. unfold word_dec1. cbn [on].
  assert (A1 : spred CR x && spred LF y = false). { destruct (spred CR x && spred LF y) eqn:E; [|reflexivity]. apply andb_true_iff in E as [E _]. apply wc_iff in E. elim Hx. left. exact E. }
  assert (A2 : forall c, ~ line_char c -> spred (Alt Newline (Alt CR LF)) c = false). { intros c Hc. destruct (spred _ c) eqn:E; [|reflexivity]. cbn [spred Newline CR LF] in E. rewrite !orb_true_iff, !wc_iff in E. elim Hc. unfold line_char. tauto. }
  assert (A3 : spred ZWJ x && spred ExtPict_ y = false). { destruct (spred ZWJ x && spred ExtPict_ y) eqn:E; [|reflexivity]. apply andb_true_iff in E as [E1 E2]. apply wc_iff in E1. elim Z. split; [exact E1|exact E2]. }
  rewrite A1, (A2 x Hx), (A2 y Hy), A3. reflexivity.
Qed.

Lemma mark_calm : forall c, word_mark c -> ~ line_char c /\ WB c <> WB_WSegSpace.
Proof. intros c H. unfold word_mark, line_char in *. intuition congruence. Qed.
Lemma wc_no : forall k c, WB c <> k -> wc k c = false.
Proof. intros k c H. destruct (wc k c) eqn:E; [apply wc_iff in E; contradiction|reflexivity]. Qed.
Lemma zf_tail : forall c t, no_joined_pictograph (c :: t) -> no_joined_pictograph t.
Proof. intros c t H b x y a E. apply (H (c :: b) x y a). rewrite E. reflexivity. Qed.
Lemma zf_head : forall x y t, no_joined_pictograph (x :: y :: t) -> ~ (WB x = WB_ZWJ /\ ExtPict y = true).
Proof. intros x y t H. exact (H [] x y t eq_refl). Qed.
Lemma wl_snoc : forall b x, w_l (wtrack (b ++ [x])) = Some x.
Proof. intros b x. rewrite (proj1 (wtrack_facts (b ++ [x]))). apply last_char_snoc. Qed.
Lemma red_mark : forall b x y, ~ line_char x -> word_mark y -> red ((b ++ [x]) ++ [y]) = red (b ++ [x]).
Proof. intros b x y Hx Hy. unfold red. rewrite reduce_snoc, last_char_snoc. unfold drops. rewrite (proj2 (mark_iff y) Hy), (line_no x Hx). apply app_nil_r. Qed.
Lemma red_base : forall b y, ~ word_mark y -> red (b ++ [y]) = red b ++ [y].
Proof. intros b y Hy. unfold red. rewrite reduce_snoc. unfold drops. destruct (ignored y) eqn:E; [apply mark_iff in E; contradiction|reflexivity]. Qed.
Lemma after_bases : forall y a, ~ line_char y -> Forall (fun c => ~ line_char c) a -> after_red y a = hd_error (bases a).
Proof. intros y a Hy F. unfold after_red. rewrite (reduce_bases a (Some y) Hy F). reflexivity. Qed.
Lemma dec_at : forall b y n q, n = hd_error q -> (dec2 (w_lx (wtrack b)) (w_ll (wtrack b)) (w_run (wtrack b)) y n = Join <-> dec2_at (red b) y q).
Proof.
  intros b y n q ->. destruct (wtrack_facts b) as (_ & H2 & H3). rewrite H3. split.
  - intros J lx ll L. destruct (last2_fun _ _ _ _ _ L H2) as [-> ->]. exact J.
  - intros J. exact (J _ _ H2).
Qed.

Lemma glue_okr : forall a b x, ~ line_char x -> WB x <> WB_WSegSpace -> Forall (fun c => ~ line_char c) a -> no_joined_pictograph (x :: a) ->
  glue (b ++ [x]) a <-> okr (red (b ++ [x])) (bases a).
Proof.
  induction a as [|y a IH]; intros b x Hx Sx F Z; [reflexivity|]. inversion F as [|? ? Hy Fa]; subst. cbn [glue]. unfold word_dec. rewrite wl_snoc, (dec1_calm x y Hx Hy (zf_head _ _ _ Z)), (wc_no _ x Sx). cbn [andb].
  cbn [bases filter]. fold (bases a). destruct (ignored y) eqn:E; cbn [negb].
  - apply mark_iff in E. destruct (mark_calm y E) as [_ Sy]. rewrite <- (red_mark b x y Hx E), <- (IH (b ++ [x]) y Hy Sy Fa (zf_tail _ _ Z)). tauto.
  - assert (Ny : ~ word_mark y) by (intros Q; apply mark_iff in Q; congruence). cbn [okr]. rewrite <- (dec_at (b ++ [x]) y _ (bases a) (after_bases y a Hy Fa)), <- (red_base (b ++ [x]) y Ny).
    split; intros [J H]; (split; [exact J|]); apply (IH (b ++ [x]) y Hy (step_space _ _ _ _ _ J) Fa (zf_tail _ _ Z)); exact H.
Qed.
Lemma trun_space : forall P x, WB x = WB_WSegSpace -> trun wri (P ++ [x]) = 0.
Proof. intros P x E. rewrite trun_snoc. unfold wri, wc. rewrite E. reflexivity. Qed.
Lemma space_stop : forall b R h y n, red b = R ++ [h] -> WB h = WB_WSegSpace -> dec2 (w_lx (wtrack b)) (w_ll (wtrack b)) (w_run (wtrack b)) y n = Join -> False.
Proof.
  intros b R h y n ER Eh J. destruct (wtrack_facts b) as (_ & H2 & H3). rewrite ER in *. rewrite H3, (trun_space R h Eh) in J. destruct (raw_last2 R h) as (ll & L). destruct (last2_fun _ _ _ _ _ H2 L) as [E1 E2]. rewrite E1 in J.
  exact (space_step h _ 0 _ _ Eh eq_refl J).
Qed.
Lemma glue_marks : forall a b x R h, ~ line_char x -> WB x <> WB_WSegSpace -> red (b ++ [x]) = R ++ [h] -> WB h = WB_WSegSpace -> Forall (fun c => ~ line_char c) a -> no_joined_pictograph (x :: a) ->
  glue (b ++ [x]) a <-> Forall word_mark a.
Proof.
  induction a as [|y a IH]; intros b x R h Hx Sx ER Eh F Z; [split; [constructor|exact (fun _ => I)]|]. inversion F as [|? ? Hy Fa]; subst. cbn [glue]. unfold word_dec. rewrite wl_snoc, (dec1_calm x y Hx Hy (zf_head _ _ _ Z)), (wc_no _ x Sx). cbn [andb].
  destruct (ignored y) eqn:E.
  - apply mark_iff in E. destruct (mark_calm y E) as [_ Sy]. rewrite (IH (b ++ [x]) y R h Hy Sy); [|rewrite red_mark; assumption|exact Eh|exact Fa|exact (zf_tail _ _ Z)]. split; [intros [_ H]; constructor; assumption|intros H; inversion H; auto].
  - split; [intros [J _]; elim (space_stop _ R h _ _ ER Eh J)|]. intros H. inversion H as [|? ? Q _]; subst. apply mark_iff in Q. congruence.
Qed.
Lemma glue_spaces : forall a b x, WB x = WB_WSegSpace -> Forall (fun c => ~ line_char c) a -> no_joined_pictograph (x :: a) ->
  glue (b ++ [x]) a <-> exists sp ms, a = sp ++ ms /\ Forall is_space sp /\ Forall word_mark ms.
Proof.
  induction a as [|y a IH]; intros b x Ex F Z; [split; [intros _; exists [], []; repeat split; constructor|exact (fun _ => I)]|]. inversion F as [|? ? Hy Fa]; subst.
  assert (Hx : ~ line_char x) by (unfold line_char; rewrite Ex; intuition discriminate). assert (Mx : ~ word_mark x) by (unfold word_mark; rewrite Ex; intuition discriminate). pose proof (red_base b x Mx) as ER.
  cbn [glue]. unfold word_dec. rewrite wl_snoc, (dec1_calm x y Hx Hy (zf_head _ _ _ Z)), (proj2 (wc_iff _ x) Ex). cbn [andb].
  destruct (wc WB_WSegSpace y) eqn:Ey.
  - apply wc_iff in Ey. rewrite (IH (b ++ [x]) y Ey Fa (zf_tail _ _ Z)). split.
    + intros [_ (sp & ms & -> & F1 & F2)]. exists (y :: sp), ms. split; [reflexivity|]. split; [constructor; [apply space_iff; exact Ey|exact F1]|exact F2].
    + intros (sp & ms & E & F1 & F2). split; [reflexivity|]. destruct sp as [|z sp].
      * cbn [app] in E. subst ms. inversion F2 as [|? ? Q _]; subst. destruct (mark_calm y Q). contradiction.
      * injection E as -> ->. inversion F1; subst. exists sp, ms. auto.
  - assert (Sy : WB y <> WB_WSegSpace) by (intros Q; apply wc_iff in Q; congruence). assert (K : (exists sp ms, y :: a = sp ++ ms /\ Forall is_space sp /\ Forall word_mark ms) <-> Forall word_mark (y :: a)).
    { split; [|intros H; exists [], (y :: a); repeat split; [constructor|exact H]]. intros (sp & ms & E & F1 & F2). destruct sp as [|z sp]; [cbn [app] in E; rewrite E; exact F2|]. injection E as -> ->. inversion F1 as [|? ? Q _]; subst. apply space_iff in Q. contradiction. }
    rewrite K. destruct (ignored y) eqn:E.
    + apply mark_iff in E. rewrite (glue_marks a (b ++ [x]) y (red b) x Hy Sy); [|rewrite red_mark; assumption|exact Ex|exact Fa|exact (zf_tail _ _ Z)]. split; [intros [_ H]; constructor; assumption|intros H; inversion H; auto].
    + split; [intros [J _]; elim (space_stop _ (red b) x _ _ ER Ex J)|]. intros H. inversion H as [|? ? Q _]; subst. apply mark_iff in Q. congruence.
Qed.
Lemma line_stop : forall x y, ~ line_char x -> line_char y -> word_dec1 (Some x) y = Some Break.
Proof.
  intros x y Hx Hy. unfold word_dec1. cbn [on].
  assert (A1 : spred CR x && spred LF y = false). { destruct (spred CR x && spred LF y) eqn:E; [|reflexivity]. apply andb_true_iff in E as [E _]. apply wc_iff in E. elim Hx. left. exact E. }
  assert (A2 : forall c, spred (Alt Newline (Alt CR LF)) c = true <-> line_char c). { intros c. cbn [spred Newline CR LF]. rewrite !orb_true_iff, !wc_iff. unfold line_char. tauto. }
  rewrite A1, (proj2 (A2 y) Hy). destruct (spred (Alt Newline (Alt CR LF)) x); reflexivity.
Qed.
Lemma stop_line : forall x y, line_char x -> ~ (WB x = WB_CR /\ WB y = WB_LF) -> word_dec1 (Some x) y = Some Break.
Proof.
  intros x y Hx N. unfold word_dec1. cbn [on].
  assert (A1 : spred CR x && spred LF y = false). { destruct (spred CR x && spred LF y) eqn:E; [|reflexivity]. apply andb_true_iff in E as [E1 E2]. apply wc_iff in E1, E2. elim N. auto. }
  assert (A2 : forall c, spred (Alt Newline (Alt CR LF)) c = true <-> line_char c). { intros c. cbn [spred Newline CR LF]. rewrite !orb_true_iff, !wc_iff. unfold line_char. tauto. }
  rewrite A1, (proj2 (A2 x) Hx). reflexivity.
Qed.
Lemma line_dec : forall c, line_char c \/ ~ line_char c.
Proof. intros c. destruct (line_end c) eqn:E; [left; apply line_iff; exact E|right; intros Q; apply line_iff in Q; congruence]. Qed.
Lemma glue_calm : forall a b x, ~ line_char x -> glue (b ++ [x]) a -> Forall (fun c => ~ line_char c) a.
Proof.
  induction a as [|y a IH]; intros b x Hx H; [constructor|]. cbn [glue] in H. destruct H as [J H]. destruct (line_dec y) as [Ly|Ly].
  - unfold word_dec in J. rewrite wl_snoc, (line_stop x y Hx Ly) in J. discriminate J.
  - constructor; [exact Ly|exact (IH (b ++ [x]) y Ly H)].
Qed.
Lemma glue_line : forall c t, line_char c -> glue [c] t <-> t = [] \/ exists y, WB c = WB_CR /\ WB y = WB_LF /\ t = [y].
Proof.
  intros c t Hc. split.
  - destruct t as [|y t]; [left; reflexivity|]. cbn [glue]. unfold word_dec. change [c] with ([] ++ [c]). rewrite wl_snoc. intros [J H]. right. exists y.
    assert (K : WB c = WB_CR /\ WB y = WB_LF).
    { destruct (wc WB_CR c) eqn:E1; [destruct (wc WB_LF y) eqn:E2; [apply wc_iff in E1, E2; auto|]|]; (rewrite stop_line in J; [discriminate J|exact Hc|]); intros [Q1 Q2]; apply wc_iff in Q1, Q2; congruence. }
    destruct K as [K1 K2]. split; [exact K1|]. split; [exact K2|]. f_equal. destruct t as [|z t]; [reflexivity|]. cbn [glue] in H. unfold word_dec in H. rewrite wl_snoc in H. destruct H as [H _].
    rewrite stop_line in H; [discriminate H|right; left; exact K2|rewrite K2; intros [Q _]; discriminate Q].
  - intros [->|(y & E1 & E2 & ->)]; [exact I|]. cbn [glue]. split; [|exact I]. unfold word_dec. change [c] with ([] ++ [c]). rewrite wl_snoc. unfold word_dec1. cbn [on spred CR LF]. rewrite (proj2 (wc_iff _ c) E1), (proj2 (wc_iff _ y) E2). reflexivity.
Qed.

Lemma bases_all : forall (P : N -> Prop) t, (forall c, word_mark c -> P c) -> Forall P (bases t) -> Forall P t.
Proof.
  induction t as [|c t IH]; intros M F; [constructor|]. cbn [bases filter] in F. fold (bases t) in F. destruct (ignored c) eqn:E; cbn [negb] in F; [constructor; [apply M, mark_iff, E|exact (IH M F)]|].
  inversion F; subst. constructor; [assumption|apply IH; assumption].
Qed.
Lemma bases_none : forall t, bases t = [] <-> Forall word_mark t.
Proof.
  induction t as [|c t IH]; [split; constructor|]. cbn [bases filter]. fold (bases t). destruct (ignored c) eqn:E; cbn [negb].
  - apply mark_iff in E. rewrite IH. split; [intros H; constructor; assumption|intros H; inversion H; assumption].
  - split; [discriminate|]. intros H. inversion H as [|? ? Q _]; subst. apply mark_iff in Q. congruence.
Qed.
Lemma chain_calm : forall x r, chain x r -> Forall (fun c => ~ line_char c) r.
Proof.
  intros x r C. induction C as [x|x y r Hy G C IH|x m z r B C IH|x m Hx Hm].
  - constructor.
  - constructor; [|exact IH]. unfold line_char. classes. intuition congruence.
  - constructor; [|constructor; [|exact IH]]; unfold line_char; classes; intuition congruence.
  - constructor; [|constructor]. unfold line_char. classes. intuition congruence.
Qed.
Lemma space_calm : forall c, is_space c -> ~ line_char c.
Proof. intros c H. apply space_iff in H. unfold line_char. rewrite H. intuition discriminate. Qed.
Lemma shape_calm : forall s, word_shape s -> forall c t, s = c :: t -> ~ line_char c -> Forall (fun c => ~ line_char c) t.
Proof.
  intros s H c t E Hc. assert (M : forall c, word_mark c -> ~ line_char c) by (intros d Q; exact (proj1 (mark_calm d Q))). destruct H as [x y Ex Ey|d L|sp ms Ns F1 F2|x y u Ex Ey Eb|x u Wx C|d u L F].
  - injection E as <- _. elim Hc. left. exact Ex.
  - injection E as <- _. contradiction.
  - destruct sp as [|z sp]; [contradiction|]. injection E as _ <-. inversion F1; subst. apply Forall_app. split; [eapply Forall_impl; [exact space_calm|assumption]|eapply Forall_impl; [exact M|assumption]].
  - injection E as _ <-. apply (bases_all _ u M). rewrite Eb. constructor; [|constructor]. unfold line_char. rewrite Ey. intuition discriminate.
  - injection E as _ <-. exact (bases_all _ u M (chain_calm _ _ C)).
  - injection E as _ <-. exact (Forall_impl _ M F).
Qed.

Theorem shape_single : forall s, s <> [] -> no_joined_pictograph s -> segmentation word_decides s [s] <-> word_shape s.
Proof.
  intros s Ns Z. destruct s as [|c t]; [contradiction|]. rewrite single_glue. destruct (line_dec c) as [Lc|Lc].
  - rewrite (glue_line c t Lc). split.
    + intros [->|(y & E1 & E2 & ->)]; [apply Shape_line; exact Lc|apply Shape_crlf; assumption].
    + intros H. remember (c :: t) as s eqn:E. destruct H as [x y Ex Ey|d L|sp ms N F1 F2|x y u Ex Ey Eb|x u Wx C|d u L F].
      * injection E as <- <-. right. exists y. auto.
      * injection E as <- <-. left. reflexivity.
      * destruct sp as [|z sp]; [contradiction|]. injection E as -> _. inversion F1 as [|? ? Q _]; subst. elim (space_calm c Q Lc).
      * injection E as -> _. exfalso. revert Lc. unfold line_char. rewrite Ex. intuition discriminate.
      * injection E as -> _. exfalso. revert Lc Wx. unfold line_char. classes. intuition congruence.
      * injection E as -> _. contradiction.
  - assert (G : forall X Y : Prop, (Forall (fun c => ~ line_char c) t -> (X <-> Y)) -> (X -> Forall (fun c => ~ line_char c) t) -> (Y -> Forall (fun c => ~ line_char c) t) -> (X <-> Y)) by tauto.
    apply G; [|exact (glue_calm t [] c Lc)|intros H; exact (shape_calm _ H c t eq_refl Lc)]. clear G. intros F. destruct (wc WB_WSegSpace c) eqn:Sc.
    + apply wc_iff in Sc. rewrite (glue_spaces t [] c Sc F Z). split.
      * intros (sp & ms & -> & F1 & F2). apply (Shape_spaces (c :: sp) ms); [discriminate|constructor; [apply space_iff; exact Sc|exact F1]|exact F2].
      * intros H. remember (c :: t) as s eqn:E. destruct H as [x y Ex Ey|d L|sp ms N F1 F2|x y u Ex Ey Eb|x u Wx C|d u L Fu].
        -- injection E as -> _. congruence.
        -- injection E as -> _. contradiction.
        -- destruct sp as [|z sp]; [contradiction|]. injection E as -> <-. inversion F1; subst. exists sp, ms. auto.
        -- injection E as -> _. congruence.
        -- injection E as -> _. exfalso. revert Wx. classes. intuition congruence.
        -- injection E as -> ->. exists [], t. split; [reflexivity|]. split; [constructor|exact Fu].
    + assert (Nc : WB c <> WB_WSegSpace) by (intros Q; apply wc_iff in Q; congruence). change [c] with ([] ++ [c]). rewrite (glue_okr t [] c Lc Nc F Z). cbn [app].
      replace (red [c]) with [c] by (unfold red; cbn [reduce]; rewrite andb_false_r; reflexivity). rewrite okr_shape. unfold core_shape. split.
      * intros [H|[[Fc (d & Fd & H)]|[W C]]]; [apply Shape_other; [exact Lc|apply bases_none; exact H]|exact (Shape_flag c d t Fc Fd H)|exact (Shape_word c t W C)].
      * intros H. remember (c :: t) as s eqn:E. destruct H as [x y Ex Ey|d L|sp ms N F1 F2|x y u Ex Ey Eb|x u Wx C|d u L Fu].
        -- injection E as -> _. elim Lc. left. exact Ex.
        -- injection E as -> _. contradiction.
        -- destruct sp as [|z sp]; [contradiction|]. injection E as -> _. inversion F1 as [|? ? Q _]; subst. apply space_iff in Q. contradiction.
        -- injection E as -> ->. right. left. split; [exact Ex|]. exists y. auto.
        -- injection E as -> ->. right. right. auto.
        -- injection E as -> ->. left. apply bases_none. exact Fu.
Qed.
