(** Emoji: words and phrases. *)
From Verif Require Import Base ListFacts Trie LookupFacts TableFacts Engine Lk Seek SeekText SpecUtf8 SpecUcd SpecLookup SpecIter SpecRules SpecWords SpecEmoji
  RuleFacts SegFacts BitFacts WordFacts Conform UcdFacts UcdWords TableWords WordsEngine WordsConform EmojiFacts.
From Verif Require Words.
Import Words.
Local Open Scope N_scope.

Lemma pict_class : forall c, pictograph c -> line_end c = false /\ ignored c = false /\ wri c = false /\ wc WB_ZWJ c = false.
Proof.
  intros c [S E]. assert (A : forallb (fun v => negb (is v _ExtendedPictographic) || negb (is v _NL) && negb (is v _Ignore) && negb (is v _RegionalIndicator) && negb (is v _ZWJ)) wV = true) by (vm_compute; reflexivity).
  rewrite forallb_forall in A. specialize (A (P c) (P_in c S)). cbv beta in A. rewrite <- (c_EP c) in A. cbn [spred ExtPict_] in A. rewrite E in A. cbn [negb orb] in A.
  apply andb_true_iff in A as [A A4]. apply andb_true_iff in A as [A A3]. apply andb_true_iff in A as [A1 A2]. apply negb_true_iff in A1, A2, A3, A4.
  rewrite <- (c_RI c) in A3. rewrite <- (c_IG c) in A2. rewrite <- (c_ZWJ c) in A4. rewrite c_LE. repeat split; assumption.
Qed.
Definition wcls (l : list N) (k : wb) : bool := forallb (fun c => wb_beq (WB c) k && negb (ExtPict c)) l.
Lemma wcls_ok : forall l k c, wcls l k = true -> In c l -> WB c = k.
Proof. intros l k c A I. unfold wcls in A. rewrite forallb_forall in A. specialize (A c I). apply andb_true_iff in A as [A _]. apply internal_wb_dec_bl. exact A. Qed.
Lemma mod_wb : forall c, modifier c = true -> WB c = WB_Extend.
Proof. intros c M. apply (wcls_ok mods); [vm_compute; reflexivity|exact (modifier_mods c M)]. Qed.
Lemma zwj_wb : WB ZERO_WIDTH_JOINER = WB_ZWJ.
Proof. vm_compute. reflexivity. Qed.
Lemma sym_wb : forall c, letter_symbol c -> WB c = WB_Regional_Indicator.
Proof. intros c M. apply (wcls_ok symbols); [vm_compute; reflexivity|exact (symbol_in c M)]. Qed.
Lemma base_le : forall c, keycap_base c -> line_end c = false.
Proof.
  intros c M. apply base_in in M. assert (A : forallb (fun c => negb (line_end c)) bases = true) by (vm_compute; reflexivity). rewrite forallb_forall in A. apply negb_true_iff. exact (A c M).
Qed.

Section Like.
  Variable al : N -> bool.
  Variable phs : list re.
  Hypothesis PHS : forallb is_single phs = true.
  Local Notation D := (word_like al (map (fun r => Rule (Suffix r) Join r) phs)).

  Definition wJ (b : text) (y : N) (a : text) : Prop := D b (y :: a) Join.
  Lemma wJ_dec : forall b x y a, word_dec al phs (wtrack (b ++ [x])) y (after_red y a) = Join -> wJ (b ++ [x]) y a.
  Proof. intros b x y a E. pose proof (word_spec al phs PHS b x y a) as Q. rewrite E in Q. exact Q. Qed.
  Lemma w_l_snoc : forall b x, w_l (wtrack (b ++ [x])) = Some x.
  Proof. intros b x. destruct (wtrack_facts (b ++ [x])) as (-> & _). apply last_char_snoc. Qed.
  Lemma not_le : forall x y, line_end x = false -> line_end y = false ->
    word_dec1 (Some x) y = if on (spred ZWJ) (Some x) && spred ExtPict_ y then Some Join else if on (spred WSegSpace) (Some x) && spred WSegSpace y then Some Join else if ignored y then Some Join else None.
  Proof.
    intros x y Hx Hy. unfold word_dec1. unfold line_end in *. apply orb_false_iff in Hx as [Hx X3]. apply orb_false_iff in Hx as [X1 X2]. apply orb_false_iff in Hy as [Hy Y3]. apply orb_false_iff in Hy as [Y1 Y2].
    cbn [on spred CR LF Newline]. rewrite X1, X2, X3, Y1, Y2, Y3. reflexivity.
  Qed.
  Lemma le_mod : forall y, modifier y = true \/ y = ZERO_WIDTH_JOINER -> line_end y = false /\ ignored y = true.
  Proof. intros y [M| ->]; unfold line_end, ignored, wc; [rewrite (mod_wb y M)|rewrite zwj_wb]; split; reflexivity. Qed.
  Lemma le_x : forall x, pictograph x \/ modifier x = true \/ keycap_base x -> line_end x = false.
  Proof. intros x [H|[H|H]]; [exact (proj1 (pict_class x H))|exact (proj1 (le_mod x (or_introl H)))|exact (base_le x H)]. Qed.
  Lemma wJ_mod : forall b x y a, scalars b -> pictograph x \/ modifier x = true \/ keycap_base x -> modifier y = true \/ y = ZERO_WIDTH_JOINER -> wJ (b ++ [x]) y a.
  Proof.
    intros b x y a _ Hx Hy. apply wJ_dec. unfold word_dec. rewrite w_l_snoc. destruct (le_mod y Hy) as [Y1 Y2]. rewrite (not_le x y (le_x x Hx) Y1), Y2.
    destruct (on (spred ZWJ) (Some x) && _); [reflexivity|]. destruct (on (spred WSegSpace) (Some x) && _); reflexivity.
  Qed.
  Lemma wJ_zwj : forall b p ms q a, scalars b -> pictograph p -> Forall (fun m => modifier m = true) ms -> pictograph q -> wJ (b ++ p :: ms ++ [ZERO_WIDTH_JOINER]) q a.
  Proof.
    intros b p ms q a _ _ _ Hq. rewrite app_comm_cons, app_assoc. apply wJ_dec. unfold word_dec. rewrite w_l_snoc.
    rewrite (not_le ZERO_WIDTH_JOINER q (proj1 (le_mod _ (or_intror eq_refl))) (proj1 (pict_class q Hq))). cbn [on spred ZWJ ExtPict_]. unfold wc. rewrite zwj_wb, (proj2 Hq). reflexivity.
  Qed.
  Lemma sym_class : forall c, letter_symbol c -> line_end c = false /\ ignored c = false /\ wri c = true.
  Proof. intros c H. unfold line_end, ignored, wri, wc. rewrite (sym_wb c H). repeat split; reflexivity. Qed.
  Lemma step_kept : forall t c, ignored c = false -> wstep t c = {| w_l := Some c; w_lx := Some c; w_ll := w_lx t; w_run := if wri c then S (w_run t) else 0 |}.
  Proof. intros t c I. unfold wstep, drops. rewrite I. reflexivity. Qed.
  Lemma dec2_ri : forall lx ll run y n, Nat.odd run && spred RI y = true -> word_dec2 al phs lx ll run y n = Join.
  Proof. intros lx ll run y n E. unfold word_dec2. rewrite E. repeat match goal with |- (if ?c then _ else _) = _ => destruct c; [reflexivity|] end. reflexivity. Qed.
  Lemma wJ_flag : forall b x y a, Nat.even (w_run (wtrack b)) = true -> letter_symbol x -> letter_symbol y -> wJ (b ++ [x]) y a.
  Proof.
    intros b x y a Ev Hx Hy. apply wJ_dec. unfold word_dec. rewrite w_l_snoc. destruct (sym_class x Hx) as (X1 & X2 & X3), (sym_class y Hy) as (Y1 & Y2 & Y3). rewrite (not_le x y X1 Y1).
    destruct (on (spred ZWJ) (Some x) && _); [reflexivity|]. destruct (on (spred WSegSpace) (Some x) && _); [reflexivity|]. rewrite Y2. apply dec2_ri.
    rewrite wtrack_snoc, (step_kept _ x X2), X3. cbn [w_run]. rewrite Nat.odd_succ, Ev. exact Y3.
  Qed.
  Lemma wJ_emoji : forall e b a s1 y s2, emoji e -> (flag e -> Nat.even (w_run (wtrack b)) = true) -> scalars b -> e = s1 ++ y :: s2 -> s1 <> [] -> wJ (b ++ s1) y a.
  Proof.
    intros e b a s1 y s2 [Je|[Fe|Ke]] Ev Sb E N1.
    - exact (joined_inner wJ wJ_mod wJ_zwj e Je b a s1 y s2 Sb E N1).
    - specialize (Ev Fe). destruct Fe as [x z Hx Hz]. destruct s1 as [|w [|w' s1]]; [contradiction| |destruct s1; discriminate E]. injection E as <- <- E. exact (wJ_flag b x z a Ev Hx Hz).
    - destruct Ke as [k ms Hk F]. refine (mods_inner wJ wJ_mod ms b k a s1 y s2 Sb _ (or_intror (or_intror Hk)) F E N1). left. destruct Hk as [Hk|[->| ->]]; [lia|reflexivity|reflexivity].
  Qed.
  Lemma run_none_w : forall b, Forall (fun c => regional c = false) b -> w_run (wtrack b) = 0%nat.
  Proof.
    intros b F. induction b as [|x b IH] using rev_ind; [reflexivity|]. apply Forall_app in F as [F Fx]. inversion Fx as [|? ? Rx _]; subst. rewrite wtrack_snoc. unfold wstep.
    destruct (drops ignored line_end (w_l (wtrack b)) x); cbn [w_run]; [exact (IH F)|]. unfold regional in Rx. apply orb_false_iff in Rx as [_ Rx]. unfold wri, wc. rewrite Rx. reflexivity.
  Qed.
  Lemma emoji_whole_w : forall b e1 y e2 a, scalars b -> emoji (e1 ++ y :: e2) -> e1 <> [] -> (flag (e1 ++ y :: e2) -> Forall (fun c => regional c = false) b) -> D (b ++ e1) (y :: e2 ++ a) Join.
  Proof.
    intros b e1 y e2 a Sb He N1 Fl. refine (wJ_emoji _ b (e2 ++ a) e1 y e2 He _ Sb eq_refl N1). intros Q. rewrite (run_none_w b (Fl Q)). reflexivity.
  Qed.
End Like.

(** * Words: after an emoji *)
Definition quiet (z : N) : Prop := WB z = WB_Other \/ WB z = WB_Regional_Indicator.
Definition tail_ok (t : wtr) : Prop := (exists x, w_l t = Some x /\ line_end x = false /\ wc WB_ZWJ x = false /\ wc WB_WSegSpace x = false) /\ (exists z, w_lx t = Some z /\ quiet z).
Lemma quiet_class : forall z, quiet z -> line_end z = false /\ ignored z = false /\ wc WB_ZWJ z = false /\ wc WB_WSegSpace z = false.
Proof. intros z [Q|Q]; unfold line_end, ignored, wc; rewrite Q; repeat split; reflexivity. Qed.
Lemma tail_quiet : forall t c, quiet c -> tail_ok (wstep t c).
Proof.
  intros t c Q. destruct (quiet_class c Q) as (Q1 & Q2 & Q3 & Q4). rewrite (step_kept t c Q2). split; [exists c|exists c]; cbn [w_l w_lx]; auto.
Qed.
Lemma tail_mods : forall ms t, tail_ok t -> Forall (fun m => modifier m = true) ms -> tail_ok (fold_left wstep ms t) /\ w_run (fold_left wstep ms t) = w_run t.
Proof.
  induction ms as [|m ms IH]; intros t T F; [split; [exact T|reflexivity]|]. inversion F as [|? ? Fm F']; subst. cbn [fold_left].
  assert (S : wstep t m = {| w_l := Some m; w_lx := w_lx t; w_ll := w_ll t; w_run := w_run t |}).
  { destruct T as [(x & Ex & X1 & _) _]. unfold wstep, drops. rewrite Ex, X1. rewrite (proj2 (le_mod m (or_introl Fm))). reflexivity. }
  destruct (IH (wstep t m)) as [A B]; [|exact F'|].
  - rewrite S. destruct T as [_ T]. split; [|exact T]. exists m. cbn [w_l]. split; [reflexivity|]. unfold line_end, wc. rewrite (mod_wb m Fm). repeat split; reflexivity.
  - split; [exact A|]. rewrite B, S. reflexivity.
Qed.
Lemma tail_element : forall e t, element e -> no_letter e -> tail_ok (fold_left wstep e t) /\ w_run (fold_left wstep e t) = 0%nat.
Proof.
  intros e t [p ms Hp F] NL. cbn [fold_left]. assert (Q : WB p = WB_Other) by (apply NL; [left; reflexivity|exact (proj2 Hp)]).
  destruct (tail_mods ms (wstep t p) (tail_quiet t p (or_introl Q)) F) as [A B]. split; [exact A|]. rewrite B. rewrite (step_kept t p (proj1 (proj2 (pict_class p Hp)))). cbn [w_run]. rewrite (proj1 (proj2 (proj2 (pict_class p Hp)))). reflexivity.
Qed.
Lemma tail_joined : forall s, joined s -> no_letter s -> forall t, tail_ok (fold_left wstep s t) /\ w_run (fold_left wstep s t) = 0%nat.
Proof.
  intros s Js. induction Js as [e He|e s He Js IH]; intros NL t; [exact (tail_element e t He NL)|]. rewrite fold_left_app. cbn [fold_left]. apply IH.
  intros c Hc. apply NL. apply in_or_app. right. right. exact Hc.
Qed.
Lemma tail_word : forall e b, word_emoji e -> tail_ok (wtrack (b ++ e)) /\ (Nat.even (w_run (wtrack b)) = true -> Nat.even (w_run (wtrack (b ++ e))) = true).
Proof.
  intros e b He. unfold wtrack. rewrite fold_left_app. fold (wtrack b). destruct He as [[Je NL]|[x y Hx Hy]].
  - destruct (tail_joined e Je NL (wtrack b)) as [A B]. split; [exact A|]. rewrite B. reflexivity.
  - cbn [fold_left]. split; [apply tail_quiet; right; exact (sym_wb y Hy)|]. intros Ev. destruct (sym_class x Hx) as (_ & X2 & X3), (sym_class y Hy) as (_ & Y2 & Y3).
    rewrite (step_kept _ y Y2), Y3, (step_kept _ x X2), X3. exact Ev.
Qed.
Lemma word_emoji_ok : forall e, word_emoji e -> emoji e.
Proof. intros e [[J _]|F]; [left; exact J|right; left; exact F]. Qed.
Lemma head_word : forall e, word_emoji e -> exists y r, e = y :: r /\ quiet y.
Proof.
  intros e [[Je NL]|[x y Hx _]]; [|exists x, [y]; split; [reflexivity|right; exact (sym_wb x Hx)]].
  destruct (joined_head e Je) as (p & r & -> & Hp). exists p, r. split; [reflexivity|]. left. apply NL; [left; reflexivity|exact (proj2 Hp)].
Qed.
Lemma break_word : forall b x y a, tail_ok (wtrack (b ++ [x])) -> Nat.even (w_run (wtrack (b ++ [x]))) = true -> quiet y -> word_decides (b ++ [x]) (y :: a) Break.
Proof.
  intros b x y a [(x' & Ex & X1 & X2 & X3) (z & Ez & Qz)] Ev Qy. pose proof (word_spec (wc WB_ALetter) [] eq_refl b x y a) as H. unfold word_decides. cbn [map] in H.
  replace (word_dec (wc WB_ALetter) [] (wtrack (b ++ [x])) y (after_red y a)) with Break in H; [exact H|]. symmetry. unfold word_dec. rewrite Ex, Ez.
  destruct (quiet_class y Qy) as (Y1 & Y2 & Y3 & Y4). rewrite (not_le x' y X1 Y1), Y2. cbn [on spred ZWJ WSegSpace]. rewrite X2, X3. cbn [andb].
  generalize (w_ll (wtrack (b ++ [x]))) (after_red y a). intros ll n. unfold word_dec2. rewrite <- Nat.negb_even, Ev. cbn [negb andb existsb].
  cbn [on spred AHLetter HebrewLetter MidLetter MidNumLetQ MidNumLet SingleQuote DoubleQuote Numeric MidNum Katakana ExtendNumLet RI]. unfold wc.
  destruct Qz as [-> | ->], Qy as [-> | ->]; reflexivity.
Qed.
Lemma even_word : forall es, Forall word_emoji es -> Nat.even (w_run (wtrack (concat es))) = true.
Proof.
  intros es F. induction es as [|e es IH] using rev_ind; [reflexivity|]. apply Forall_app in F as [F1 F2]. inversion F2 as [|? ? He _]; subst. rewrite concat_app. cbn [concat]. rewrite app_nil_r.
  exact (proj2 (tail_word e (concat es) He) (IH F1)).
Qed.
Lemma scalars_words : forall es, Forall word_emoji es -> scalars (concat es).
Proof. intros es F. induction F as [|e es He F IH]; [constructor|]. cbn [concat]. apply Forall_app. split; [exact (emoji_scalars e (word_emoji_ok e He))|exact IH]. Qed.
Lemma word_excl : forall b a : text, word_decides b a Break -> word_decides b a Join -> False.
Proof.
  intros b a [B|[B B']] [J|[J J']].
  - pose proof (says_fun _ _ _ _ _ B J) as Q. discriminate Q.
  - pose proof (says_fun _ _ _ _ _ B J) as Q. discriminate Q.
  - pose proof (says_fun _ _ _ _ _ B J) as Q. discriminate Q.
  - pose proof (says_fun _ _ _ _ _ B' J') as Q. discriminate Q.
Qed.
Lemma word_segments : forall es, Forall word_emoji es -> segmentation word_decides (concat es) es.
Proof.
  intros es F. apply seg_pieces.
  - exact word_excl.
  - apply Forall_impl with (2 := F). intros e He. exact (emoji_nonnil e (word_emoji_ok e He)).
  - intros p e1 y e2 s E N1. assert (Fp : Forall word_emoji (p ++ (e1 ++ y :: e2) :: s)) by (rewrite <- E; exact F). apply Forall_app in Fp as [Fp Fe]. inversion Fe as [|? ? He _]; subst.
    exact (wJ_emoji (wc WB_ALetter) [] eq_refl _ (concat p) (e2 ++ concat s) e1 y e2 (word_emoji_ok _ He) (fun _ => even_word p Fp) (scalars_words p Fp) eq_refl N1).
  - intros p e s E Np. assert (Fp : Forall word_emoji (p ++ e :: s)) by (rewrite <- E; exact F). apply Forall_app in Fp as [Fp Fe]. inversion Fe as [|? ? He _]; subst.
    destruct (head_word e He) as (y & r & -> & Qy). destruct (exists_last Np) as (p' & e' & ->). pose proof Fp as Fp'. apply Forall_app in Fp as [Fp Fe']. inversion Fe' as [|? ? He' _]; subst.
    pose proof (even_word (p' ++ [e']) Fp') as Ev. rewrite concat_app in *. cbn [concat] in *. rewrite app_nil_r in *. pose proof (proj1 (tail_word e' (concat p') He')) as T.
    assert (Nb : concat p' ++ e' <> []) by (pose proof (emoji_nonnil e' (word_emoji_ok e' He')) as Ne; destruct (concat p'); [exact Ne|discriminate]).
    destruct (exists_last Nb) as (b' & z & Eb). rewrite Eb in *. cbn [app]. exact (break_word b' z y _ T Ev Qy).
Qed.

(** * Phrases: pictographs run on *)
Definition on_pict (t : wtr) : Prop := (exists x, w_l t = Some x /\ line_end x = false) /\ exists p, w_lx t = Some p /\ ExtPict p = true.
Lemma on_pict_mods : forall ms t, on_pict t -> Forall (fun m => modifier m = true) ms -> on_pict (fold_left wstep ms t).
Proof.
  induction ms as [|m ms IH]; intros t T F; [exact T|]. inversion F as [|? ? Fm F']; subst. cbn [fold_left]. apply IH; [|exact F'].
  destruct T as [(x & Ex & X1) T]. unfold wstep, drops. rewrite Ex, X1, (proj2 (le_mod m (or_introl Fm))). split; [|exact T]. exists m. split; [reflexivity|exact (proj1 (le_mod m (or_introl Fm)))].
Qed.
Lemma on_pict_element : forall e t, element e -> on_pict (fold_left wstep e t).
Proof.
  intros e t [p ms Hp F]. cbn [fold_left]. apply on_pict_mods; [|exact F]. destruct (pict_class p Hp) as (P1 & P2 & _). rewrite (step_kept t p P2). split; exists p; split; [reflexivity|exact P1|reflexivity|exact (proj2 Hp)].
Qed.
Lemma on_pict_joined : forall s, joined s -> forall t, on_pict (fold_left wstep s t).
Proof. intros s Js. induction Js as [e He|e s He Js IH]; intros t; [exact (on_pict_element e t He)|]. rewrite fold_left_app. apply IH. Qed.
Lemma pict_runs_on : forall b x y a, on_pict (wtrack (b ++ [x])) -> pictograph y -> phrase_decides (b ++ [x]) (y :: a) Join.
Proof.
  intros b x y a [(x' & Ex & X1) (p & Ep & Hp)] Hy. apply (wJ_dec phrase_letter [Phrasal] eq_refl). unfold word_dec. rewrite Ex, Ep. destruct (pict_class y Hy) as (Y1 & Y2 & _). rewrite (not_le x' y X1 Y1), Y2.
  destruct (on (spred ZWJ) (Some x') && _); [reflexivity|]. destruct (on (spred WSegSpace) (Some x') && _); [reflexivity|].
  unfold word_dec2, AHLetter. cbn [on spred]. unfold phrase_letter. rewrite Hp, (proj2 Hy), !orb_true_r. reflexivity.
Qed.
Lemma phrase_excl : forall b a : text, phrase_decides b a Break -> phrase_decides b a Join -> False.
Proof.
  intros b a [B|[B B']] [J|[J J']].
  - pose proof (says_fun _ _ _ _ _ B J) as Q. discriminate Q.
  - pose proof (says_fun _ _ _ _ _ B J) as Q. discriminate Q.
  - pose proof (says_fun _ _ _ _ _ B J) as Q. discriminate Q.
  - pose proof (says_fun _ _ _ _ _ B' J') as Q. discriminate Q.
Qed.
Lemma scalars_joined : forall es, Forall joined es -> scalars (concat es).
Proof. intros es F. induction F as [|e es He F IH]; [constructor|]. cbn [concat]. apply Forall_app. split; [exact (joined_scalars e He)|exact IH]. Qed.
Lemma joined_not_flag : forall e, joined e -> ~ flag e.
Proof.
  intros e J F. destruct (joined_head e J) as (p & r & -> & Hp). inversion F; subst. pose proof (sym_class p ltac:(assumption)) as (_ & _ & Q). rewrite (proj1 (proj2 (proj2 (pict_class p Hp)))) in Q. discriminate Q.
Qed.
Lemma phrase_segment : forall es, Forall joined es -> es <> [] -> segmentation phrase_decides (concat es) [concat es].
Proof.
  intros es F Ne. assert (Nc : concat es <> []).
  { destruct es as [|e es]; [contradiction|]. inversion F as [|? ? He _]; subst. pose proof (joined_nonnil e He) as Q. cbn [concat]. destruct e; [contradiction|discriminate]. }
  replace (segmentation phrase_decides (concat es) [concat es]) with (segmentation phrase_decides (concat [concat es]) [concat es]) by (cbn [concat]; rewrite app_nil_r; reflexivity).
  apply seg_pieces.
  - exact phrase_excl.
  - constructor; [exact Nc|constructor].
  - intros p e1 y e2 s E N1. destruct p as [|? p]; [|injection E as _ E; destruct p; discriminate E]. injection E as E <-. cbn [concat app]. rewrite app_nil_r.
    destruct (locate es e1 (y :: e2) E) as [(s1 & s2 & -> & C)|(p & f1 & z & f2 & s & -> & Nf & -> & Ea)].
    + apply Forall_app in F as [F1 F2]. destruct s2 as [|e s2]; [rewrite app_nil_r, C in E; rewrite <- (app_nil_r e1) in E at 1; apply app_inv_head in E; discriminate E|].
      rewrite concat_app, C in E. apply app_inv_head in E. cbn [concat] in E. inversion F2 as [|? ? He _]; subst. destruct (joined_head e He) as (q & r & -> & Hq). cbn [app] in E. injection E as <- E.
      destruct s1 as [|s0 s1] using rev_ind; [cbn in N1; contradiction|]. clear IHs1. apply Forall_app in F1 as [F1 F0]. inversion F0 as [|? ? H0 _]; subst.
      rewrite concat_app in *. cbn [concat] in *. rewrite app_nil_r in *. assert (T : on_pict (wtrack (concat s1 ++ s0))) by (unfold wtrack; rewrite fold_left_app; apply on_pict_joined; exact H0).
      destruct (exists_last N1) as (b' & w & Eb). rewrite Eb in *. exact (pict_runs_on b' w q _ T Hq).
    + cbn [app] in Ea. injection Ea as <- ->. apply Forall_app in F as [F1 F2]. inversion F2 as [|? ? He _]; subst.
      exact (wJ_emoji phrase_letter [Phrasal] eq_refl _ (concat p) (f2 ++ concat s) f1 y f2 (or_introl He) (fun Q => False_ind _ (joined_not_flag _ He Q)) (scalars_joined p F1) eq_refl Nf).
  - intros p e s E Np. destruct p as [|? p]; [contradiction|]. injection E as _ E. destruct p; discriminate E.
Qed.
