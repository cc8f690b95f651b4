(** Text may be cut at its spaces. *)
From Verif Require Import Base ListFacts Trie SpecUtf8 SpecIter SpecRules SpecUcd SpecLookup SpecGraphemes SpecWords SpecSpace SegFacts Conform NestFacts RuleFacts BitFacts ClusterFacts WordFacts GenTestsFacts GraphemesConform EmojiWords EmojiFacts.
From Verif Require TableGraphemes.
Import TableGraphemes.
Local Open Scope N_scope.

Section Cut.
  Variable tok : nat -> bytes -> res (list bytes).
  Variable D : text -> text -> op -> Prop.
  Hypothesis conf : forall cps fuel, scalars cps -> (length (encode cps) < fuel)%nat ->
    exists segs, tok fuel (encode cps) = Ok (map encode segs) /\ segmentation D cps segs /\ forall segs', segmentation D cps segs' -> segs' = segs.
  Hypothesis rest : forall d l1 l2 l3 fuel, (length d < fuel)%nat -> tok fuel d = Ok (l1 ++ l2 ++ l3) -> l3 = [] \/ well_formed (concat l2) -> tok fuel (concat l2) = Ok l2.
  Lemma tok_nil : forall fuel, (0 < fuel)%nat -> tok fuel [] = Ok [].
  Proof.
    intros fuel Hf. destruct (conf [] fuel ltac:(constructor) Hf) as (segs & E & G & _). destruct segs as [|s segs]; [exact E|]. exfalso. destruct G as (C & F & _). inversion F as [|? ? N _]; subst.
    cbn [concat] in C. apply app_eq_nil in C as [C _]. contradiction.
  Qed.
  (** Cutting where the rules break. *)
  Lemma cut_at : forall b a fuel, scalars b -> scalars a -> (b <> [] -> a <> [] -> D b a Break) -> (length (encode (b ++ a)) < fuel)%nat ->
    exists lb la, tok fuel (encode b) = Ok lb /\ tok fuel (encode a) = Ok la /\ tok fuel (encode (b ++ a)) = Ok (lb ++ la).
  Proof.
    intros b a fuel Sb Sa B Hf. rewrite encode_app in Hf |- *. rewrite app_length in Hf.
    destruct b as [|b0 b].
    { destruct (conf a fuel Sa ltac:(cbn in Hf; lia)) as (l & E & _). exists [], (map encode l). split; [apply tok_nil; lia|]. split; exact E. }
    destruct a as [|a0 a].
    { destruct (conf (b0 :: b) fuel Sb ltac:(lia)) as (l & E & _). exists (map encode l), []. split; [exact E|]. split; [apply tok_nil; lia|]. rewrite !app_nil_r. exact E. }
    specialize (B ltac:(discriminate) ltac:(discriminate)). rewrite <- encode_app.
    destruct (conf ((b0 :: b) ++ a0 :: a) fuel ltac:(apply Forall_app; auto) ltac:(rewrite encode_app, app_length; lia)) as (segs & E & G & _).
    destruct (proj2 (proj2 (proj2 G) (b0 :: b) (a0 :: a) ltac:(discriminate) ltac:(discriminate) eq_refl) B) as (s1 & s2 & -> & C1).
    assert (C2 : concat s2 = a0 :: a) by (pose proof (proj1 G) as Q; rewrite concat_app, C1 in Q; apply app_inv_head in Q; exact Q).
    rewrite map_app in E. exists (map encode s1), (map encode s2). split; [|split; [|exact E]].
    - pose proof (rest (encode ((b0 :: b) ++ a0 :: a)) [] (map encode s1) (map encode s2) fuel ltac:(rewrite encode_app, app_length; lia) E) as X. rewrite concat_encode, C1 in X. apply X. right. exists (b0 :: b). auto.
    - pose proof (rest (encode ((b0 :: b) ++ a0 :: a)) (map encode s1) (map encode s2) [] fuel ltac:(rewrite encode_app, app_length; lia)) as X. rewrite app_nil_r, concat_encode, C2 in X. apply X; [exact E|left; reflexivity].
  Qed.
  (** In three. *)
  Lemma cut_three : forall b s a fuel, scalars b -> scalars s -> scalars a -> s <> [] -> (b <> [] -> D b (s ++ a) Break) -> (a <> [] -> D s a Break) -> (length (encode (b ++ s ++ a)) < fuel)%nat ->
    exists lb ls la, tok fuel (encode b) = Ok lb /\ tok fuel (encode s) = Ok ls /\ tok fuel (encode a) = Ok la /\ tok fuel (encode (b ++ s ++ a)) = Ok (lb ++ ls ++ la).
  Proof.
    intros b s a fuel Sb Ss Sa Ns B1 B2 Hf. destruct (cut_at b (s ++ a) fuel Sb ltac:(apply Forall_app; auto) (fun N _ => B1 N) Hf) as (lb & lsa & E1 & E2 & E3).
    rewrite encode_app, app_length in Hf. destruct (cut_at s a fuel Ss Sa (fun _ N => B2 N) ltac:(lia)) as (ls & la & F1 & F2 & F3).
    exists lb, ls, la. rewrite F3 in E2. injection E2 as <-. auto.
  Qed.
End Cut.

Lemma space_wb : forall c, In c spaces -> WB c = WB_WSegSpace /\ ExtPict c = false.
Proof.
  intros c I. assert (A : forallb (fun c => wb_beq (WB c) WB_WSegSpace && negb (ExtPict c)) spaces = true) by (vm_compute; reflexivity). rewrite forallb_forall in A. specialize (A c I).
  apply andb_true_iff in A as [A1 A2]. split; [apply internal_wb_dec_bl; exact A1|apply negb_true_iff; exact A2].
Qed.
Lemma space_scalar : forall t, all_spaces t -> scalars t.
Proof.
  intros t. apply Forall_impl. intros c I. assert (A : forallb (fun c => (c <? 0xD800)) spaces = true) by (vm_compute; reflexivity). rewrite forallb_forall in A. specialize (A c I). apply N.ltb_lt in A. left. exact A.
Qed.
Lemma range_in : forall (A : Type) (d : A) t c, range_value d t c = d \/ exists lo hi, In (lo, hi, range_value d t c) t /\ lo <= c <= hi.
Proof.
  intros A d t c. induction t as [|[[lo hi] v] t IH]; [left; reflexivity|]. cbn [range_value]. destruct ((lo <=? c) && (c <=? hi)) eqn:E.
  - right. exists lo, hi. apply andb_true_iff in E as [E1 E2]. apply N.leb_le in E1, E2. split; [left; reflexivity|lia].
  - destruct IH as [IH|(lo' & hi' & I & B)]; [left; exact IH|right; exists lo', hi'; split; [right; exact I|exact B]].
Qed.
(** Every space of the standard is in the list. *)
Lemma spaces_all : forall c, WB c = WB_WSegSpace -> In c spaces.
Proof.
  intros c E. destruct (range_in _ WB_Other wb_table c) as [Q|(lo & hi & I & B)]; fold (WB c) in *; [rewrite E in Q; discriminate Q|]. rewrite E in I.
  assert (A : forallb (fun e : N * N * wb => let '(lo, hi, v) := e in negb (wb_beq v WB_WSegSpace) || (hi <? lo + 8) && forallb (fun k => (hi <? lo + k) || existsb (N.eqb (lo + k)) spaces) [0;1;2;3;4;5;6;7]) wb_table = true) by (vm_compute; reflexivity).
  rewrite forallb_forall in A. specialize (A _ I). cbv beta iota in A. cbn [wb_beq negb orb] in A. apply andb_true_iff in A as [A1 A2]. apply N.ltb_lt in A1. rewrite forallb_forall in A2.
  assert (K : In (c - lo) [0;1;2;3;4;5;6;7]) by (cbn [In]; lia). specialize (A2 _ K). replace (lo + (c - lo)) with c in A2 by lia. apply orb_true_iff in A2 as [A2|A2]; [apply N.ltb_lt in A2; lia|].
  apply existsb_exists in A2 as (z & Iz & Ez). apply N.eqb_eq in Ez. subst z. exact Iz.
Qed.

(** * Words *)
Lemma w_before : forall b x y a, WB x <> WB_WSegSpace -> In y spaces -> word_decides (b ++ [x]) (y :: a) Break.
Proof.
  intros b x y a Nx Iy. destruct (space_wb y Iy) as [Wy Ey]. pose proof (word_spec (wc WB_ALetter) [] eq_refl b x y a) as H. unfold word_decides. cbn [map] in H.
  replace (word_dec (wc WB_ALetter) [] (wtrack (b ++ [x])) y (after_red y a)) with Break in H; [exact H|]. symmetry. unfold word_dec. rewrite w_l_snoc.
  assert (D1 : word_dec1 (Some x) y = None \/ word_dec1 (Some x) y = Some Break).
  { unfold word_dec1, ignored. cbn [on spred CR LF Newline ZWJ ExtPict_ WSegSpace]. unfold wc. rewrite Wy, Ey. destruct (WB x); try congruence; auto. }
  destruct D1 as [-> | ->]; [|reflexivity]. unfold word_dec2. cbn [existsb]. cbn [spred AHLetter HebrewLetter MidLetter MidNumLetQ MidNumLet SingleQuote DoubleQuote Numeric MidNum Katakana ExtendNumLet RI]. unfold wc. rewrite Wy. cbn [wb_beq orb andb].
  rewrite !andb_false_r. reflexivity.
Qed.
Lemma w_after : forall b x y a, In x spaces -> WB y <> WB_WSegSpace -> ~ word_mark y -> word_decides (b ++ [x]) (y :: a) Break.
Proof.
  intros b x y a Ix Ny My. destruct (space_wb x Ix) as [Wx _]. pose proof (word_spec (wc WB_ALetter) [] eq_refl b x y a) as H. unfold word_decides. cbn [map] in H.
  replace (word_dec (wc WB_ALetter) [] (wtrack (b ++ [x])) y (after_red y a)) with Break in H; [exact H|]. symmetry. unfold word_dec. rewrite w_l_snoc.
  assert (D1 : word_dec1 (Some x) y = None \/ word_dec1 (Some x) y = Some Break).
  { unfold word_dec1, ignored. cbn [on spred CR LF Newline ZWJ ExtPict_ WSegSpace]. unfold wc. rewrite Wx. unfold word_mark in My. destruct (WB y); try congruence; cbn [wb_beq orb andb]; auto; elim My; auto. }
  destruct D1 as [-> | ->]; [|reflexivity]. rewrite wtrack_snoc, step_kept by (unfold ignored, wc; rewrite Wx; reflexivity). cbn [w_lx w_ll w_run]. replace (wri x) with false by (unfold wri, wc; rewrite Wx; reflexivity).
  unfold word_dec2. cbn [existsb]. cbn [on spred AHLetter HebrewLetter MidLetter MidNumLetQ MidNumLet SingleQuote DoubleQuote Numeric MidNum Katakana ExtendNumLet RI]. unfold wc. rewrite Wx. reflexivity.
Qed.
Lemma w_inside : forall b x y a, In x spaces -> In y spaces -> word_decides (b ++ [x]) (y :: a) Join.
Proof.
  intros b x y a Ix Iy. destruct (space_wb x Ix) as [Wx _], (space_wb y Iy) as [Wy _]. pose proof (word_spec (wc WB_ALetter) [] eq_refl b x y a) as H. unfold word_decides. cbn [map] in H.
  replace (word_dec (wc WB_ALetter) [] (wtrack (b ++ [x])) y (after_red y a)) with Join in H; [exact H|]. symmetry. unfold word_dec. rewrite w_l_snoc.
  unfold word_dec1. cbn [on spred CR LF Newline ZWJ ExtPict_ WSegSpace]. unfold wc. rewrite Wx, Wy. reflexivity.
Qed.
Lemma spaces_word : forall s, all_spaces s -> s <> [] -> segmentation word_decides s [s].
Proof.
  intros s F Ns. replace s with (concat [s]) at 1 by (cbn [concat]; apply app_nil_r). apply seg_pieces.
  - exact word_excl.
  - constructor; [exact Ns|constructor].
  - intros p e1 y e2 r E N1. destruct p as [|? p]; [|injection E as _ E; destruct p; discriminate E]. injection E as -> <-. cbn [concat app]. rewrite app_nil_r.
    unfold all_spaces in F. apply Forall_app in F as [F1 F2]. inversion F2 as [|? ? Iy _]; subst. destruct (exists_last N1) as (b & x & ->). apply Forall_app in F1 as [_ F1]. inversion F1 as [|? ? Ix _]; subst.
    exact (w_inside b x y e2 Ix Iy).
  - intros p e r E Np. destruct p as [|? p]; [contradiction|]. injection E as _ E. destruct p; discriminate E.
Qed.

(** * Graphemes *)
Lemma space_g : forall c, In c spaces -> graphemes_property c = 0.
Proof.
  intros c I. assert (A : forallb (fun c => graphemes_property c =? 0) spaces = true) by (vm_compute; reflexivity). rewrite forallb_forall in A. apply N.eqb_eq. exact (A c I).
Qed.
Lemma is_0 : forall m, is 0 m = false.
Proof. intros m. unfold is. rewrite N.land_0_l. reflexivity. Qed.
Lemma g_before : forall b x y a, ~ prepended x -> graphemes_property y = 0 -> grapheme_decides (b ++ [x]) (y :: a) Break.
Proof.
  intros b x y a Nx Py. apply decides_gdec; [destruct b; discriminate|]. rewrite Py. unfold gdec. rewrite !is_0, !andb_false_r, gtr_last. cbn [orb andb].
  destruct (is (graphemes_property x) _Ctl); [reflexivity|]. replace (is (graphemes_property x) _Prepend) with false; [reflexivity|]. symmetry.
  change _Prepend with (gcb_bit GCB_Prepend). rewrite <- (gc_is GCB_Prepend) by discriminate. unfold gc. destruct (gcb_beq (GCB x) GCB_Prepend) eqn:Q; [|reflexivity]. elim Nx. apply internal_gcb_dec_bl. exact Q.
Qed.
Lemma no_gcb : forall k c, gcb_bit k <> 0 -> GCB c <> k -> is (graphemes_property c) (gcb_bit k) = false.
Proof. intros k c Nk N. rewrite <- (gc_is k) by exact Nk. unfold gc. destruct (gcb_beq (GCB c) k) eqn:Q; [|reflexivity]. elim N. apply internal_gcb_dec_bl. exact Q. Qed.
Lemma g_after : forall b x y a, graphemes_property x = 0 -> ~ cluster_mark y -> grapheme_decides (b ++ [x]) (y :: a) Break.
Proof.
  intros b x y a Px My. apply decides_gdec; [destruct b; discriminate|]. unfold gdec. rewrite gtr_snoc. unfold gstep. rewrite Px. cbn [t_last t_link t_zwj t_run]. rewrite !is_0. cbn [orb andb]. rewrite !andb_false_r, !orb_false_r.
  unfold cluster_mark in My. rewrite is_lor_r. change _Extend with (gcb_bit GCB_Extend). change _ZWJ with (gcb_bit GCB_ZWJ). change _SpacingMark with (gcb_bit GCB_SpacingMark).
  rewrite !no_gcb by (discriminate || tauto). destruct (is _ _Ctl); reflexivity.
Qed.
Lemma spaces_g : forall s, all_spaces s -> segmentation grapheme_decides s (map (fun c => [c]) s).
Proof.
  intros s F. assert (C : forall t : text, concat (map (fun c => [c]) t) = t) by (induction t as [|c t IH]; [reflexivity|cbn [map concat app]; rewrite IH; reflexivity]).
  rewrite <- (C s) at 1. apply seg_pieces.
  - intros b a B J. pose proof (says_fun _ _ _ _ _ B J) as Q. discriminate Q.
  - apply Forall_map. apply Forall_forall. intros c _. discriminate.
  - intros p e1 y e2 r E N1. exfalso. assert (I : In (e1 ++ y :: e2) (map (fun c => [c]) s)) by (rewrite E; apply in_or_app; right; left; reflexivity).
    apply in_map_iff in I as (c & Ec & _). destruct e1 as [|w e1]; [contradiction|]. destruct e1; discriminate Ec.
  - intros p e r E Np. apply map_eq_app in E as (s1 & s2 & -> & <- & Er). destruct s2 as [|c s2]; [discriminate Er|]. cbn [map] in Er. injection Er as <- <-. cbn [concat app]. rewrite !C.
    unfold all_spaces in F. apply Forall_app in F as [F1 F2]. inversion F2 as [|? ? Ic _]; subst. assert (N1 : s1 <> []) by (intros ->; apply Np; reflexivity).
    destruct (exists_last N1) as (b & x & ->). apply Forall_app in F1 as [_ F1]. inversion F1 as [|? ? Ix _]; subst. apply g_before; [|exact (space_g c Ic)].
    intros Q. assert (A : forallb (fun c => negb (gcb_beq (GCB c) GCB_Prepend)) spaces = true) by (vm_compute; reflexivity). rewrite forallb_forall in A. specialize (A x Ix). rewrite Q in A. discriminate A.
Qed.
Lemma ascii_g : forall c, c < 128 -> (graphemes_property c = 0 \/ is (graphemes_property c) _Ctl = true) /\ ~ prepended c /\ ~ cluster_mark c
  /\ (is (graphemes_property c) _LF = true -> c = 10) /\ (is (graphemes_property c) _CR = true -> c = 13).
Proof.
  intros c L. assert (A : forallb (fun c => ((graphemes_property c =? 0) || is (graphemes_property c) _Ctl) && negb (gcb_beq (GCB c) GCB_Prepend || gcb_beq (GCB c) GCB_Extend || gcb_beq (GCB c) GCB_ZWJ || gcb_beq (GCB c) GCB_SpacingMark)
    && (negb (is (graphemes_property c) _LF) || (c =? 10)) && (negb (is (graphemes_property c) _CR) || (c =? 13))) (map N.of_nat (seq 0 128)) = true) by (vm_compute; reflexivity).
  rewrite forallb_forall in A. assert (I : In c (map N.of_nat (seq 0 128))) by (apply in_map_iff; exists (N.to_nat c); split; [apply N2Nat.id|apply in_seq; lia]).
  specialize (A c I). clear I. cbv beta in A. apply andb_true_iff in A as [A A4]. apply andb_true_iff in A as [A A3]. apply andb_true_iff in A as [A1 A2]. split.
  - apply orb_true_iff in A1 as [A1|A1]; [left; apply N.eqb_eq; exact A1|right; exact A1].
  - unfold prepended, cluster_mark. apply negb_true_iff in A2. split; [intros Q; rewrite Q in A2; discriminate A2|]. split; [intros [Q|[Q|Q]]; rewrite Q in A2; discriminate A2|].
    split; intros Q; rewrite Q in *; cbn [negb orb] in *; apply N.eqb_eq; assumption.
Qed.
Lemma g_ascii : forall b x y a, x < 128 -> y < 128 -> ~ (x = 13 /\ y = 10) -> grapheme_decides (b ++ [x]) (y :: a) Break.
Proof.
  intros b x y a Lx Ly N. destruct (ascii_g x Lx) as (_ & X2 & _ & _ & X5), (ascii_g y Ly) as ([Y1|Y1] & _ & _ & Y4 & _); [exact (g_before b x y a X2 Y1)|].
  apply decides_gdec; [destruct b; discriminate|]. unfold gdec. rewrite gtr_last, Y1. destruct (is (graphemes_property y) _LF && is (graphemes_property x) _CR) eqn:Q; [|reflexivity].
  apply andb_true_iff in Q as [Q1 Q2]. elim N. auto.
Qed.
