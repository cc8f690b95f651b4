(** Emoji: graphemes. *)
From Verif Require Import Base ListFacts Trie SpecUtf8 SpecUcd SpecRules SpecGraphemes SpecCluster SpecEmoji RuleFacts SegFacts BitFacts TableFacts UcdGraphemes TableGraphemes GraphemesEngine GraphemesConform ClusterFacts EmojiFacts.
From Verif Require Graphemes.
Import Graphemes.
Local Open Scope N_scope.

Lemma K_mod : forall c, modifier c = true -> K c = KExt.
Proof.
  intros c M. apply modifier_mods in M. assert (A : forallb (fun c => kb (K c) KExt) mods = true) by (vm_compute; reflexivity).
  rewrite forallb_forall in A. apply kb_eq. exact (A c M).
Qed.
Lemma K_zwj : K ZERO_WIDTH_JOINER = KZWJ.
Proof. vm_compute. reflexivity. Qed.
Lemma K_sym : forall c, letter_symbol c -> K c = KRI.
Proof.
  intros c M. apply symbol_in in M. assert (A : forallb (fun c => kb (K c) KRI) symbols = true) by (vm_compute; reflexivity).
  rewrite forallb_forall in A. apply kb_eq. exact (A c M).
Qed.
Lemma K_base : forall c, keycap_base c -> K c = KOther.
Proof.
  intros c M. apply base_in in M. assert (A : forallb (fun c => kb (K c) KOther) bases = true) by (vm_compute; reflexivity).
  rewrite forallb_forall in A. apply kb_eq. exact (A c M).
Qed.
Lemma K_pict : forall c, pictograph c -> K c = KPict.
Proof.
  intros c [S E]. assert (M : matches ExtPict_ [c]) by (apply m_cls; exact E). apply s_Pict in M; [|constructor; [exact S|constructor]]. destruct M as (d & Q & Kd). injection Q as <-. exact Kd.
Qed.
Lemma K_regional : forall c, scalar c -> regional c = false -> K c <> KRI.
Proof.
  intros c S R Q. unfold regional in R. apply orb_false_iff in R as [R _]. assert (M : csingle RI (fun c => K c = KRI)) by exact s_RI.
  assert (X : matches RI [c]) by (apply M; [constructor; [exact S|constructor]|exists c; split; [reflexivity|exact Q]]). inversion X as [|p d Hd| | | | |]; subst. unfold gc in Hd. rewrite Hd in R. discriminate R.
Qed.

Definition gJ (b : text) (y : N) (a : text) : Prop := gdec (gtr b) (P y) = Join.
Lemma sy : forall y, modifier y = true \/ y = ZERO_WIDTH_JOINER -> scalar y.
Proof. intros y [M| ->]; [exact (modifier_scalar y M)|left; reflexivity]. Qed.
Lemma sx : forall x, pictograph x \/ modifier x = true \/ keycap_base x -> scalar x /\ (K x = KPict \/ K x = KExt \/ K x = KOther).
Proof.
  intros x [H|[H|H]]; [split; [exact (proj1 H)|left; exact (K_pict x H)]|split; [exact (modifier_scalar x H)|right; left; exact (K_mod x H)]|].
  split; [|right; right; exact (K_base x H)]. left. destruct H as [H|[->| ->]]; [lia|reflexivity|reflexivity].
Qed.
Lemma gJ_mod : forall b x y a, scalars b -> pictograph x \/ modifier x = true \/ keycap_base x -> modifier y = true \/ y = ZERO_WIDTH_JOINER -> gJ (b ++ [x]) y a.
Proof.
  intros b x y a _ Hx Hy. unfold gJ. pose proof (sy y Hy) as Sy. destruct (sx x Hx) as [Sx Kx]. rewrite (gdec_kind b x y Sx Sy). destruct (is (P y) _LF && is (P x) _CR); [reflexivity|].
  assert (Ky : K y = KExt \/ K y = KZWJ) by (destruct Hy as [M| ->]; [left; exact (K_mod y M)|right; exact K_zwj]). unfold join.
  destruct Kx as [-> |[-> | ->]]; destruct Ky as [-> | ->]; reflexivity.
Qed.
Lemma mods_ext : forall ms, Forall (fun m => modifier m = true) ms -> Forall (fun c => K c = KExt) ms.
Proof. intros ms F. apply Forall_impl with (2 := F). intros m. apply K_mod. Qed.
Lemma gJ_zwj : forall b p ms q a, scalars b -> pictograph p -> Forall (fun m => modifier m = true) ms -> pictograph q -> gJ (b ++ p :: ms ++ [ZERO_WIDTH_JOINER]) q a.
Proof.
  intros b p ms q a Sb Hp F Hq. unfold gJ. replace (b ++ p :: ms ++ [ZERO_WIDTH_JOINER]) with (((b ++ [p]) ++ ms) ++ [ZERO_WIDTH_JOINER]) by (rewrite <- !app_assoc; reflexivity).
  rewrite (gdec_kind _ ZERO_WIDTH_JOINER q (or_introl eq_refl) (proj1 Hq)). destruct (is (P q) _LF && _); [reflexivity|]. unfold join. rewrite (t_zwj_snoc _ ZERO_WIDTH_JOINER (or_introl eq_refl)), K_zwj, (K_pict q Hq).
  rewrite pict_run; [generalize (t_link (gtr (((b ++ [p]) ++ ms) ++ [ZERO_WIDTH_JOINER]))); intros []; reflexivity| |exact (mods_ext ms F)|].
  - apply Forall_app. split; [apply Forall_app; split; [exact Sb|constructor; [exact (proj1 Hp)|constructor]]|]. apply Forall_impl with (2 := F). intros m. apply modifier_scalar.
  - rewrite (t_pict_snoc b p (proj1 Hp)), (K_pict p Hp). reflexivity.
Qed.
Lemma sym_scalar : forall c, letter_symbol c -> scalar c.
Proof. intros c [A B]. right. lia. Qed.
Lemma gJ_flag : forall b x y a, Nat.even (t_run (gtr b)) = true -> letter_symbol x -> letter_symbol y -> gJ (b ++ [x]) y a.
Proof.
  intros b x y a Ev Hx Hy. unfold gJ. rewrite (gdec_kind b x y (sym_scalar x Hx) (sym_scalar y Hy)). destruct (is (P y) _LF && _); [reflexivity|]. unfold join.
  rewrite (t_run_snoc b x (sym_scalar x Hx)), (K_sym x Hx), (K_sym y Hy). cbn [kb]. rewrite Nat.odd_succ, Ev. destruct (t_link (gtr (b ++ [x]))), (t_zwj (gtr (b ++ [x]))); reflexivity.
Qed.
Lemma gJ_emoji : forall e b a s1 y s2, emoji e -> (flag e -> Nat.even (t_run (gtr b)) = true) -> scalars b -> e = s1 ++ y :: s2 -> s1 <> [] -> gJ (b ++ s1) y a.
Proof.
  intros e b a s1 y s2 [Je|[Fe|Ke]] Ev Sb E N1.
  - exact (joined_inner gJ gJ_mod gJ_zwj e Je b a s1 y s2 Sb E N1).
  - specialize (Ev Fe). destruct Fe as [x z Hx Hz]. destruct s1 as [|w [|w' s1]]; [contradiction| |destruct s1; discriminate E]. injection E as <- <- E. exact (gJ_flag b x z a Ev Hx Hz).
  - destruct Ke as [k ms Hk F]. refine (mods_inner gJ gJ_mod ms b k a s1 y s2 Sb _ (or_intror (or_intror Hk)) F E N1). left. destruct Hk as [Hk|[->| ->]]; [lia|reflexivity|reflexivity].
Qed.

(** After an emoji *)
Definition rests (k : kind) : bool := match k with KPict | KExt | KRI | KOther => true | _ => false end.
Lemma last_element : forall b x ms, scalar x -> rests (K x) = true -> K x <> KRI -> Forall (fun m => modifier m = true) ms -> exists b' z, b ++ x :: ms = b' ++ [z] /\ scalar z /\ rests (K z) = true /\ K z <> KRI.
Proof.
  intros b x ms Sx Rx Nx F. destruct ms as [|m ms _] using rev_ind; [exists b, x; auto|]. apply Forall_app in F as [_ F]. inversion F as [|? ? Fm _]; subst.
  exists (b ++ x :: ms), m. split; [rewrite <- app_assoc; reflexivity|]. split; [exact (modifier_scalar m Fm)|]. rewrite (K_mod m Fm). split; [reflexivity|discriminate].
Qed.
Lemma last_joined : forall s, joined s -> forall b, exists b' z, b ++ s = b' ++ [z] /\ scalar z /\ rests (K z) = true /\ K z <> KRI.
Proof.
  intros s Js. induction Js as [e [p ms Hp F]|e s He Js IH]; intros b.
  - apply last_element; [exact (proj1 Hp)|rewrite (K_pict p Hp); reflexivity|rewrite (K_pict p Hp); discriminate|exact F].
  - destruct (IH (b ++ e ++ [ZERO_WIDTH_JOINER])) as (b' & z & E & R). exists b', z. split; [|exact R]. rewrite <- E, <- !app_assoc. reflexivity.
Qed.
Lemma after_emoji : forall e b, emoji e -> exists b' z, b ++ e = b' ++ [z] /\ scalar z /\ rests (K z) = true /\ (Nat.even (t_run (gtr b)) = true -> Nat.even (t_run (gtr (b ++ e))) = true).
Proof.
  intros e b He. assert (Z : (exists b' z, b ++ e = b' ++ [z] /\ scalar z /\ rests (K z) = true /\ K z <> KRI) \/ flag e).
  { destruct He as [Je|[Fe|[k ms Hk F]]]; [left; exact (last_joined e Je b)|right; exact Fe|left]. destruct (sx k (or_intror (or_intror Hk))) as [Sk _].
    apply last_element; [exact Sk|rewrite (K_base k Hk); reflexivity|rewrite (K_base k Hk); discriminate|exact F]. }
  destruct Z as [(b' & z & E & Sz & Rz & Nz)|[x y Hx Hy]].
  - exists b', z. split; [exact E|]. split; [exact Sz|]. split; [exact Rz|]. intros _. rewrite E, (t_run_snoc b' z Sz). destruct (kb KRI (K z)) eqn:Q; [apply kb_eq in Q; congruence|reflexivity].
  - exists (b ++ [x]), y. split; [rewrite <- app_assoc; reflexivity|]. split; [exact (sym_scalar y Hy)|]. rewrite (K_sym y Hy). split; [reflexivity|]. intros Ev.
    change [x; y] with ([x] ++ [y]). rewrite app_assoc, (t_run_snoc _ y (sym_scalar y Hy)), (t_run_snoc b x (sym_scalar x Hx)), (K_sym x Hx), (K_sym y Hy). cbn [kb]. exact Ev.
Qed.
Lemma head_emoji : forall e, emoji e -> exists y r, e = y :: r /\ scalar y /\ (K y = KPict \/ K y = KRI \/ K y = KOther).
Proof.
  intros e [Je|[[x y Hx Hy]|[k ms Hk F]]].
  - destruct (joined_head e Je) as (p & r & -> & Hp). exists p, r. split; [reflexivity|]. split; [exact (proj1 Hp)|left; exact (K_pict p Hp)].
  - exists x, [y]. split; [reflexivity|]. split; [exact (sym_scalar x Hx)|right; left; exact (K_sym x Hx)].
  - exists k, ms. split; [reflexivity|]. destruct (sx k (or_intror (or_intror Hk))) as [Sk _]. split; [exact Sk|right; right; exact (K_base k Hk)].
Qed.
Lemma not_lf : forall x y, scalar y -> K y <> KCtl -> is (P y) _LF && is (P x) _CR = false.
Proof. intros x y Sy Ky. destruct (is (P y) _LF) eqn:Q; [|reflexivity]. destruct (kind_row y Sy) as (_ & _ & _ & _ & _ & L). elim Ky. exact (L Q). Qed.
Lemma break_emoji : forall b z y, scalar z -> scalar y -> rests (K z) = true -> K y = KPict \/ K y = KRI \/ K y = KOther -> Nat.even (t_run (gtr (b ++ [z]))) = true -> gdec (gtr (b ++ [z])) (P y) = Break.
Proof.
  intros b z y Sz Sy Rz Ky Ev. rewrite (gdec_kind b z y Sz Sy). rewrite (not_lf z y Sy) by (destruct Ky as [-> |[-> | ->]]; discriminate). unfold join. rewrite (t_zwj_snoc b z Sz). rewrite <- Nat.negb_even, Ev.
  destruct (t_link (gtr (b ++ [z]))), (t_pict (gtr b)); destruct Ky as [-> |[-> | ->]]; destruct (K z); try discriminate Rz; reflexivity.
Qed.

Lemma even_emoji : forall es, Forall emoji es -> Nat.even (t_run (gtr (concat es))) = true.
Proof.
  intros es F. induction es as [|e es IH] using rev_ind; [reflexivity|]. apply Forall_app in F as [F1 F2]. inversion F2 as [|? ? He _]; subst. rewrite concat_app. cbn [concat]. rewrite app_nil_r.
  destruct (after_emoji e (concat es) He) as (_ & _ & _ & _ & _ & Q). exact (Q (IH F1)).
Qed.
Lemma scalars_concat_emoji : forall es, Forall emoji es -> scalars (concat es).
Proof. intros es F. induction F as [|e es He F IH]; [constructor|]. cbn [concat]. apply Forall_app. split; [exact (emoji_scalars e He)|exact IH]. Qed.

Lemma emoji_segments : forall es, Forall emoji es -> segmentation grapheme_decides (concat es) es.
Proof.
  intros es F. apply seg_pieces.
  - intros b a B J. pose proof (says_fun _ _ _ _ _ B J) as Q. discriminate Q.
  - apply Forall_impl with (2 := F). exact emoji_nonnil.
  - intros p e1 y e2 s E N1. assert (Fp : Forall emoji (p ++ (e1 ++ y :: e2) :: s)) by (rewrite <- E; exact F). apply Forall_app in Fp as [Fp Fe]. inversion Fe as [|? ? He _]; subst.
    cbn [app]. apply decides_gdec; [destruct (concat p); [exact N1|discriminate]|]. exact (gJ_emoji _ (concat p) [] e1 y e2 He (fun _ => even_emoji p Fp) (scalars_concat_emoji p Fp) eq_refl N1).
  - intros p e s E Np. assert (Fp : Forall emoji (p ++ e :: s)) by (rewrite <- E; exact F). apply Forall_app in Fp as [Fp Fe]. inversion Fe as [|? ? He _]; subst.
    destruct (head_emoji e He) as (y & r & -> & Sy & Ky). destruct (exists_last Np) as (p' & e' & ->). apply Forall_app in Fp as [Fp Fe']. inversion Fe' as [|? ? He' _]; subst.
    pose proof (even_emoji (p' ++ [e']) ltac:(apply Forall_app; split; [exact Fp|exact Fe'])) as Ev. rewrite concat_app in *. cbn [concat] in *. rewrite app_nil_r in *.
    destruct (after_emoji e' (concat p') He') as (b' & z & Eb & Sz & Rz & _). rewrite Eb in *. cbn [app]. apply decides_gdec; [destruct b'; discriminate|]. exact (break_emoji b' z y Sz Sy Rz Ky Ev).
Qed.

Lemma run_none : forall b, scalars b -> Forall (fun c => regional c = false) b -> t_run (gtr b) = 0%nat.
Proof.
  intros b S F. destruct b as [|x b _] using rev_ind; [reflexivity|]. apply Forall_app in S as [_ S], F as [_ F]. inversion S as [|? ? Sx _]; subst. inversion F as [|? ? Fx _]; subst.
  rewrite (t_run_snoc b x Sx). destruct (kb KRI (K x)) eqn:Q; [|reflexivity]. apply kb_eq in Q. elim (K_regional x Sx Fx). symmetry. exact Q.
Qed.
Lemma emoji_whole : forall b e1 y e2 a, scalars b -> emoji (e1 ++ y :: e2) -> e1 <> [] -> (flag (e1 ++ y :: e2) -> Forall (fun c => regional c = false) b) -> grapheme_decides (b ++ e1) (y :: e2 ++ a) Join.
Proof.
  intros b e1 y e2 a Sb He N1 Fl. apply decides_gdec; [destruct b; [exact N1|discriminate]|]. refine (gJ_emoji _ b [] e1 y e2 He _ Sb eq_refl N1). intros Q. rewrite (run_none b Sb (Fl Q)). reflexivity.
Qed.
