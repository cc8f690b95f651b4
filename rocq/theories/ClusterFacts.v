(** The clusters of the rules are the longest matches of the regular expression. *)
From Verif Require Import Base ListFacts Trie SpecUtf8 SpecUcd SpecRules SpecGraphemes SpecCluster RuleFacts BitFacts TableFacts UcdGraphemes TableGraphemes GraphemesEngine GraphemesConform.
From Verif Require Graphemes.
Import Graphemes.
Local Open Scope N_scope.

(** ** The kind of a character: the classes the rules tell apart *)
Inductive kind := KCtl | KL | KV | KLV | KLVT | KT | KExt | KZWJ | KSM | KPre | KRI | KPict | KCons | KOther.
Definition kb (a b : kind) : bool :=
  match a, b with
  | KCtl, KCtl | KL, KL | KV, KV | KLV, KLV | KLVT, KLVT | KT, KT | KExt, KExt | KZWJ, KZWJ | KSM, KSM
  | KPre, KPre | KRI, KRI | KPict, KPict | KCons, KCons | KOther, KOther => true
  | _, _ => false
  end.
Definition kinds : list (N * kind) :=
  [(_Ctl, KCtl); (_L, KL); (_V, KV); (_LV, KLV); (_LVT, KLVT); (_T, KT); (_Extend, KExt); (_ZWJ, KZWJ); (_SpacingMark, KSM);
   (_Prepend, KPre); (_RegionalIndicator, KRI); (_ExtendedPictographic, KPict); (_InCBConsonant, KCons)].
Definition kof (v : N) : kind := match find (fun q => is v (fst q)) kinds with Some q => snd q | None => KOther end.
Definition K (c : N) : kind := kof (P c).

Definition implb (a b : bool) : bool := if a then b else true.
Lemma kind_table : forallb (fun v =>
  forallb (fun q => Bool.eqb (is v (fst q)) (kb (snd q) (kof v))) kinds
  && implb (is v _EL) (kb KExt (kof v) || kb KZWJ (kof v)) && implb (is v _InCBLinker) (is v _EL)
  && implb (is v _InCBExtend) (is v _EL)
  && implb (is v _CR) (kb KCtl (kof v)) && implb (is v _LF) (kb KCtl (kof v))) gV = true.
Proof. vm_compute. reflexivity. Qed.

Lemma kb_eq : forall a b, kb a b = true <-> a = b.
Proof. intros [] []; cbn; split; congruence. Qed.
Lemma kb_neq : forall a b, kb a b = false <-> a <> b.
Proof. intros [] []; cbn; split; congruence. Qed.

Lemma kind_row : forall c, scalar c ->
  (forall b k, In (b, k) kinds -> is (P c) b = kb k (K c))
  /\ (is (P c) _EL = true -> K c = KExt \/ K c = KZWJ) /\ (is (P c) _InCBLinker = true -> is (P c) _EL = true)
  /\ (is (P c) _InCBExtend = true -> is (P c) _EL = true)
  /\ (is (P c) _CR = true -> K c = KCtl) /\ (is (P c) _LF = true -> K c = KCtl).
Proof.
  intros c Hc. pose proof (proj1 (forallb_forall _ _) kind_table (P c) (P_in c Hc)) as H. cbv beta in H. fold (K c) in H.
  rewrite !andb_true_iff in H. destruct H as (((((H1 & H2) & H3) & H4) & H5) & H6).
  split; [|split; [|split; [|split; [|split]]]].
  - intros b k Hi. pose proof (proj1 (forallb_forall _ _) H1 (b, k) Hi) as E. apply eqb_prop in E. exact E.
  - intros E. rewrite E in H2. cbn [implb] in H2. apply orb_prop in H2. destruct H2 as [H2|H2]; apply kb_eq in H2; auto.
  - intros E. rewrite E in H3. exact H3.
  - intros E. rewrite E in H4. exact H4.
  - intros E. rewrite E in H5. cbn [implb] in H5. apply kb_eq in H5. auto.
  - intros E. rewrite E in H6. cbn [implb] in H6. apply kb_eq in H6. auto.
Qed.
Lemma K_is : forall c b k, scalar c -> In (b, k) kinds -> is (P c) b = kb k (K c).
Proof. intros c b k Hc. apply (kind_row c Hc). Qed.
Ltac inkinds := unfold kinds; cbn [In]; tauto.

(** Pairs of kinds joined whatever comes before them. *)
Definition pairjoin (x y : kind) : bool :=
  match x, y with
  | KPre, _ => true
  | _, (KExt | KZWJ | KSM) => true
  | KL, (KL | KV | KLV | KLVT) => true
  | (KLV | KV), (KV | KT) => true
  | (KLVT | KT), KT => true
  | _, _ => false
  end.
Definition join (b : text) (x y : N) : bool :=
  pairjoin (K x) (K y) || (t_link (gtr (b ++ [x])) && kb KCons (K y)) || (t_zwj (gtr (b ++ [x])) && kb KPict (K y))
  || (Nat.odd (t_run (gtr (b ++ [x]))) && kb KRI (K y)).

Lemma gdec_kind : forall b x y, scalar x -> scalar y -> gdec (gtr (b ++ [x])) (P y) =
  if is (P y) _LF && is (P x) _CR then Join else if kb KCtl (K x) || kb KCtl (K y) then Break else if join b x y then Join else Break.
Proof.
  intros b x y Hx Hy. unfold gdec, join. rewrite gtr_last. rewrite ?is_lor_r.
  rewrite (K_is x _Ctl KCtl), (K_is y _Ctl KCtl) by (auto; inkinds).
  rewrite (K_is x _L KL), (K_is x _V KV), (K_is x _LV KLV), (K_is x _LVT KLVT), (K_is x _T KT), (K_is x _Prepend KPre) by (auto; inkinds).
  rewrite (K_is y _L KL), (K_is y _V KV), (K_is y _LV KLV), (K_is y _LVT KLVT), (K_is y _T KT), (K_is y _Extend KExt), (K_is y _ZWJ KZWJ), (K_is y _SpacingMark KSM),
    (K_is y _RegionalIndicator KRI), (K_is y _ExtendedPictographic KPict), (K_is y _InCBConsonant KCons) by (auto; inkinds).
  destruct (is (P y) _LF && is (P x) _CR); [reflexivity|].
  generalize (t_link (gtr (b ++ [x]))) (t_zwj (gtr (b ++ [x]))) (Nat.odd (t_run (gtr (b ++ [x])))). intros lk zw od.
  destruct (K x), (K y), lk, zw, od; reflexivity.
Qed.

(** ** Texts that hold together *)
Definition glued (s : text) : Prop := forall b a, b <> [] -> a <> [] -> s = b ++ a -> grapheme_decides b a Join.
Definition joins (b : text) (y : N) : Prop := b = [] \/ gdec (gtr b) (P y) = Join.

Lemma split_last : forall (b : text), b <> [] -> exists c x, b = c ++ [x].
Proof. intros b H. destruct (exists_last H) as (c & x & E). eauto. Qed.

Lemma decides_gdec : forall b y a o, b <> [] -> (grapheme_decides b (y :: a) o <-> gdec (gtr b) (P y) = o).
Proof.
  intros b y a o Hb. destruct (split_last b Hb) as (c & x & ->). pose proof (g_spec c x y a) as G. split.
  - intros H. pose proof (says_fun _ _ _ _ _ G H) as E. congruence.
  - intros <-. exact G.
Qed.
Lemma glued_nil : glued [].
Proof. intros b a Hb _ E. destruct b; [contradiction|discriminate]. Qed.
Lemma glued_snoc : forall b y, glued (b ++ [y]) <-> glued b /\ joins b y.
Proof.
  intros b y. split.
  - intros H. split.
    + intros b' a' Hb Ha ->. destruct a' as [|z a']; [contradiction|]. apply decides_gdec; [exact Hb|].
      apply (decides_gdec b' z (a' ++ [y])); [exact Hb|]. apply H; [exact Hb|discriminate|]. rewrite <- app_assoc. reflexivity.
    + destruct b as [|x b]; [left; reflexivity|]. right. apply (decides_gdec _ y []); [discriminate|]. apply H; [discriminate|discriminate|reflexivity].
  - intros (H & J) b' a' Hb Ha E. destruct (split_last a' Ha) as (a1 & z & ->). rewrite app_assoc in E. apply app_inj_tail in E. destruct E as (-> & ->).
    destruct a1 as [|w a1].
    + rewrite app_nil_r in *. cbn [app]. apply decides_gdec; [exact Hb|]. destruct J as [J|J]; [contradiction|exact J].
    + cbn [app]. apply decides_gdec; [exact Hb|]. apply (decides_gdec b' w a1); [exact Hb|]. apply H; [exact Hb|discriminate|reflexivity].
Qed.

(** ** Patterns over scalar values, by kinds *)
Definition csingle (r : re) (Q : N -> Prop) : Prop := forall t, scalars t -> (matches r t <-> exists c, t = [c] /\ Q c).
Lemma csingle_of : forall r p (Q : N -> Prop), single r p -> (forall c, scalar c -> (p c = true <-> Q c)) -> csingle r Q.
Proof.
  intros r p Q Hr H t Ht. rewrite (Hr t). split; intros (c & -> & Hc); exists c; (split; [reflexivity|]); apply (H c (Forall_inv Ht)); exact Hc.
Qed.
Lemma cstar : forall r Q, csingle r Q -> forall t, scalars t -> (matches (Star r) t <-> Forall Q t).
Proof.
  intros r Q H t Ht. split.
  - intros M. remember (Star r) as s eqn:Es. revert Ht. induction M; inversion Es; subst; intros Ht; [constructor|].
    apply Forall_app in Ht. destruct Ht as (H1 & H2). apply Forall_app. split; [|apply IHM2; auto].
    apply (H t H1) in M1. destruct M1 as (c & -> & Hc). auto.
  - intros F. revert Ht. induction F as [|c t Hc F IH]; intros Ht; [constructor|]. change (c :: t) with ([c] ++ t). constructor; [|apply IH; exact (Forall_inv_tail Ht)].
    apply H; [constructor; [exact (Forall_inv Ht)|constructor]|]. eauto.
Qed.
Lemma kind_single : forall r b k, single r (fun c => is (P c) b) -> In (b, k) kinds -> csingle r (fun c => K c = k).
Proof. intros r b k Hr Hi. apply (csingle_of _ _ _ Hr). intros c Hc. rewrite (K_is c b k Hc Hi), kb_eq. split; congruence. Qed.
Local Notation nz := ltac:(discriminate) (only parsing).
Local Notation ik := ltac:(inkinds) (only parsing).
Lemma s_L : csingle L (fun c => K c = KL). Proof. exact (kind_single _ _ _ (gc_single GCB_L nz) ik). Qed.
Lemma s_V : csingle V (fun c => K c = KV). Proof. exact (kind_single _ _ _ (gc_single GCB_V nz) ik). Qed.
Lemma s_T : csingle T (fun c => K c = KT). Proof. exact (kind_single _ _ _ (gc_single GCB_T nz) ik). Qed.
Lemma s_LV : csingle LV (fun c => K c = KLV). Proof. exact (kind_single _ _ _ (gc_single GCB_LV nz) ik). Qed.
Lemma s_LVT : csingle LVT (fun c => K c = KLVT). Proof. exact (kind_single _ _ _ (gc_single GCB_LVT nz) ik). Qed.
Lemma s_Ext : csingle Extend (fun c => K c = KExt). Proof. exact (kind_single _ _ _ (gc_single GCB_Extend nz) ik). Qed.
Lemma s_ZWJ : csingle ZWJ (fun c => K c = KZWJ). Proof. exact (kind_single _ _ _ (gc_single GCB_ZWJ nz) ik). Qed.
Lemma s_SM : csingle SpacingMark (fun c => K c = KSM). Proof. exact (kind_single _ _ _ (gc_single GCB_SpacingMark nz) ik). Qed.
Lemma s_Pre : csingle Prepend (fun c => K c = KPre). Proof. exact (kind_single _ _ _ (gc_single GCB_Prepend nz) ik). Qed.
Lemma s_RI : csingle RI (fun c => K c = KRI). Proof. exact (kind_single _ _ _ (gc_single GCB_Regional_Indicator nz) ik). Qed.
Lemma s_Pict : csingle ExtPict_ (fun c => K c = KPict). Proof. exact (kind_single _ _ _ pict_single ik). Qed.
Lemma s_Cons : csingle Consonant (fun c => K c = KCons). Proof. exact (kind_single _ _ _ cons_single ik). Qed.
Definition isEL (c : N) : Prop := is (P c) _EL = true.
Lemma s_EL : csingle (Alt InCBExtend Linker) isEL.
Proof. apply (csingle_of _ _ _ el_single). intros c _. reflexivity. Qed.
Definition isLink (c : N) : Prop := is (P c) _InCBLinker = true.
Lemma s_Link : csingle Linker isLink.
Proof. apply (csingle_of _ _ _ link_single). intros c _. reflexivity. Qed.
Definition isPost (k : kind) : bool := match k with KExt | KZWJ | KSM => true | _ => false end.
Lemma s_post : csingle postcore (fun c => isPost (K c) = true).
Proof.
  intros t Ht. unfold postcore. rewrite !matches_alt, (s_Ext t Ht), (s_ZWJ t Ht), (s_SM t Ht). split.
  - intros [(c & -> & E)|[(c & -> & E)|(c & -> & E)]]; exists c; rewrite E; auto.
  - intros (c & -> & E). destruct (K c) eqn:Ek; try discriminate; eauto.
Qed.
Lemma s_any : csingle not_control (fun c => K c <> KCtl).
Proof.
  apply (csingle_of _ _ _ (single_cls _)). intros c Hc. rewrite <- kb_neq.
  assert (E : gc GCB_Control c || gc GCB_CR c || gc GCB_LF c = kb (K c) KCtl).
  { rewrite (gc_is GCB_Control), (gc_is GCB_CR), (gc_is GCB_LF) by discriminate. replace (kb (K c) KCtl) with (is (P c) _Ctl).
    - unfold _Ctl. rewrite !is_lor_r, orb_assoc. reflexivity.
    - rewrite (K_is c _Ctl KCtl Hc ik). destruct (K c); reflexivity. }
  rewrite E. destruct (kb (K c) KCtl); cbn; split; congruence.
Qed.

(** ** A match holds together *)
Fixpoint chain (k : kind) (s : text) : bool :=
  match s with [] => true | y :: s' => pairjoin k (K y) && negb (kb KCtl (K y)) && chain (K y) s' end.
Fixpoint lastk (k : kind) (s : text) : kind := match s with [] => k | y :: s' => lastk (K y) s' end.
Lemma chain_app : forall s1 s2 k, chain k (s1 ++ s2) = chain k s1 && chain (lastk k s1) s2.
Proof. induction s1 as [|y s1 IH]; intros s2 k; cbn [app chain lastk]; [reflexivity|]. rewrite IH, andb_assoc. reflexivity. Qed.
Lemma lastk_app : forall s1 s2 k, lastk k (s1 ++ s2) = lastk (lastk k s1) s2.
Proof. induction s1 as [|y s1 IH]; intros s2 k; cbn [app lastk]; auto. Qed.

(** [s] holds together, and a character after it sees the kind [k] *)
Definition held (k : kind) (s : text) : Prop :=
  glued s /\ k <> KCtl /\ ((s = [] /\ k = KPre) \/ exists b x, s = b ++ [x] /\ K x = k).
Lemma held_nil : held KPre [].
Proof. split; [exact glued_nil|]. split; [discriminate|]. auto. Qed.
Lemma held_step : forall k s y, scalars (s ++ [y]) -> held k s -> K y <> KCtl ->
  (pairjoin k (K y) = true \/ forall b x, s = b ++ [x] -> join b x y = true) -> held (K y) (s ++ [y]).
Proof.
  intros k s y Hs (G & Hk & L) Hy J. split; [|split; [exact Hy|right; eauto]].
  apply glued_snoc. split; [exact G|]. destruct L as [(-> & _)|(b & x & -> & Ek)]; [left; reflexivity|]. right.
  apply Forall_app in Hs. destruct Hs as (Hs & Hys). apply Forall_app in Hs. destruct Hs as (_ & Hxs).
  rewrite (gdec_kind b x y (Forall_inv Hxs) (Forall_inv Hys)). destruct (is (P y) _LF && is (P x) _CR); [reflexivity|].
  assert (Jt : join b x y = true).
  { destruct J as [J|J]; [|exact (J b x eq_refl)]. unfold join. rewrite Ek, J. reflexivity. }
  rewrite Jt. destruct (kb KCtl (K x)) eqn:E1; [apply kb_eq in E1; congruence|]. destruct (kb KCtl (K y)) eqn:E2; [apply kb_eq in E2; congruence|]. reflexivity.
Qed.
Lemma held_chain : forall u k s, scalars (s ++ u) -> held k s -> chain k u = true -> held (lastk k u) (s ++ u).
Proof.
  induction u as [|y u IH]; intros k s Hs H C; cbn [lastk].
  - rewrite app_nil_r. exact H.
  - cbn [chain] in C. rewrite !andb_true_iff in C. destruct C as ((C1 & C2) & C3). apply negb_true_iff, kb_neq in C2.
    change (s ++ y :: u) with (s ++ [y] ++ u) in *. rewrite app_assoc in *. apply IH; [exact Hs| |exact C3].
    apply (held_step k); auto. apply Forall_app in Hs. exact (proj1 Hs).
Qed.

Lemma chain_run : forall k2 s k1, Forall (fun c => K c = k2) s -> pairjoin k1 k2 = true -> pairjoin k2 k2 = true -> k2 <> KCtl ->
  chain k1 s = true /\ (lastk k1 s = k1 \/ lastk k1 s = k2).
Proof.
  induction s as [|y s IH]; intros k1 F H1 H2 Hc; cbn [chain lastk]; [auto|].
  destruct (IH k2 (Forall_inv_tail F) H2 H2 Hc) as (I1 & I2). rewrite (Forall_inv F). rewrite H1, I1.
  apply not_eq_sym in Hc. apply kb_neq in Hc. rewrite Hc. split; [reflexivity|]. destruct I2 as [E|E]; rewrite E; auto.
Qed.
Lemma chain_post : forall s k, Forall (fun c => isPost (K c) = true) s -> chain k s = true.
Proof.
  induction s as [|y s IH]; intros k F; cbn [chain]; [reflexivity|]. rewrite (IH _ (Forall_inv_tail F)). pose proof (Forall_inv F) as E. cbv beta in E.
  destruct (K y); try discriminate; destruct k; reflexivity.
Qed.
Lemma cplus : forall r Q, csingle r Q -> forall t, scalars t -> matches (Plus r) t -> exists c s, t = c :: s /\ Q c /\ Forall Q s.
Proof.
  intros r Q H t Ht M. apply matches_cat in M. destruct M as (t1 & t2 & -> & M1 & M2). apply Forall_app in Ht. destruct Ht as (H1 & H2).
  apply (H t1 H1) in M1. destruct M1 as (c & -> & Hc). apply (cstar _ _ H t2 H2) in M2. exists c, t2. auto.
Qed.
Lemma Forall_scal_app : forall a b, scalars (a ++ b) -> scalars a /\ scalars b.
Proof. intros a b H. apply Forall_app in H. exact H. Qed.

Lemma chain_one : forall k c, pairjoin k (K c) = true -> K c <> KCtl -> chain k [c] = true.
Proof. intros k c H1 H2. cbn [chain]. rewrite H1. apply not_eq_sym, kb_neq in H2. rewrite H2. reflexivity. Qed.

Lemma chain_T : forall k t, scalars t -> matches (Star T) t -> pairjoin k KT = true -> chain k t = true.
Proof. intros k t Ht M Hk. apply (cstar _ _ s_T t Ht) in M. apply (chain_run KT t k M Hk eq_refl). discriminate. Qed.

Lemma hangul_chain : forall t, scalars t -> matches hangul_syllable t -> chain KPre t = true.
Proof.
  intros t Ht M. apply matches_alt in M. destruct M as [M|M].
  - apply matches_cat in M. destruct M as (t1 & t2 & -> & M1 & M2). apply Forall_scal_app in Ht. destruct Ht as (Ht1 & Ht2).
    apply (cstar _ _ s_L t1 Ht1) in M1. destruct (chain_run KL t1 KPre M1 eq_refl eq_refl ltac:(discriminate)) as (C1 & E1).
    rewrite chain_app, C1. cbn [andb]. apply matches_cat in M2. destruct M2 as (t3 & t4 & -> & M3 & M4). apply Forall_scal_app in Ht2. destruct Ht2 as (Ht3 & Ht4).
    assert (X : chain (lastk KPre t1) t3 = true /\ pairjoin (lastk (lastk KPre t1) t3) KT = true).
    { apply matches_alt in M3. destruct M3 as [M3|M3]; [|apply matches_alt in M3; destruct M3 as [M3|M3]].
      - destruct (cplus _ _ s_V t3 Ht3 M3) as (c & s & -> & Ec & Fs).
        destruct (chain_run KV s KV Fs eq_refl eq_refl ltac:(discriminate)) as (C3 & E3). cbn [chain lastk]. rewrite Ec, C3.
        split; [destruct E1 as [E|E]; rewrite E; reflexivity|]. destruct E3 as [E|E]; rewrite E; reflexivity.
      - apply matches_cat in M3. destruct M3 as (t5 & t6 & -> & M5 & M6). apply Forall_scal_app in Ht3. destruct Ht3 as (Ht5 & Ht6).
        apply (s_LV t5 Ht5) in M5. destruct M5 as (c & -> & Ec). apply (cstar _ _ s_V t6 Ht6) in M6.
        destruct (chain_run KV t6 KLV M6 eq_refl eq_refl ltac:(discriminate)) as (C6 & E6). cbn [app chain lastk]. rewrite Ec, C6.
        split; [destruct E1 as [E|E]; rewrite E; reflexivity|]. destruct E6 as [E|E]; rewrite E; reflexivity.
      - apply (s_LVT t3 Ht3) in M3. destruct M3 as (c & -> & Ec). cbn [chain lastk]. rewrite Ec.
        split; [destruct E1 as [E|E]; rewrite E; reflexivity|reflexivity]. }
    destruct X as (X1 & X2). rewrite chain_app, X1. cbn [andb]. apply chain_T; auto.
  - apply matches_alt in M. destruct M as [M|M].
    + destruct (cplus _ _ s_L t Ht M) as (c & s & -> & Ec & Fs).
      destruct (chain_run KL s KL Fs eq_refl eq_refl ltac:(discriminate)) as (C3 & _). cbn [chain]. rewrite Ec, C3. reflexivity.
    + destruct (cplus _ _ s_T t Ht M) as (c & s & -> & Ec & Fs).
      destruct (chain_run KT s KT Fs eq_refl eq_refl ltac:(discriminate)) as (C3 & _). cbn [chain]. rewrite Ec, C3. reflexivity.
Qed.

Lemma scalar_last : forall b y, scalars (b ++ [y]) -> scalar y.
Proof. intros b y H. apply Forall_app in H. exact (Forall_inv (proj2 H)). Qed.
Lemma t_pict_snoc : forall s y, scalar y -> t_pict (gtr (s ++ [y])) = kb KPict (K y) || (kb KExt (K y) && t_pict (gtr s)).
Proof. intros s y Hy. rewrite gtr_snoc. cbn [gstep t_pict]. rewrite (K_is y _ExtendedPictographic KPict), (K_is y _Extend KExt) by (auto; inkinds). reflexivity. Qed.
Lemma t_zwj_snoc : forall s y, scalar y -> t_zwj (gtr (s ++ [y])) = kb KZWJ (K y) && t_pict (gtr s).
Proof. intros s y Hy. rewrite gtr_snoc. cbn [gstep t_zwj]. rewrite (K_is y _ZWJ KZWJ) by (auto; inkinds). reflexivity. Qed.
Lemma t_cons_snoc : forall s y, scalar y -> t_cons (gtr (s ++ [y])) = kb KCons (K y) || (is (P y) _EL && t_cons (gtr s)).
Proof. intros s y Hy. rewrite gtr_snoc. cbn [gstep t_cons]. rewrite (K_is y _InCBConsonant KCons) by (auto; inkinds). reflexivity. Qed.
Lemma t_link_snoc : forall s y, t_link (gtr (s ++ [y])) = (is (P y) _InCBLinker && t_cons (gtr s)) || (is (P y) _EL && t_link (gtr s)).
Proof. intros s y. rewrite gtr_snoc. reflexivity. Qed.
Lemma t_run_snoc : forall s y, scalar y -> t_run (gtr (s ++ [y])) = if kb KRI (K y) then S (t_run (gtr s)) else 0%nat.
Proof. intros s y Hy. rewrite gtr_snoc. cbn [gstep t_run]. rewrite (K_is y _RegionalIndicator KRI) by (auto; inkinds). reflexivity. Qed.

Lemma held_pict : forall s, held KPict s -> scalars s -> t_pict (gtr s) = true.
Proof.
  intros s (_ & _ & [(_ & E)|(b & x & -> & E)]) Hs; [discriminate|]. rewrite t_pict_snoc by exact (scalar_last _ _ Hs). rewrite E. reflexivity.
Qed.
Lemma held_cons : forall s, held KCons s -> scalars s -> t_cons (gtr s) = true.
Proof.
  intros s (_ & _ & [(_ & E)|(b & x & -> & E)]) Hs; [discriminate|]. rewrite t_cons_snoc by exact (scalar_last _ _ Hs). rewrite E. reflexivity.
Qed.
Lemma pict_run : forall e s, scalars (s ++ e) -> Forall (fun c => K c = KExt) e -> t_pict (gtr s) = true -> t_pict (gtr (s ++ e)) = true.
Proof.
  induction e as [|y e IH]; intros s Hs F H; [rewrite app_nil_r; exact H|]. change (s ++ y :: e) with (s ++ [y] ++ e) in *. rewrite app_assoc in *.
  apply IH; [exact Hs|exact (Forall_inv_tail F)|]. rewrite t_pict_snoc by exact (scalar_last _ _ (proj1 (Forall_scal_app _ _ Hs))).
  rewrite (Forall_inv F). exact H.
Qed.
Lemma cons_run : forall e s, scalars (s ++ e) -> Forall isEL e -> t_cons (gtr s) = true -> t_cons (gtr (s ++ e)) = true.
Proof.
  induction e as [|y e IH]; intros s Hs F H; [rewrite app_nil_r; exact H|]. change (s ++ y :: e) with (s ++ [y] ++ e) in *. rewrite app_assoc in *.
  apply IH; [exact Hs|exact (Forall_inv_tail F)|]. rewrite t_cons_snoc by exact (scalar_last _ _ (proj1 (Forall_scal_app _ _ Hs))).
  rewrite (Forall_inv F), H. apply orb_true_r.
Qed.
Lemma link_run : forall e s, scalars (s ++ e) -> Forall isEL e -> t_link (gtr s) = true -> t_link (gtr (s ++ e)) = true.
Proof.
  induction e as [|y e IH]; intros s Hs F H; [rewrite app_nil_r; exact H|]. change (s ++ y :: e) with (s ++ [y] ++ e) in *. rewrite app_assoc in *.
  apply IH; [exact Hs|exact (Forall_inv_tail F)|]. rewrite t_link_snoc, (Forall_inv F), H. apply orb_true_r.
Qed.

Lemma held_post : forall e k s, scalars (s ++ e) -> held k s -> Forall (fun c => isPost (K c) = true) e -> exists k', held k' (s ++ e).
Proof. intros e k s Hs H F. exists (lastk k e). apply held_chain; auto. apply chain_post. exact F. Qed.
Lemma EL_post : forall e, scalars e -> Forall isEL e -> Forall (fun c => isPost (K c) = true) e.
Proof.
  intros e Hs F. induction F as [|c e Hc F IH]; constructor; [|exact (IH (Forall_inv_tail Hs))].
  destruct (kind_row c (Forall_inv Hs)) as (_ & E & _). destruct (E Hc) as [Ek|Ek]; rewrite Ek; reflexivity.
Qed.
Lemma Ext_post : forall e, Forall (fun c => K c = KExt) e -> Forall (fun c => isPost (K c) = true) e.
Proof. intros e F. eapply Forall_impl; [|exact F]. intros c E. cbv beta in *. rewrite E. reflexivity. Qed.

Lemma picts_held : forall u s, matches (Star (Cat (Star Extend) (Cat ZWJ ExtPict_))) u -> scalars (s ++ u) -> held KPict s -> held KPict (s ++ u).
Proof.
  intros u s M. remember (Star (Cat (Star Extend) (Cat ZWJ ExtPict_))) as r eqn:Er. revert s.
  induction M; inversion Er; subst; intros s Hs H; [rewrite app_nil_r; exact H|].
  rewrite app_assoc in *. apply IHM2; [reflexivity|exact Hs|]. apply Forall_scal_app in Hs. destruct Hs as (Hs & _). clear IHM1 IHM2 M2 Er.
  apply matches_cat in M1. destruct M1 as (e & zp & -> & Me & Mzp). apply matches_cat in Mzp. destruct Mzp as (z & p & -> & Mz & Mp).
  pose proof (proj2 (Forall_scal_app _ _ Hs)) as He. apply Forall_scal_app in He. destruct He as (He & Hzp). apply Forall_scal_app in Hzp. destruct Hzp as (Hz & Hp).
  apply (cstar _ _ s_Ext e He) in Me. apply (s_ZWJ z Hz) in Mz. destruct Mz as (zc & -> & Ez). apply (s_Pict p Hp) in Mp. destruct Mp as (pc & -> & Ep).
  rewrite !app_assoc in *. pose proof (proj1 (Forall_scal_app _ _ Hs)) as H2. pose proof (proj1 (Forall_scal_app _ _ H2)) as H1. pose proof (proj1 (Forall_scal_app _ _ H1)) as H0.
  destruct (held_post e _ _ H1 H (Ext_post _ Me)) as (k & He1). pose proof (pict_run e s H1 Me (held_pict s H H0)) as Tp.
  assert (He2 : held (K zc) ((s ++ e) ++ [zc])) by (apply (held_step k); auto; [rewrite Ez; discriminate|left; rewrite Ez; destruct k; reflexivity]).
  rewrite <- Ep. apply (held_step (K zc)); auto; [rewrite Ep; discriminate|]. right. intros b x E. apply app_inj_tail in E. destruct E as (<- & <-).
  unfold join. rewrite t_zwj_snoc by exact (Forall_inv Hz). rewrite Tp, Ez, Ep. cbn [kb andb]. rewrite !orb_true_r. reflexivity.
Qed.

Definition conj_step : re := Cat ExtOrLinker (Cat Linker (Cat ExtOrLinker Consonant)).
Lemma conjs_held1 : forall u s, matches conj_step u -> scalars (s ++ u) -> held KCons s -> held KCons (s ++ u).
Proof.
  intros u s M Hs H. apply matches_cat in M. destruct M as (e & m & -> & Me & M). apply matches_cat in M. destruct M as (l & m2 & -> & Ml & M).
  apply matches_cat in M. destruct M as (f & c & -> & Mf & Mc).
  pose proof (proj2 (Forall_scal_app _ _ Hs)) as Hx. apply Forall_scal_app in Hx. destruct Hx as (He & Hx). apply Forall_scal_app in Hx. destruct Hx as (Hl & Hx).
  apply Forall_scal_app in Hx. destruct Hx as (Hf & Hc).
  apply (cstar _ _ s_EL e He) in Me. apply (cstar _ _ s_EL f Hf) in Mf. apply (s_Link l Hl) in Ml. destruct Ml as (lc & -> & El). apply (s_Cons c Hc) in Mc. destruct Mc as (cc & -> & Ec).
  rewrite !app_assoc in *. pose proof (proj1 (Forall_scal_app _ _ Hs)) as H3. pose proof (proj1 (Forall_scal_app _ _ H3)) as H2. pose proof (proj1 (Forall_scal_app _ _ H2)) as H1. pose proof (proj1 (Forall_scal_app _ _ H1)) as H0.
  pose proof (cons_run e s H1 Me (held_cons s H H0)) as Tc.
  assert (Tl : t_link (gtr ((s ++ e) ++ [lc])) = true) by (rewrite t_link_snoc, Tc, El; reflexivity).
  pose proof (link_run f _ H3 Mf Tl) as Tf.
  assert (ELl : isEL lc) by (destruct (kind_row lc (Forall_inv Hl)) as (_ & _ & X & _); exact (X El)).
  destruct (held_post e _ _ H1 H (EL_post _ He Me)) as (k1 & G1).
  destruct (held_post [lc] _ _ H2 G1 (EL_post _ Hl (Forall_cons _ ELl (Forall_nil _)))) as (k2 & G2).
  destruct (held_post f _ _ H3 G2 (EL_post _ Hf Mf)) as (k3 & G3).
  rewrite <- Ec. apply (held_step k3); auto; [rewrite Ec; discriminate|]. right. intros b x E. unfold join. rewrite <- E, Tf, Ec. cbn [kb andb].
  rewrite orb_true_r. reflexivity.
Qed.
Lemma conjs_held : forall u s, matches (Star conj_step) u -> scalars (s ++ u) -> held KCons s -> held KCons (s ++ u).
Proof.
  intros u s M. remember (Star conj_step) as r eqn:Er. revert s. induction M; inversion Er; subst; intros s Hs H; [rewrite app_nil_r; exact H|].
  rewrite app_assoc in *. apply IHM2; [reflexivity|exact Hs|]. apply conjs_held1; auto. exact (proj1 (Forall_scal_app _ _ Hs)).
Qed.

Lemma pre_held : forall p, scalars p -> Forall (fun c => K c = KPre) p -> held KPre p /\ t_run (gtr p) = 0%nat.
Proof.
  intros p Hs F. split.
  - destruct (chain_run KPre p KPre F eq_refl eq_refl ltac:(discriminate)) as (C & E). pose proof (held_chain p KPre [] Hs held_nil C) as H.
    cbn [app] in H. destruct E as [E|E]; rewrite E in H; exact H.
  - destruct p as [|x p _] using rev_ind; [reflexivity|]. rewrite t_run_snoc by exact (scalar_last _ _ Hs). apply Forall_app in F.
    rewrite (Forall_inv (proj2 F)). reflexivity.
Qed.

Lemma core_held : forall p t, scalars (p ++ t) -> Forall (fun c => K c = KPre) p -> matches core t -> exists k, held k (p ++ t).
Proof.
  intros p t Hs F M. destruct (Forall_scal_app _ _ Hs) as (Hp & Ht). destruct (pre_held p Hp F) as (HP & HR).
  apply matches_alt in M. destruct M as [M|M].
  { exists (lastk KPre t). apply held_chain; auto. apply hangul_chain; auto. }
  apply matches_alt in M. destruct M as [M|M].
  { apply matches_cat in M. destruct M as (t1 & t2 & -> & M1 & M2). apply Forall_scal_app in Ht. destruct Ht as (Ht1 & Ht2).
    apply (s_RI t1 Ht1) in M1. apply (s_RI t2 Ht2) in M2. destruct M1 as (c1 & -> & E1). destruct M2 as (c2 & -> & E2).
    rewrite app_assoc in *. pose proof (proj1 (Forall_scal_app _ _ Hs)) as Hs1.
    exists (K c2). apply (held_step (K c1)); auto; [|rewrite E2; discriminate|].
    - apply (held_step KPre); auto. rewrite E1. discriminate.
    - right. intros b x E. unfold join. rewrite <- E. rewrite t_run_snoc by exact (Forall_inv Ht1). rewrite E1, E2, HR. cbn. rewrite orb_true_r. reflexivity. }
  apply matches_alt in M. destruct M as [M|M].
  { apply matches_cat in M. destruct M as (t1 & t2 & -> & M1 & M2). apply Forall_scal_app in Ht. destruct Ht as (Ht1 & Ht2).
    apply (s_Pict t1 Ht1) in M1. destruct M1 as (c1 & -> & E1). exists KPict. rewrite app_assoc in *. apply picts_held; auto.
    rewrite <- E1. apply (held_step KPre); auto; [exact (proj1 (Forall_scal_app _ _ Hs))|rewrite E1; discriminate]. }
  apply matches_alt in M. destruct M as [M|M].
  { apply matches_cat in M. destruct M as (t1 & t2 & -> & M1 & M2). apply Forall_scal_app in Ht. destruct Ht as (Ht1 & Ht2).
    apply (s_Cons t1 Ht1) in M1. destruct M1 as (c1 & -> & E1). exists KCons.
    apply matches_cat in M2. destruct M2 as (t3 & t4 & -> & M3 & M4).
    rewrite !app_assoc in *. apply conjs_held; auto. pose proof (proj1 (Forall_scal_app _ _ Hs)) as Hs1. apply conjs_held1; auto.
    rewrite <- E1. apply (held_step KPre); auto; [exact (proj1 (Forall_scal_app _ _ Hs1))|rewrite E1; discriminate]. }
  apply (s_any t Ht) in M. destruct M as (c & -> & Ec). exists (K c). apply (held_step KPre); auto.
Qed.

Lemma glued_one : forall c, glued [c].
Proof. intros c. change [c] with ([] ++ [c]). apply glued_snoc. split; [exact glued_nil|left; reflexivity]. Qed.

Lemma match_glued : forall s, scalars s -> matches extended_grapheme_cluster s -> s <> [] /\ glued s.
Proof.
  intros s Hs M. apply matches_alt in M. destruct M as [M|M].
  { apply matches_alt in M. destruct M as [M|M].
    - apply matches_cat in M. destruct M as (t1 & t2 & -> & M1 & M2).
      apply (gc_single GCB_CR nz) in M1. destruct M1 as (c & -> & Ec). apply (gc_single GCB_LF nz) in M2. destruct M2 as (d & -> & Ed).
      split; [discriminate|]. apply glued_snoc. split; [apply glued_one|]. right.
      change [c] with ([] ++ [c]). unfold gdec. rewrite gtr_last. change (is (P c) _CR = true) in Ec. change (is (P d) _LF = true) in Ed. rewrite Ed, Ec. reflexivity.
    - assert (X : exists c, s = [c]) by (apply matches_alt in M; destruct M as [M|M]; apply matches_cls in M; destruct M as (c & -> & _); eauto).
      destruct X as (c & ->). split; [discriminate|apply glued_one]. }
  apply matches_alt in M. destruct M as [M|M].
  { apply matches_cls in M. destruct M as (c & -> & _). split; [discriminate|apply glued_one]. }
  apply matches_cat in M. destruct M as (p & t & -> & Mp & M). apply matches_cat in M. destruct M as (k & q & -> & Mk & Mq).
  rewrite app_assoc in *. destruct (Forall_scal_app _ _ Hs) as (Hpk & Hq). destruct (Forall_scal_app _ _ Hpk) as (Hp & Hk).
  apply (cstar _ _ s_Pre p Hp) in Mp. apply (cstar _ _ s_post q Hq) in Mq. destruct (core_held p k Hpk Mp Mk) as (kk & H).
  destruct (held_post q _ _ Hs H Mq) as (k2 & (G & _)). split; [|exact G].
  assert (Nk : k <> []); [|destruct p; [destruct k; [contradiction|discriminate]|discriminate]].
  clear - Mk. intros ->.
  assert (Np : forall r, ~ matches (Cat (Cls r) (Star (Cls r))) []) by (intros r X; apply matches_cat in X; destruct X as (a & b & E & X & _); apply matches_cls in X; destruct X as (c & -> & _); discriminate).
  assert (Nc : forall r s, ~ matches (Cat (Cls r) s) []) by (intros r s X; apply matches_cat in X; destruct X as (a & b & E & X & _); apply matches_cls in X; destruct X as (c & -> & _); discriminate).
  apply matches_alt in Mk. destruct Mk as [M|M].
  { apply matches_alt in M. destruct M as [M|M].
    - apply matches_cat in M. destruct M as (a & b & E & _ & M). destruct a, b; try discriminate. apply matches_cat in M. destruct M as (a & b & E2 & M & _).
      destruct a, b; try discriminate. apply matches_alt in M. destruct M as [M|M]; [exact (Np _ M)|]. apply matches_alt in M. destruct M as [M|M]; [exact (Nc _ _ M)|].
      apply matches_cls in M. destruct M as (c & X & _). discriminate.
    - apply matches_alt in M. destruct M as [M|M]; exact (Np _ M). }
  apply matches_alt in M. destruct M as [M|M]; [exact (Nc _ _ M)|]. apply matches_alt in M. destruct M as [M|M]; [exact (Nc _ _ M)|].
  apply matches_alt in M. destruct M as [M|M]; [exact (Nc _ _ M)|]. apply matches_cls in M. destruct M as (c & X & _). discriminate.
Qed.

(** ** What holds together is a match *)
Lemma star_snoc : forall r u t, matches (Star r) u -> matches r t -> matches (Star r) (u ++ t).
Proof.
  intros r u t M Mt. remember (Star r) as s eqn:Es. induction M; inversion Es; subst.
  - rewrite <- (app_nil_r ([] ++ t)). apply m_star1; [exact Mt|constructor].
  - rewrite <- app_assoc. apply m_star1; [exact M1|]. apply IHM2. reflexivity.
Qed.
Lemma plus_snoc : forall r u t, matches (Plus r) u -> matches r t -> matches (Plus r) (u ++ t).
Proof.
  intros r u t M Mt. apply matches_cat in M. destruct M as (a & b & -> & Ma & Mb). rewrite <- app_assoc. apply m_cat; [exact Ma|]. apply star_snoc; auto.
Qed.
Lemma plus_one : forall r t, matches r t -> matches (Plus r) t.
Proof. intros r t M. rewrite <- (app_nil_r t). apply m_cat; [exact M|constructor]. Qed.
Lemma cat_r0 : forall r s t, matches r t -> matches s [] -> matches (Cat r s) t.
Proof. intros r s t M1 M2. rewrite <- (app_nil_r t). apply m_cat; auto. Qed.
Lemma cat_l0 : forall r s t, matches r [] -> matches s t -> matches (Cat r s) t.
Proof. intros r s t M1 M2. change t with ([] ++ t). apply m_cat; auto. Qed.
Lemma cone : forall r Q, csingle r Q -> forall c, scalar c -> Q c -> matches r [c].
Proof. intros r Q H c Hc Hq. apply H; [constructor; [exact Hc|constructor]|]. eauto. Qed.

Definition allPre (p : text) : Prop := Forall (fun c => K c = KPre) p.
Definition Vform : re := Cat (Star L) (Alt (Plus V) (Cat LV (Star V))).
Definition Tform : re := Alt (Cat (Star L) (Cat (Alt (Plus V) (Alt (Cat LV (Star V)) LVT)) (Star T))) (Plus T).
Definition Cform : re := Cat Consonant (Star conj_step).

Record Inv (s : text) (l : kind) : Prop := {
  i_body : exists p k q, s = p ++ k ++ q /\ allPre p /\ matches core k /\ Forall (fun c => isPost (K c) = true) q;
  i_pre : l = KPre -> allPre s;
  i_L : l = KL -> exists p k, s = p ++ k /\ allPre p /\ matches (Plus L) k;
  i_V : l = KV \/ l = KLV -> exists p k, s = p ++ k /\ allPre p /\ matches Vform k;
  i_T : l = KT \/ l = KLVT -> exists p k, s = p ++ k /\ allPre p /\ matches Tform k;
  i_cons : t_cons (gtr s) = true -> exists p k q, s = p ++ k ++ q /\ allPre p /\ matches Cform k /\ Forall isEL q;
  i_link : t_link (gtr s) = true -> exists p k q1 x q2, s = p ++ k ++ q1 ++ [x] ++ q2 /\ allPre p /\ matches Cform k /\ Forall isEL q1 /\ isLink x /\ scalar x /\ Forall isEL q2;
  i_pict : t_pict (gtr s) = true -> exists p k q, s = p ++ k ++ q /\ allPre p /\ matches xpicto_sequence k /\ Forall (fun c => K c = KExt) q;
  i_zwj : t_zwj (gtr s) = true -> exists p k q z, s = p ++ k ++ q ++ [z] /\ allPre p /\ matches xpicto_sequence k /\ Forall (fun c => K c = KExt) q /\ K z = KZWJ;
  i_ri : Nat.odd (t_run (gtr s)) = true -> exists p r, s = p ++ [r] /\ allPre p /\ K r = KRI
}.

Lemma pre_facts : forall p, scalars p -> allPre p -> t_cons (gtr p) = false /\ t_link (gtr p) = false /\ t_pict (gtr p) = false /\ t_zwj (gtr p) = false /\ t_run (gtr p) = 0%nat.
Proof.
  intros p Hs F. destruct p as [|x p _] using rev_ind; [repeat split|]. pose proof (scalar_last _ _ Hs) as Hx. apply Forall_app in F. pose proof (Forall_inv (proj2 F)) as E. cbv beta in E.
  assert (NEL : is (P x) _EL = false) by (destruct (is (P x) _EL) eqn:Ee; [|reflexivity]; destruct (kind_row x Hx) as (_ & X & _); destruct (X Ee); congruence).
  assert (NL : is (P x) _InCBLinker = false) by (destruct (is (P x) _InCBLinker) eqn:Ee; [|reflexivity]; destruct (kind_row x Hx) as (_ & _ & X & _); rewrite (X Ee) in NEL; discriminate).
  rewrite t_cons_snoc, t_link_snoc, t_pict_snoc, t_zwj_snoc, t_run_snoc by exact Hx. rewrite E, NEL, NL. repeat split.
Qed.

Lemma not_EL : forall y, scalar y -> K y <> KExt -> K y <> KZWJ -> is (P y) _EL = false /\ is (P y) _InCBLinker = false.
Proof.
  intros y Hy H1 H2. destruct (kind_row y Hy) as (_ & X & X2 & _).
  assert (NEL : is (P y) _EL = false) by (destruct (is (P y) _EL) eqn:Ee; [|reflexivity]; destruct (X eq_refl); congruence).
  split; [exact NEL|]. destruct (is (P y) _InCBLinker) eqn:Ee; [|reflexivity]. rewrite (X2 eq_refl) in NEL. discriminate.
Qed.

Lemma core_any : forall y, scalar y -> K y <> KCtl -> matches core [y].
Proof. intros y Hy H. unfold core. do 4 apply m_altr. exact (cone _ _ s_any y Hy H). Qed.

Lemma inv_start : forall p y, scalars (p ++ [y]) -> allPre p -> K y <> KCtl -> Inv (p ++ [y]) (K y).
Proof.
  intros p y Hs F Hc. pose proof (scalar_last _ _ Hs) as Hy. destruct (pre_facts p (proj1 (Forall_scal_app _ _ Hs)) F) as (F1 & F2 & F3 & F4 & F5).
  constructor.
  - exists p, [y], []. rewrite app_nil_r. repeat split; auto. apply core_any; auto.
  - intros E. apply Forall_app. split; [exact F|]. constructor; auto.
  - intros E. exists p, [y]. repeat split; auto. apply plus_one. exact (cone _ _ s_L y Hy E).
  - intros E. exists p, [y]. repeat split; auto. apply cat_l0; [constructor|]. destruct E as [E|E].
    + apply m_altl. apply plus_one. exact (cone _ _ s_V y Hy E).
    + apply m_altr. apply cat_r0; [exact (cone _ _ s_LV y Hy E)|constructor].
  - intros E. exists p, [y]. repeat split; auto. destruct E as [E|E].
    + apply m_altr. apply plus_one. exact (cone _ _ s_T y Hy E).
    + apply m_altl. apply cat_l0; [constructor|]. apply cat_r0; [|constructor]. apply m_altr, m_altr. exact (cone _ _ s_LVT y Hy E).
  - rewrite t_cons_snoc, F1, andb_false_r, orb_false_r by exact Hy. intros E. apply kb_eq in E. exists p, [y], []. rewrite app_nil_r.
    repeat split; auto. apply cat_r0; [exact (cone _ _ s_Cons y Hy (eq_sym E))|constructor].
  - rewrite t_link_snoc, F1, F2, !andb_false_r. discriminate.
  - rewrite t_pict_snoc, F3, andb_false_r, orb_false_r by exact Hy. intros E. apply kb_eq in E. exists p, [y], []. rewrite app_nil_r.
    repeat split; auto. apply cat_r0; [exact (cone _ _ s_Pict y Hy (eq_sym E))|constructor].
  - rewrite t_zwj_snoc, F3, andb_false_r by exact Hy. discriminate.
  - rewrite t_run_snoc, F5 by exact Hy. destruct (kb KRI (K y)) eqn:E; [|discriminate]. intros _. apply kb_eq in E. exists p, y. auto.
Qed.

(** a character that is neither a mark nor starts anything *)
Lemma inv_post : forall s l y, scalars (s ++ [y]) -> Inv s l -> isPost (K y) = true -> Inv (s ++ [y]) (K y).
Proof.
  intros s l y Hs I Hp. pose proof (scalar_last _ _ Hs) as Hy. constructor.
  - destruct (i_body _ _ I) as (p & k & q & -> & A & B & C). exists p, k, (q ++ [y]). rewrite !app_assoc. repeat split; auto. apply Forall_app. auto.
  - intros E. rewrite E in Hp. discriminate.
  - intros E. rewrite E in Hp. discriminate.
  - intros [E|E]; rewrite E in Hp; discriminate.
  - intros [E|E]; rewrite E in Hp; discriminate.
  - rewrite t_cons_snoc by exact Hy. intros E. apply orb_prop in E. destruct E as [E|E]; [apply kb_eq in E; rewrite <- E in Hp; discriminate|].
    apply andb_prop in E. destruct E as (E1 & E2). destruct (i_cons _ _ I E2) as (p & k & q & -> & A & B & C). exists p, k, (q ++ [y]). rewrite !app_assoc. repeat split; auto.
    apply Forall_app. auto.
  - rewrite t_link_snoc. intros E. apply orb_prop in E. destruct E as [E|E]; apply andb_prop in E; destruct E as (E1 & E2).
    + destruct (i_cons _ _ I E2) as (p & k & q & -> & A & B & C). exists p, k, q, y, []. rewrite !app_assoc, app_nil_r. repeat split; auto.
    + destruct (i_link _ _ I E2) as (p & k & q1 & x & q2 & -> & A & B & C & D & D2 & D3). exists p, k, q1, x, (q2 ++ [y]). rewrite !app_assoc. repeat split; auto. apply Forall_app. auto.
  - rewrite t_pict_snoc by exact Hy. intros E. apply orb_prop in E. destruct E as [E|E]; [apply kb_eq in E; rewrite <- E in Hp; discriminate|].
    apply andb_prop in E. destruct E as (E1 & E2). apply kb_eq in E1. destruct (i_pict _ _ I E2) as (p & k & q & -> & A & B & C). exists p, k, (q ++ [y]). rewrite !app_assoc. repeat split; auto.
    apply Forall_app. auto.
  - rewrite t_zwj_snoc by exact Hy. intros E. apply andb_prop in E. destruct E as (E1 & E2). apply kb_eq in E1. destruct (i_pict _ _ I E2) as (p & k & q & -> & A & B & C).
    exists p, k, q, y. rewrite !app_assoc. repeat split; auto.
  - rewrite t_run_snoc by exact Hy. destruct (kb KRI (K y)) eqn:E; [apply kb_eq in E; rewrite <- E in Hp|]; discriminate.
Qed.

(** the flags after a character of one of the kinds of a core *)
Lemma flags : forall s y, scalar y -> isPost (K y) = false ->
  t_cons (gtr (s ++ [y])) = kb KCons (K y) /\ t_link (gtr (s ++ [y])) = false /\ t_pict (gtr (s ++ [y])) = kb KPict (K y) /\ t_zwj (gtr (s ++ [y])) = false
  /\ (K y <> KRI -> Nat.odd (t_run (gtr (s ++ [y]))) = false).
Proof.
  intros s y Hy Hp. assert (N1 : K y <> KExt /\ K y <> KZWJ) by (split; intros E; rewrite E in Hp; discriminate). destruct N1 as (N1 & N2).
  destruct (not_EL y Hy N1 N2) as (E1 & E2). rewrite t_cons_snoc, t_link_snoc, t_pict_snoc, t_zwj_snoc, t_run_snoc by exact Hy. rewrite E1, E2.
  apply not_eq_sym, kb_neq in N1, N2. rewrite N1, N2. cbn [andb]. rewrite !orb_false_r. repeat split. intros E. apply not_eq_sym, kb_neq in E. rewrite E. reflexivity.
Qed.

Lemma inv_hangul : forall p k y, scalars (p ++ k ++ [y]) -> allPre p -> 
  (K y = KL /\ matches (Plus L) (k ++ [y]) \/ (K y = KV \/ K y = KLV) /\ matches Vform (k ++ [y]) \/ (K y = KT \/ K y = KLVT) /\ matches Tform (k ++ [y])) ->
  Inv (p ++ k ++ [y]) (K y).
Proof.
  intros p k y Hs A H. rewrite app_assoc in Hs |- *. pose proof (scalar_last _ _ Hs) as Hy.
  assert (Hp : isPost (K y) = false) by (destruct H as [(E & _)|[([E|E] & _)|([E|E] & _)]]; rewrite E; reflexivity).
  destruct (flags (p ++ k) y Hy Hp) as (F1 & F2 & F3 & F4 & F5).
  assert (X : matches hangul_syllable (k ++ [y])).
  { destruct H as [(_ & M)|[(_ & M)|(_ & M)]].
    - apply m_altr, m_altl. exact M.
    - apply m_altl. apply matches_cat in M. destruct M as (a & b & -> & Ma & Mb). apply m_cat; [exact Ma|]. apply cat_r0; [|constructor].
      apply matches_alt in Mb. destruct Mb as [Mb|Mb]; [apply m_altl; exact Mb|apply m_altr, m_altl; exact Mb].
    - apply matches_alt in M. destruct M as [M|M]; [apply m_altl; exact M|apply m_altr, m_altr; exact M]. }
  constructor.
  - exists p, (k ++ [y]), []. rewrite app_nil_r, app_assoc. repeat split; auto. apply m_altl. exact X.
  - intros E. rewrite E in H. destruct H as [(E2 & _)|[([E2|E2] & _)|([E2|E2] & _)]]; discriminate.
  - intros E. rewrite E in H. destruct H as [(E2 & M)|[([E2|E2] & _)|([E2|E2] & _)]]; try discriminate. exists p, (k ++ [y]). rewrite app_assoc. auto.
  - intros E. destruct H as [(E2 & M)|[(E2 & M)|(E2 & M)]]; [destruct E; congruence| |destruct E, E2; congruence]. exists p, (k ++ [y]). rewrite app_assoc. auto.
  - intros E. destruct H as [(E2 & M)|[(E2 & M)|(E2 & M)]]; [destruct E; congruence|destruct E, E2; congruence|]. exists p, (k ++ [y]). rewrite app_assoc. auto.
  - rewrite F1. intros E. apply kb_eq in E. rewrite <- E in H. destruct H as [(E2 & _)|[([E2|E2] & _)|([E2|E2] & _)]]; discriminate.
  - rewrite F2. discriminate.
  - rewrite F3. intros E. apply kb_eq in E. rewrite <- E in H. destruct H as [(E2 & _)|[([E2|E2] & _)|([E2|E2] & _)]]; discriminate.
  - rewrite F4. discriminate.
  - rewrite F5; [discriminate|]. intros E. rewrite E in H. destruct H as [(E2 & _)|[([E2|E2] & _)|([E2|E2] & _)]]; discriminate.
Qed.

Lemma L_star : forall k, matches (Plus L) k -> matches (Star L) k.
Proof. intros k M. apply matches_cat in M. destruct M as (a & b & -> & Ma & Mb). apply m_star1; auto. Qed.
Lemma V_snoc : forall k y, scalar y -> matches Vform k -> K y = KV -> matches Vform (k ++ [y]).
Proof.
  intros k y Hy M E. apply matches_cat in M. destruct M as (a & b & -> & Ma & Mb). rewrite <- app_assoc. apply m_cat; [exact Ma|].
  apply matches_alt in Mb. destruct Mb as [Mb|Mb]; [apply m_altl, plus_snoc; auto; exact (cone _ _ s_V y Hy E)|].
  apply m_altr. apply matches_cat in Mb. destruct Mb as (c & d & -> & Mc & Md). rewrite <- app_assoc. apply m_cat; [exact Mc|]. apply star_snoc; auto. exact (cone _ _ s_V y Hy E).
Qed.
Lemma VT_snoc : forall k y, scalar y -> matches Vform k -> K y = KT -> matches Tform (k ++ [y]).
Proof.
  intros k y Hy M E. apply matches_cat in M. destruct M as (a & b & -> & Ma & Mb). rewrite <- app_assoc. apply m_altl. apply m_cat; [exact Ma|].
  apply m_cat.
  - apply matches_alt in Mb. destruct Mb as [Mb|Mb]; [apply m_altl; exact Mb|apply m_altr, m_altl; exact Mb].
  - change [y] with ([] ++ [y]). apply star_snoc; [constructor|]. exact (cone _ _ s_T y Hy E).
Qed.
Lemma T_snoc : forall k y, scalar y -> matches Tform k -> K y = KT -> matches Tform (k ++ [y]).
Proof.
  intros k y Hy M E. apply matches_alt in M. destruct M as [M|M]; [|apply m_altr, plus_snoc; auto; exact (cone _ _ s_T y Hy E)].
  apply m_altl. apply matches_cat in M. destruct M as (a & b & -> & Ma & Mb). rewrite <- app_assoc. apply m_cat; [exact Ma|].
  apply matches_cat in Mb. destruct Mb as (c & d & -> & Mc & Md). rewrite <- app_assoc. apply m_cat; [exact Mc|]. apply star_snoc; auto. exact (cone _ _ s_T y Hy E).
Qed.

Lemma inv_core : forall p k y, scalars ((p ++ k) ++ [y]) -> allPre p -> isPost (K y) = false -> matches core (k ++ [y]) ->
  (K y = KCons /\ matches Cform (k ++ [y]) \/ K y = KPict /\ matches xpicto_sequence (k ++ [y]) \/ K y = KRI /\ Nat.odd (t_run (gtr ((p ++ k) ++ [y]))) = false) ->
  Inv ((p ++ k) ++ [y]) (K y).
Proof.
  intros p k y Hs A Hp M H. pose proof (scalar_last _ _ Hs) as Hy. destruct (flags (p ++ k) y Hy Hp) as (F1 & F2 & F3 & F4 & F5).
  assert (X : forall j, K y = j -> j = KCons \/ j = KPict \/ j = KRI) by (intros j <-; tauto).
  constructor.
  - exists p, (k ++ [y]), []. rewrite app_nil_r, app_assoc. auto.
  - intros E. destruct (X _ E) as [?|[?|?]]; discriminate.
  - intros E. destruct (X _ E) as [?|[?|?]]; discriminate.
  - intros [E|E]; destruct (X _ E) as [?|[?|?]]; discriminate.
  - intros [E|E]; destruct (X _ E) as [?|[?|?]]; discriminate.
  - rewrite F1. intros E. apply kb_eq in E. destruct H as [(_ & C)|[(E2 & _)|(E2 & _)]]; [|congruence|congruence].
    exists p, (k ++ [y]), []. rewrite app_nil_r, app_assoc. auto.
  - rewrite F2. discriminate.
  - rewrite F3. intros E. apply kb_eq in E. destruct H as [(E2 & _)|[(_ & C)|(E2 & _)]]; [congruence| |congruence].
    exists p, (k ++ [y]), []. rewrite app_nil_r, app_assoc. auto.
  - rewrite F4. discriminate.
  - destruct H as [(E2 & _)|[(E2 & _)|(_ & E)]]; [rewrite F5 by congruence; discriminate|rewrite F5 by congruence; discriminate|rewrite E; discriminate].
Qed.

Lemma scal_sub : forall s a, scalars s -> In a s -> scalar a.
Proof. intros s a H Hi. exact (proj1 (Forall_forall _ _) H a Hi). Qed.

Lemma inv_step : forall b x y, scalars ((b ++ [x]) ++ [y]) -> Inv (b ++ [x]) (K x) -> K y <> KCtl -> join b x y = true -> Inv ((b ++ [x]) ++ [y]) (K y).
Proof.
  intros b x y Hs I Hc J. pose proof (scalar_last _ _ Hs) as Hy.
  destruct (isPost (K y)) eqn:Ep; [exact (inv_post _ _ _ Hs I Ep)|].
  unfold join in J. destruct (pairjoin (K x) (K y)) eqn:PJ.
  - clear J. destruct (kb KPre (K x)) eqn:EP.
    { apply kb_eq in EP. apply inv_start; auto. apply (i_pre _ _ I). auto. }
    destruct (K x) eqn:Ex; try discriminate EP; try (destruct (K y); discriminate).
    + destruct (i_L _ _ I eq_refl) as (p & k & E & A & M). rewrite E in *. rewrite <- app_assoc in *. apply inv_hangul; auto.
      destruct (K y) eqn:Ey; try discriminate; try (destruct (K y); discriminate).
      * left. split; [reflexivity|]. apply plus_snoc; auto. exact (cone _ _ s_L y Hy Ey).
      * right; left. split; [auto|]. apply m_cat; [apply L_star; exact M|]. apply m_altl, plus_one. exact (cone _ _ s_V y Hy Ey).
      * right; left. split; [auto|]. apply m_cat; [apply L_star; exact M|]. apply m_altr. apply cat_r0; [exact (cone _ _ s_LV y Hy Ey)|constructor].
      * right; right. split; [auto|]. apply m_altl. apply m_cat; [apply L_star; exact M|]. apply cat_r0; [|constructor]. apply m_altr, m_altr. exact (cone _ _ s_LVT y Hy Ey).
    + destruct (i_V _ _ I ltac:(auto)) as (p & k & E & A & M). rewrite E in *. rewrite <- app_assoc in *. apply inv_hangul; auto.
      destruct (K y) eqn:Ey; try discriminate.
      * right; left. split; [auto|]. apply V_snoc; auto.
      * right; right. split; [auto|]. apply VT_snoc; auto.
    + destruct (i_V _ _ I ltac:(auto)) as (p & k & E & A & M). rewrite E in *. rewrite <- app_assoc in *. apply inv_hangul; auto.
      destruct (K y) eqn:Ey; try discriminate.
      * right; left. split; [auto|]. apply V_snoc; auto.
      * right; right. split; [auto|]. apply VT_snoc; auto.
    + destruct (i_T _ _ I ltac:(auto)) as (p & k & E & A & M). rewrite E in *. rewrite <- app_assoc in *. apply inv_hangul; auto.
      destruct (K y) eqn:Ey; try discriminate. right; right. split; [auto|]. apply T_snoc; auto.
    + destruct (i_T _ _ I ltac:(auto)) as (p & k & E & A & M). rewrite E in *. rewrite <- app_assoc in *. apply inv_hangul; auto.
      destruct (K y) eqn:Ey; try discriminate. right; right. split; [auto|]. apply T_snoc; auto.
  - cbn [orb] in J. apply orb_prop in J. destruct J as [J|J]; [apply orb_prop in J; destruct J as [J|J]|]; apply andb_prop in J; destruct J as (J1 & J2); apply kb_eq in J2; symmetry in J2.
    + destruct (i_link _ _ I J1) as (p & k & q1 & z & q2 & E & A & M & Q1 & Z & Zs & Q2). rewrite E in Hs |- *.
      pose proof (proj2 (Forall_scal_app _ _ (proj1 (Forall_scal_app _ _ Hs)))) as Hk. apply Forall_scal_app in Hk. destruct Hk as (Hk & Hq). apply Forall_scal_app in Hq. destruct Hq as (Hq1 & Hq2).
      apply Forall_scal_app in Hq2. destruct Hq2 as (Hz & Hq2).
      assert (C : matches conj_step ((q1 ++ [z] ++ q2) ++ [y])).
      { rewrite <- !app_assoc. apply m_cat; [apply (cstar _ _ s_EL q1 Hq1); exact Q1|]. apply m_cat; [exact (cone _ _ s_Link z Zs Z)|].
        apply m_cat; [apply (cstar _ _ s_EL q2 Hq2); exact Q2|]. exact (cone _ _ s_Cons y Hy J2). }
      apply matches_cat in M. destruct M as (c & m & -> & Mc & Mm).
      apply inv_core; auto.
      * unfold core. do 3 apply m_altr. apply m_altl. rewrite <- (app_assoc c m), <- (app_assoc c). apply m_cat; [exact Mc|].
        rewrite <- (app_assoc m). clear - Mm C. inversion Mm; subst.
        { cbn [app]. apply plus_one. exact C. }
        { rewrite <- app_assoc. apply m_cat; [assumption|]. apply star_snoc; [assumption|exact C]. }
      * left. split; [exact J2|]. rewrite <- (app_assoc c m), <- (app_assoc c). apply m_cat; [exact Mc|]. rewrite <- (app_assoc m). apply star_snoc; [exact Mm|exact C].
    + destruct (i_zwj _ _ I J1) as (p & k & q & z & E & A & M & Q & Z). rewrite E in Hs |- *.
      pose proof (proj2 (Forall_scal_app _ _ (proj1 (Forall_scal_app _ _ Hs)))) as Hk. apply Forall_scal_app in Hk. destruct Hk as (Hk & Hq). apply Forall_scal_app in Hq. destruct Hq as (Hq & Hz).
      assert (C : matches (Cat (Star Extend) (Cat ZWJ ExtPict_)) ((q ++ [z]) ++ [y])).
      { rewrite <- !app_assoc. apply m_cat; [apply (cstar _ _ s_Ext q Hq); exact Q|]. apply m_cat; [exact (cone _ _ s_ZWJ z (Forall_inv Hz) Z)|]. exact (cone _ _ s_Pict y Hy J2). }
      apply matches_cat in M. destruct M as (c & m & -> & Mc & Mm).
      assert (X : matches xpicto_sequence (((c ++ m) ++ q ++ [z]) ++ [y])).
      { rewrite <- (app_assoc c m), <- (app_assoc c). apply m_cat; [exact Mc|]. rewrite <- (app_assoc m). apply star_snoc; [exact Mm|exact C]. }
      apply inv_core; auto. unfold core. do 2 apply m_altr. apply m_altl. exact X.
    + destruct (i_ri _ _ I J1) as (p & r & E & A & R). rewrite E in Hs |- *. pose proof (scalar_last _ _ (proj1 (Forall_scal_app _ _ Hs))) as Hr.
      apply inv_core; auto.
      * unfold core. apply m_altr, m_altl. apply m_cat; [exact (cone _ _ s_RI r Hr R)|exact (cone _ _ s_RI y Hy J2)].
      * right; right. split; [exact J2|]. rewrite t_run_snoc by exact Hy. rewrite J2. cbn [kb]. rewrite <- E. rewrite Nat.odd_succ, <- Nat.negb_odd, J1. reflexivity.
Qed.

Lemma joins_kind : forall b x y, scalar x -> scalar y -> joins (b ++ [x]) y -> (is (P y) _LF = true /\ is (P x) _CR = true) \/ (K x <> KCtl /\ K y <> KCtl /\ join b x y = true).
Proof.
  intros b x y Hx Hy [E|E]; [destruct b; discriminate|]. rewrite (gdec_kind b x y Hx Hy) in E.
  destruct (is (P y) _LF && is (P x) _CR) eqn:E1; [left; apply andb_prop in E1; exact E1|]. right.
  destruct (kb KCtl (K x)) eqn:E2; [discriminate|]. destruct (kb KCtl (K y)) eqn:E3; [discriminate|]. cbn [orb] in E.
  destruct (join b x y); [|discriminate]. apply kb_neq in E2, E3. auto.
Qed.

Lemma glued_shape : forall s, scalars s -> glued s -> s <> [] -> exists b x, s = b ++ [x] /\
  ((K x = KCtl /\ matches (Alt crlf Control) s /\ (is (P x) _CR = true -> b = [])) \/ (K x <> KCtl /\ Inv s (K x))).
Proof.
  intros s. induction s as [|y s IH] using rev_ind; intros Hs G Hn; [contradiction|]. exists s, y. split; [reflexivity|].
  pose proof (scalar_last _ _ Hs) as Hy. apply glued_snoc in G. destruct G as (G & J).
  destruct s as [|x0 s0].
  - destruct (kb KCtl (K y)) eqn:E.
    + left. split; [apply kb_eq in E; auto|]. split; [|auto]. pose proof (K_is y _Ctl KCtl Hy ltac:(inkinds)) as E2. rewrite E in E2. unfold _Ctl in E2. rewrite !is_lor_r in E2.
      cbn [app]. apply orb_prop in E2. destruct E2 as [E2|E2]; [apply m_altr; apply (gc_single GCB_Control ltac:(discriminate)); eauto|].
      apply m_altl, m_altr. apply orb_prop in E2. destruct E2 as [E2|E2]; [apply m_altl; apply (gc_single GCB_CR ltac:(discriminate)); eauto|apply m_altr; apply (gc_single GCB_LF ltac:(discriminate)); eauto].
    + right. apply kb_neq in E. split; [auto|]. apply (inv_start [] y Hs); [constructor|auto].
  - destruct (Forall_scal_app _ _ Hs) as (Hs0 & _). destruct (IH Hs0 G ltac:(discriminate)) as (b & x & Eb & H). rewrite Eb in *.
    pose proof (scalar_last _ _ Hs0) as Hx. destruct (joins_kind b x y Hx Hy J) as [(J1 & J2)|(J1 & J2 & J3)].
    + left. destruct (kind_row x Hx) as (_ & _ & _ & _ & RC & _). destruct (kind_row y Hy) as (_ & _ & _ & _ & _ & RL).
      destruct H as [(E & _ & Hb)|(E & _)]; [|elim E; exact (RC J2)]. rewrite (Hb J2). cbn [app]. split; [exact (RL J1)|]. split.
      * apply m_altl, m_altl. change [x; y] with ([x] ++ [y]). apply m_cat; [apply (gc_single GCB_CR ltac:(discriminate)); eauto|apply (gc_single GCB_LF ltac:(discriminate)); eauto].
      * intros C. exfalso. assert (Z : forallb (fun v => negb (is v _CR && is v _LF)) gV = true) by (vm_compute; reflexivity).
        pose proof (proj1 (forallb_forall _ _) Z (P y) (P_in y Hy)) as W. cbv beta in W. rewrite C, J1 in W. discriminate.
    + right. split; [exact J2|]. destruct H as [(E & _)|(E & I)]; [contradiction|]. apply inv_step; auto.
Qed.

Theorem cluster_iff : forall s, scalars s -> (matches extended_grapheme_cluster s <-> s <> [] /\ glued s).
Proof.
  intros s Hs. split; [exact (match_glued s Hs)|]. intros (Hn & G). destruct (glued_shape s Hs G Hn) as (b & x & E & [(_ & M & _)|(_ & I)]).
  - apply matches_alt in M. destruct M as [M|M]; [apply m_altl; exact M|apply m_altr, m_altl; exact M].
  - destruct (i_body _ _ I) as (p & k & q & E2 & A & B & C). rewrite E2 in *. destruct (Forall_scal_app _ _ Hs) as (Hp & Hkq). destruct (Forall_scal_app _ _ Hkq) as (_ & Hq).
    apply m_altr, m_altr. apply m_cat; [apply (cstar _ _ s_Pre p Hp); exact A|]. apply m_cat; [exact B|]. apply (cstar _ _ s_post q Hq). exact C.
Qed.
