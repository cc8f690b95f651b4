(** graphemes: the rules as programmed agree, step by step, with the rules of UAX #29. *)
From Verif Require Import Base ListFacts Trie LookupFacts TableFacts Engine Lk SpecUtf8 SpecUcd SpecLookup SpecIter SpecRules SpecGraphemes
  RuleFacts BitFacts Conform UcdFacts UcdGraphemes TableGraphemes GraphemesEngine.
From Verif Require Graphemes.
Import Graphemes.
Local Open Scope N_scope.

Notation P := graphemes_property.

(** The classes of the specification, read off the property word. *)
Lemma g_class : forall c,
  (forall k, gcb_bit k <> 0 -> gc k c = is (P c) (gcb_bit k)) /\ (forall k, incb_bit k <> 0 -> ic k c = is (P c) (incb_bit k))
  /\ ExtPict c = is (P c) _ExtendedPictographic.
Proof.
  intros c. unfold gc, ic, graphemes_property. generalize (GCB c) (InCB c) (ExtPict c). intros g i e.
  split; [|split].
  - intros k Hk. destruct k; try (exfalso; apply Hk; reflexivity); destruct g, i, e; reflexivity.
  - intros k Hk. destruct k; try (exfalso; apply Hk; reflexivity); destruct g, i, e; reflexivity.
  - destruct g, i, e; reflexivity.
Qed.
Lemma gc_is : forall k c, gcb_bit k <> 0 -> gc k c = is (P c) (gcb_bit k).
Proof. intros. apply g_class. exact H. Qed.
Lemma ic_is : forall k c, incb_bit k <> 0 -> ic k c = is (P c) (incb_bit k).
Proof. intros. apply g_class. exact H. Qed.
Lemma ep_is : forall c, ExtPict c = is (P c) _ExtendedPictographic.
Proof. intros. apply g_class. Qed.

Lemma P_in : forall c, scalar c -> In (P c) gV.
Proof.
  intros c Hc. pose proof (g_lookup_cp c [] Hc) as H. rewrite app_nil_r in H.
  destruct (utf8_nonnil c) as (b & s & E). rewrite E in H.
  destruct (lookup_spec _ _ _ g_tables_ok b s) as (v & w & Hl & Hv & _).
  change (lookup _ _ (b :: s)) with (graphemes_lookup (b :: s)) in Hl. rewrite H in Hl. injection Hl as <- _. exact Hv.
Qed.

(** What the left contexts of the rules need to know about the text before the position. *)
Record gtrack := { t_last : N; t_cons : bool; t_link : bool; t_pict : bool; t_zwj : bool; t_run : nat }.
Definition _EL : N := N.lor _InCBExtend _InCBLinker.
Definition gstep (t : gtrack) (x : N) : gtrack :=
  let v := P x in
  {| t_last := v;
     t_cons := is v _InCBConsonant || (is v _EL && t_cons t);
     t_link := (is v _InCBLinker && t_cons t) || (is v _EL && t_link t);
     t_pict := is v _ExtendedPictographic || (is v _Extend && t_pict t);
     t_zwj := is v _ZWJ && t_pict t;
     t_run := if is v _RegionalIndicator then S (t_run t) else 0%nat |}.
Definition gtr0 : gtrack := {| t_last := 0; t_cons := false; t_link := false; t_pict := false; t_zwj := false; t_run := 0 |}.
Definition gtr (b : text) : gtrack := fold_left gstep b gtr0.
Lemma gtr_snoc : forall b x, gtr (b ++ [x]) = gstep (gtr b) x.
Proof. intros. unfold gtr. rewrite fold_left_app. reflexivity. Qed.

Lemma iff_true : forall (Q : Prop) b, (Q <-> b = true) -> forall b', b = b' -> (Q <-> b' = true).
Proof. intros; subst; assumption. Qed.

Definition reConsonant := Cat Consonant ExtOrLinker.
Definition reLinker := Cat (Cat (Cat Consonant ExtOrLinker) Linker) ExtOrLinker.
Definition rePict := Cat ExtPict_ (Star Extend).
Definition reZwj := Cat (Cat ExtPict_ (Star Extend)) ZWJ.

Lemma el_single : single (Alt InCBExtend Linker) (fun c => is (P c) _EL).
Proof.
  intros t. rewrite (single_alt InCBExtend Linker (ic InCB_Extend) (ic InCB_Linker) (single_cls _) (single_cls _) t). unfold _EL.
  split; intros (c & -> & H); exists c; (split; [reflexivity|]);
    rewrite (ic_is InCB_Extend c), (ic_is InCB_Linker c), ?is_lor_r in * by discriminate; exact H.
Qed.
Lemma cls_ext : forall p q, (forall c, p c = q c) -> single (Cls p) q.
Proof. intros p q H t. rewrite matches_cls. split; intros (c & -> & Hc); exists c; rewrite ?H in *; auto; rewrite <- H; auto. Qed.

Lemma cons_single : single Consonant (fun c => is (P c) _InCBConsonant).
Proof. apply cls_ext. intros. apply (ic_is InCB_Consonant). discriminate. Qed.
Lemma link_single : single Linker (fun c => is (P c) _InCBLinker).
Proof. apply cls_ext. intros. apply (ic_is InCB_Linker). discriminate. Qed.
Lemma pict_single : single ExtPict_ (fun c => is (P c) _ExtendedPictographic).
Proof. apply cls_ext. apply ep_is. Qed.
Lemma gc_single : forall k, gcb_bit k <> 0 -> single (Cls (gc k)) (fun c => is (P c) (gcb_bit k)).
Proof. intros k Hk. apply cls_ext. intros. apply gc_is. exact Hk. Qed.
Definition ext_single := gc_single GCB_Extend ltac:(discriminate).
Definition zwj_single := gc_single GCB_ZWJ ltac:(discriminate).
Definition ri_single := gc_single GCB_Regional_Indicator ltac:(discriminate).
Definition isRI (c : N) : bool := is (P c) _RegionalIndicator.
Lemma nri_single : single NotRI (fun c => negb (isRI c)).
Proof. apply cls_ext. intros. unfold isRI. rewrite (gc_is GCB_Regional_Indicator) by discriminate. reflexivity. Qed.

Lemma gtr_facts : forall b,
  (ends_with reConsonant b <-> t_cons (gtr b) = true) /\ (ends_with reLinker b <-> t_link (gtr b) = true)
  /\ (ends_with rePict b <-> t_pict (gtr b) = true) /\ (ends_with reZwj b <-> t_zwj (gtr b) = true)
  /\ t_run (gtr b) = trun isRI b.
Proof.
  intros b. induction b as [|x b (IC & IL & IP & IZ & IR)] using rev_ind.
  - cbn. repeat split; intros H; try discriminate.
    + apply ends_cat_star_nil in H. destruct (ends_single_nil _ _ cons_single H).
    + apply ends_cat_star_nil in H. destruct (ends_cat_single_nil _ _ link_single _ H).
    + apply ends_cat_star_nil in H. destruct (ends_single_nil _ _ pict_single H).
    + destruct (ends_cat_single_nil _ _ zwj_single _ H).
  - rewrite gtr_snoc. unfold reConsonant, reLinker, rePict, reZwj, ExtOrLinker in *. cbn [gstep t_cons t_link t_pict t_zwj t_run].
    split; [|split; [|split; [|split]]].
    + rewrite (ends_cat_star _ _ el_single), (ends_single _ _ cons_single), IC. rewrite orb_true_iff, andb_true_iff. reflexivity.
    + rewrite (ends_cat_star _ _ el_single), (ends_cat_single _ _ link_single), IC, IL.
      rewrite orb_true_iff, !andb_true_iff. reflexivity.
    + unfold rePict in IP. rewrite (ends_cat_star _ _ ext_single), (ends_single _ _ pict_single), IP. rewrite orb_true_iff, andb_true_iff. reflexivity.
    + unfold ZWJ. rewrite (ends_cat_single _ _ zwj_single), IP. rewrite andb_true_iff. reflexivity.
    + rewrite trun_snoc, IR. reflexivity.
Qed.

Lemma gtr_last : forall b x, t_last (gtr (b ++ [x])) = P x.
Proof. intros. rewrite gtr_snoc. reflexivity. Qed.

(** The rules of the specification as a function of these facts and the next character. *)
Definition _Ctl : N := N.lor _Control (N.lor _CR _LF).
Definition gdec (t : gtrack) (c : N) : op :=
  let l := t_last t in
  if is c _LF && is l _CR then Join
  else if is c _Ctl || is l _Ctl then Break
  else if is c (N.lor _L (N.lor _V (N.lor _LV _LVT))) && is l _L then Join
  else if is c (N.lor _V _T) && is l (N.lor _LV _V) then Join
  else if is c _T && is l (N.lor _LVT _T) then Join
  else if is c (N.lor _Extend _ZWJ) then Join
  else if is c _SpacingMark then Join
  else if is l _Prepend then Join
  else if t_link t && is c _InCBConsonant then Join
  else if is c _ExtendedPictographic && t_zwj t then Join
  else if is c _RegionalIndicator && Nat.odd (t_run t) then Join
  else Break.

Local Notation nz := ltac:(discriminate) (only parsing).
Lemma cls2 : forall k1 k2, gcb_bit k1 <> 0 -> gcb_bit k2 <> 0 ->
  single (Alt (Cls (gc k1)) (Cls (gc k2))) (fun c => is (P c) (N.lor (gcb_bit k1) (gcb_bit k2))).
Proof.
  intros k1 k2 H1 H2 t. rewrite (single_alt _ _ _ _ (gc_single k1 H1) (gc_single k2 H2) t).
  split; intros (c & -> & H); exists c; rewrite is_lor_r in *; auto.
Qed.
Lemma cls3 : forall k1 k2 k3, gcb_bit k1 <> 0 -> gcb_bit k2 <> 0 -> gcb_bit k3 <> 0 ->
  single (Alt (Cls (gc k1)) (Alt (Cls (gc k2)) (Cls (gc k3)))) (fun c => is (P c) (N.lor (gcb_bit k1) (N.lor (gcb_bit k2) (gcb_bit k3)))).
Proof.
  intros k1 k2 k3 H1 H2 H3 t. rewrite (single_alt _ _ _ _ (gc_single k1 H1) (cls2 k2 k3 H2 H3) t).
  split; intros (c & -> & H); exists c; [rewrite is_lor_r|rewrite is_lor_r in H]; auto.
Qed.
Lemma cls4 : forall k1 k2 k3 k4, gcb_bit k1 <> 0 -> gcb_bit k2 <> 0 -> gcb_bit k3 <> 0 -> gcb_bit k4 <> 0 ->
  single (Alt (Cls (gc k1)) (Alt (Cls (gc k2)) (Alt (Cls (gc k3)) (Cls (gc k4)))))
    (fun c => is (P c) (N.lor (gcb_bit k1) (N.lor (gcb_bit k2) (N.lor (gcb_bit k3) (gcb_bit k4))))).
Proof.
  intros k1 k2 k3 k4 H1 H2 H3 H4 t. rewrite (single_alt _ _ _ _ (gc_single k1 H1) (cls3 k2 k3 k4 H2 H3 H4) t).
  split; intros (c & -> & H); exists c; [rewrite is_lor_r|rewrite is_lor_r in H]; auto.
Qed.

Lemma applies_suffix : forall l lp r rp, single l lp -> single r rp -> forall o b x y a,
  applies (Rule (Suffix l) o r) (b ++ [x]) (y :: a) <-> rp y && lp x = true.
Proof.
  intros l lp r rp Hl Hr o b x y a. unfold applies. cbn [r_left r_right left_applies].
  rewrite (ends_single _ _ Hl), (starts_single _ _ Hr), andb_true_iff. tauto.
Qed.
Lemma applies_left : forall l lp, single l lp -> forall o b x a, applies (Rule (Suffix l) o Any) (b ++ [x]) a <-> lp x = true.
Proof.
  intros l lp Hl o b x a. unfold applies. cbn [r_left r_right left_applies]. rewrite (ends_single _ _ Hl).
  pose proof (starts_any a). tauto.
Qed.
Lemma applies_right : forall r rp, single r rp -> forall o b y a, applies (Rule (Suffix Any) o r) b (y :: a) <-> rp y = true.
Proof.
  intros r rp Hr o b y a. unfold applies. cbn [r_left r_right left_applies]. rewrite (starts_single _ _ Hr).
  pose proof (ends_any b). tauto.
Qed.

Lemma g_spec : forall b x y a, grapheme_decides (b ++ [x]) (y :: a) (gdec (gtr (b ++ [x])) (P y)).
Proof.
  intros b x y a. set (bb := b ++ [x]). unfold grapheme_decides.
  destruct (gtr_facts bb) as (_ & FL & _ & FZ & FR).
  assert (HL : t_last (gtr bb) = P x) by apply gtr_last.
  set (cs := [ (is (P y) _LF && is (P x) _CR, Join); (is (P x) _Ctl, Break); (is (P y) _Ctl, Break);
    (is (P y) (N.lor _L (N.lor _V (N.lor _LV _LVT))) && is (P x) _L, Join);
    (is (P y) (N.lor _V _T) && is (P x) (N.lor _LV _V), Join);
    (is (P y) _T && is (P x) (N.lor _LVT _T), Join);
    (is (P y) (N.lor _Extend _ZWJ), Join); (is (P y) _SpacingMark, Join); (is (P x) _Prepend, Join);
    (t_link (gtr bb) && is (P y) _InCBConsonant, Join); (is (P y) _ExtendedPictographic && t_zwj (gtr bb), Join);
    (is (P y) _RegionalIndicator && (forallb isRI bb && Nat.odd (length bb)), Join);
    (is (P y) _RegionalIndicator && (Nat.odd (trun isRI bb) && negb (forallb isRI bb)), Join);
    (true, Break) ]).
  replace (Some (gdec (gtr bb) (P y))) with (cascade cs).
  - apply says_cascade. unfold grapheme_rules, cs, bb.
    repeat (apply Forall2_cons; [split; [cbn [fst]|reflexivity]|]); [..|apply Forall2_nil].
    + apply (applies_suffix _ _ _ _ (gc_single GCB_CR nz) (gc_single GCB_LF nz)).
    + apply (applies_left _ _ (cls3 GCB_Control GCB_CR GCB_LF nz nz nz)).
    + apply (applies_right _ _ (cls3 GCB_Control GCB_CR GCB_LF nz nz nz)).
    + apply (applies_suffix _ _ _ _ (gc_single GCB_L nz) (cls4 GCB_L GCB_V GCB_LV GCB_LVT nz nz nz nz)).
    + apply (applies_suffix _ _ _ _ (cls2 GCB_LV GCB_V nz nz) (cls2 GCB_V GCB_T nz nz)).
    + apply (applies_suffix _ _ _ _ (cls2 GCB_LVT GCB_T nz nz) (gc_single GCB_T nz)).
    + apply (applies_right _ _ (cls2 GCB_Extend GCB_ZWJ nz nz)).
    + apply (applies_right _ _ (gc_single GCB_SpacingMark nz)).
    + apply (applies_left _ _ (gc_single GCB_Prepend nz)).
    + unfold applies. cbn [r_left r_right left_applies]. change (ends_with _ (b ++ [x])) with (ends_with reLinker bb).
      rewrite FL, (starts_single _ _ cons_single), andb_true_iff. reflexivity.
    + unfold applies. cbn [r_left r_right left_applies]. change (ends_with _ (b ++ [x])) with (ends_with reZwj bb).
      rewrite FZ, (starts_single _ _ pict_single), andb_true_iff. tauto.
    + unfold applies. cbn [r_left r_right left_applies]. rewrite (sot_pairs _ _ ri_single), (starts_single _ _ ri_single), (andb_true_iff (is (P y) _)).
      tauto.
    + unfold applies. cbn [r_left r_right left_applies]. rewrite (suffix_pairs _ _ _ ri_single nri_single), (starts_single _ _ ri_single), (andb_true_iff (is (P y) _)).
      tauto.
    + unfold applies. cbn [r_left r_right left_applies]. pose proof (ends_any (b ++ [x])). pose proof (starts_any (y :: a)). tauto.
  - unfold cs, gdec. cbn [cascade]. rewrite HL, FR. clear cs. pose proof (pairs_either isRI bb) as HE. revert HE.
    generalize (forallb isRI bb && Nat.odd (length bb)) (Nat.odd (trun isRI bb) && negb (forallb isRI bb)).
    generalize (Nat.odd (trun isRI bb)). intros o o12 o13 <-.
    repeat match goal with
    | |- (if ?c then _ else _) = Some (if ?c then _ else _) => destruct c; [reflexivity|]
    | |- (if ?c then _ else _) = Some (if ?d || ?c then _ else _) => destruct c, d; try reflexivity; cbn [orb]
    end.
    destruct (is (P y) _RegionalIndicator); cbn [andb]; [|reflexivity].
    destruct o12, o13; reflexivity.
Qed.

(** ** The simulation *)
Definition linkerB (i : incbState) : bool := match i with incbLinker => true | _ => false end.
Definition someB (i : incbState) : bool := match i with incbNone => false | _ => true end.

(** The programmed state against the facts about the text before; [l] is the last character. *)
Record g_rel (t : gtrack) (l lastEx lastLastEx : N) (ri : nat) (i : incbState) : Prop := {
  r_last : t_last t = l;
  r_link : t_link t = linkerB i;
  r_cons : t_cons t = someB i;
  r_pict : t_pict t = is lastEx _ExtendedPictographic;
  r_zwj : t_zwj t = is l _ZWJ && is lastLastEx _ExtendedPictographic;
  r_run0 : is l _RegionalIndicator = false -> t_run t = 0%nat;
  r_run : is l _RegionalIndicator = true -> Nat.odd (t_run t) = Nat.even ri;
  r_prep : is l _Prepend = true -> ri = 0%nat /\ i = incbNone
}.

Definition up_ex (l lastEx : N) : N := if negb (is l _Ignore) then l else lastEx.

Lemma g_rules_dec : forall t c l lx ll ri i, In l gV -> In c gV -> g_rel t l lx ll ri i ->
  match g_rules c l ll ri i with
  | GBreak => gdec t c = Break
  | GJoin ri' i' => gdec t c = Join
      /\ (is c _RegionalIndicator = true -> is l _RegionalIndicator = true /\ ri' = S ri \/ is l _Prepend = true /\ ri' = ri)
      /\ (is c _RegionalIndicator = false -> ri' = ri)
      /\ (is c _Prepend = true -> is l _Prepend = true)
      /\ (is c _InCBConsonant = true -> i' = incbConsonant \/ i = incbNone /\ i' = i)
      /\ (is c _InCBConsonant = false -> i' = i)
  end.
Proof.
  intros t c l lx ll ri i Hl Hc [R1 R2 R3 R4 R5 R6 R7 R8].
  unfold g_rules, gdec. rewrite lor_zero, is_lor_l. change _RegionalIndicator with (2 ^ 12). rewrite is_land. change (2 ^ 12) with _RegionalIndicator.
  rewrite R1, R2, R5. fold _Ctl. fold (linkerB i).
  change (match i with incbLinker => true | _ => false end) with (linkerB i).
  replace (Nat.eqb ((ri + 1) mod 2) 1) with (Nat.even ri).
  2:{ rewrite <- (Nat.bit0_mod (ri + 1)). rewrite Nat.bit0_odd, Nat.add_1_r, Nat.odd_succ. destruct (Nat.even ri); reflexivity. }
  assert (R67 : is l _RegionalIndicator && Nat.even ri = is l _RegionalIndicator && Nat.odd (t_run t)).
  { destruct (is l _RegionalIndicator); [rewrite R7 by reflexivity; reflexivity|reflexivity]. }
  clear R1 R2 R3 R4 R5 R7 Hl.
  assert (HZ : (l =? 0) = true -> forall p, is l p = false) by (intros HZ p; apply N.eqb_eq in HZ; subst l; reflexivity).
  unfold gV in Hc. cbn [In] in Hc.
  repeat (destruct Hc as [<-|Hc]; [eval_is; cbn [andb orb negb N.eqb Pos.eqb]; rewrite ?andb_false_r, ?andb_true_r; cbn [andb orb negb]|]); [..|contradiction];
  repeat match goal with
  | |- context [if is l ?p then _ else _] => destruct (is l p) eqn:?
  | |- context [if is l ?p && Nat.odd ?q then _ else _] => rewrite <- R67
  | |- context [if ?c then _ else _] => destruct c eqn:?
  end;
  try (rewrite HZ in * by assumption; discriminate);
  repeat split; try discriminate; auto; try reflexivity; try (intros; discriminate).
  - specialize (HZ eq_refl _Prepend). congruence.
  - intros _. right. destruct (R8 eq_refl). auto.
  - intros _. left. split; [reflexivity|lia].
  - rewrite R6 in * by reflexivity. discriminate.
Qed.

Lemma g_rel_step : forall t y l lx ll ri i ri' i', In (P y) gV -> g_rel t l lx ll ri i ->
  g_rules (P y) l ll ri i = GJoin ri' i' -> In l gV ->
  g_rel (gstep t y) (P y) (up_ex (P y) lx) (if negb (is (P y) _Ignore) then lx else ll) ri' (g_incb_update (P y) i').
Proof.
  intros t y l lx ll ri i ri' i' Hc HR HJ Hl. pose proof (g_rules_dec t (P y) l lx ll ri i Hl Hc HR) as HD.
  rewrite HJ in HD. destruct HD as (_ & D1 & D2 & D3 & D4 & D5). destruct HR as [R1 R2 R3 R4 R5 R6 R7 R8].
  unfold gstep, up_ex, g_incb_update, _EL. generalize dependent (P y). intros c Hc HJ D1 D2 D3 D4 D5.
  unfold gV in Hc. cbn [In] in Hc.
  repeat (destruct Hc as [<-|Hc];
    [constructor; cbn [t_last t_cons t_link t_pict t_zwj t_run]; eval_is; eval_is_in D1; eval_is_in D2; eval_is_in D3; eval_is_in D4; eval_is_in D5;
     rewrite ?R2, ?R3, ?R4; cbn [andb orb negb]|]); [..|contradiction];
  try reflexivity; try (intros; discriminate); try (rewrite D5 by reflexivity; destruct i; reflexivity).
  - destruct (D4 eq_refl) as [->|[-> ->]]; reflexivity.
  - destruct (D4 eq_refl) as [->|[-> ->]]; reflexivity.
  - intros _. destruct (R8 (D3 eq_refl)) as [-> _]. rewrite D2 by reflexivity. auto.
  - intros _. rewrite Nat.odd_succ. destruct (D1 eq_refl) as [[H1 ->]|[H1 ->]].
    + specialize (R7 H1). rewrite Nat.even_succ, <- !Nat.negb_even in *. rewrite <- R7. symmetry. apply negb_involutive.
    + destruct (R8 H1) as [-> _]. rewrite R6; [reflexivity|].
      unfold gV in Hl. cbn [In] in Hl. repeat (destruct Hl as [<-|Hl]; [try reflexivity; discriminate|]). contradiction.
Qed.

(** What the facts say about the last character. *)
Lemma gtr_wf : forall b x, let t := gtr (b ++ [x]) in let l := P x in
  (t_cons t = true -> is l (N.lor _InCBConsonant _EL) = true) /\ (t_link t = true -> is l _EL = true)
  /\ (t_pict t = true -> is l (N.lor _ExtendedPictographic _Extend) = true)
  /\ (is l _RegionalIndicator = false -> t_run t = 0%nat).
Proof.
  intros b x t l. unfold t, l. rewrite gtr_snoc. cbn [gstep t_cons t_link t_pict t_run]. repeat split.
  - rewrite is_lor_r. destruct (is (P x) _InCBConsonant), (is (P x) _EL); auto.
  - unfold _EL. rewrite is_lor_r. destruct (is (P x) _InCBLinker), (is (P x) _InCBExtend); cbn [orb andb]; auto.
  - rewrite is_lor_r. destruct (is (P x) _ExtendedPictographic), (is (P x) _Extend); auto.
  - intros ->. reflexivity.
Qed.

Lemma g_rel_init : forall t y, In (P y) gV ->
  (t = gtr0 \/ In (t_last t) gV /\ gdec t (P y) = Break
     /\ (t_cons t = true -> is (t_last t) (N.lor _InCBConsonant _EL) = true) /\ (t_link t = true -> is (t_last t) _EL = true)
     /\ (t_pict t = true -> is (t_last t) (N.lor _ExtendedPictographic _Extend) = true)
     /\ (is (t_last t) _RegionalIndicator = false -> t_run t = 0%nat)) ->
  g_rel (gstep t y) (P y) (up_ex (P y) 0) 0 0 (g_incb_update (P y) incbNone).
Proof.
  intros t y Hc HB. unfold gstep, up_ex, g_incb_update. generalize dependent (P y). intros c Hc HB.
  assert (HX : (is c (N.lor _Extend _ZWJ) = true -> t_cons t = false /\ t_link t = false /\ t_pict t = false)
     /\ (is c _RegionalIndicator = true -> Nat.odd (t_run t) = false)).
  { destruct HB as [->|(Hl & HB & H1 & H2 & H3 & H4)]; [split; auto|].
    unfold gdec in HB. generalize dependent (t_last t). intros l Hl HB H1 H2 H3 H4. split.
    - intros Hx.
      assert (Hctl : is c _LF = false /\ is c _Ctl = false).
      { unfold gV in Hc. cbn [In] in Hc. repeat (destruct Hc as [<-|Hc]; [first [discriminate Hx | split; reflexivity]|]). contradiction. }
      destruct Hctl as [C1 C2]. rewrite C1, C2, Hx in HB. cbn [andb orb] in HB.
      assert (Hl2 : is l _Ctl = true). { destruct (is l _Ctl); [reflexivity|].
        repeat match type of HB with (if ?c then _ else _) = _ => destruct c; try discriminate end. }
      assert (Hno : is l (N.lor _InCBConsonant _EL) = false /\ is l _EL = false /\ is l (N.lor _ExtendedPictographic _Extend) = false).
      { unfold gV in Hl. cbn [In] in Hl. repeat (destruct Hl as [<-|Hl]; [first [discriminate Hl2 | repeat split; reflexivity]|]). contradiction. }
      destruct Hno as (N1 & N2 & N3). rewrite N1 in H1. rewrite N2 in H2. rewrite N3 in H3.
      repeat split; [destruct (t_cons t) | destruct (t_link t) | destruct (t_pict t)]; try reflexivity; symmetry; auto.
    - intros Hx. destruct (is l _RegionalIndicator) eqn:El; [|rewrite H4; reflexivity].
      assert (Hc0 : c = _RegionalIndicator).
      { unfold gV in Hc. cbn [In] in Hc. repeat (destruct Hc as [<-|Hc]; [first [discriminate Hx | reflexivity]|]). contradiction. }
      assert (Hl0 : l = _RegionalIndicator).
      { unfold gV in Hl. cbn [In] in Hl. repeat (destruct Hl as [<-|Hl]; [first [discriminate El | reflexivity]|]). contradiction. }
      subst c l. revert HB. eval_is. cbn [andb orb]. rewrite andb_false_r. destruct (Nat.odd (t_run t)); [discriminate|reflexivity]. }
  destruct HX as [X1 X2]. clear HB.
  unfold gV in Hc. cbn [In] in Hc.
  repeat (destruct Hc as [<-|Hc];
    [constructor; cbn [t_last t_cons t_link t_pict t_zwj t_run]; unfold _EL; eval_is; eval_is_in X1; eval_is_in X2;
     cbn [andb orb negb incbNum Nat.leb linkerB someB]; try (destruct (X1 eq_refl) as (Y1 & Y2 & Y3); rewrite ?Y1, ?Y2, ?Y3)|]); [..|contradiction];
  try reflexivity; try (intros; discriminate); auto.
  intros _. specialize (X2 eq_refl). rewrite Nat.odd_succ, <- Nat.negb_odd, X2. reflexivity.
Qed.

Definition g_Sim (st : gst) (b a : text) : Prop :=
  exists b0 x, b = b0 ++ [x] /\ In (P x) gV /\ gs_current st = P x
    /\ g_rel (gtr b) (P x) (up_ex (P x) (gs_lastEx st)) (if negb (is (P x) _Ignore) then gs_lastEx st else gs_lastLastEx st)
         (gs_ri st) (g_incb_update (P x) (gs_incb st)).

Lemma scalars_mid : forall b x a, scalars (b ++ x :: a) -> scalar x.
Proof. intros b x a H. apply Forall_app in H. destruct H as [_ H]. exact (Forall_inv H). Qed.

Lemma g_INIT : forall b x a, scalars (b ++ x :: a) -> (b = [] \/ grapheme_decides b (x :: a) Break) -> g_Sim (e_init GE (P x)) (b ++ [x]) a.
Proof.
  intros b x a Hs Hb. exists b, x. pose proof (P_in x (scalars_mid _ _ _ Hs)) as Hx. split; [reflexivity|]. split; [exact Hx|].
  split; [reflexivity|]. cbn [e_init GE gs_lastEx gs_lastLastEx gs_ri gs_incb]. rewrite gtr_snoc.
  replace (if negb (is (P x) _Ignore) then 0 else 0) with 0 by (destruct (negb _); reflexivity).
  apply g_rel_init; [exact Hx|]. destruct Hb as [->|Hb]; [left; reflexivity|].
  destruct b as [|z b _] using rev_ind; [left; reflexivity|]. right.
  pose proof (gtr_wf b z) as HW. cbv zeta in HW. rewrite gtr_last. destruct HW as (W1 & W2 & W3 & W4).
  split. { apply P_in. rewrite <- app_assoc in Hs. exact (scalars_mid _ _ _ Hs). }
  split; [|auto]. pose proof (says_fun _ _ _ _ _ Hb (g_spec b z x a)) as HF. injection HF as HF. auto.
Qed.

Lemma g_STEP : forall st b x a, scalars (b ++ x :: a) -> g_Sim st b (x :: a) ->
    exists dec, e_rules GE st (P x) (encode (x :: a)) (length (utf8 x)) true = Ok dec
      /\ match dec with
         | EBreak => grapheme_decides b (x :: a) Break
         | EJoin adv st' => exists a1 a2, x :: a = a1 ++ a2 /\ adv = length (encode a1)
             /\ (forall p q, a1 = p ++ q -> q <> [] -> grapheme_decides (b ++ p) (q ++ a2) Join) /\ g_Sim st' (b ++ a1) a2
         | _ => False
         end.
Proof.
  intros st b x a Hs (b0 & z & -> & Hz & Hcur & HR). pose proof (P_in x (scalars_mid _ _ _ Hs)) as Hx.
  change (e_rules GE) with g_erules. unfold g_erules. rewrite Hcur. cbv zeta. fold (up_ex (P z) (gs_lastEx st)).
  pose proof (g_rules_dec _ (P x) _ _ _ _ _ Hz Hx HR) as HD. pose proof (g_spec b0 z x a) as HG.
  destruct (g_rules (P x) (P z) _ (gs_ri st) _) as [ri' i'|] eqn:Er.
  - eexists; split; [reflexivity|]. destruct HD as [HD _]. rewrite HD in HG. exists [x], a. split; [reflexivity|].
    split; [unfold encode; cbn [map concat]; rewrite app_nil_r; reflexivity|]. split.
    + intros p q Hpq Hq. destruct p as [|y p].
      * cbn [app] in Hpq. subst q. rewrite app_nil_r. exact HG.
      * injection Hpq as <- Hpq. symmetry in Hpq. apply app_eq_nil in Hpq. tauto.
    + exists (b0 ++ [z]), x. split; [reflexivity|]. split; [exact Hx|]. split; [reflexivity|].
      cbn [gs_lastEx gs_lastLastEx gs_ri gs_incb]. rewrite gtr_snoc. eapply g_rel_step; eauto.
  - eexists; split; [reflexivity|]. rewrite HD in HG. exact HG.
Qed.

Lemma g_FU : forall data v w, e_lk0 GE data = Ok (v, w) -> w <> 0%nat -> (w <= length data)%nat ->
  (g_mu (e_init GE v) (skipn w data) < g_fuel data)%nat.
Proof. intros data v w _ Hw Hle. unfold g_mu, g_fuel. rewrite skipn_length. lia. Qed.

Lemma g_disjoint : forall b a, grapheme_decides b a Break -> grapheme_decides b a Join -> False.
Proof. intros b a H1 H2. pose proof (says_fun _ _ _ _ _ H1 H2). discriminate. Qed.

Theorem g_conform : forall cps, scalars cps -> exists segs,
  chop splitFunc (S (length (encode cps))) (encode cps) = Ok (map encode segs) /\ segmentation grapheme_decides cps segs.
Proof.
  exact (conform GE g_mu g_rules_ok g_fuel g_FU splitFunc g_split_engine P P g_lookup_cp g_lookup_cp
    grapheme_decides g_Sim g_INIT g_STEP g_disjoint).
Qed.
