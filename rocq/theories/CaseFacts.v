(** Case mappings keep the classes of graphemes and words, with three exceptions. *)
From Verif Require Import Base ListFacts SpecUtf8 SpecUcd SpecRules SpecNest SegFacts Conform RuleFacts NestFacts SpecIter SpecApi ConformApi SpecSame SameFacts SameRules SpecCaseTables SpecCase RangeTrees.
From Verif Require SpecSentences.
Local Open Scope N_scope.

Definition in_scalar (c : N) : bool := (c <? 0xD800) || ((0xE000 <=? c) && (c <? 0x110000)).
Definition same_check (c d : N) : bool := gcb_beq (GCB' c) (GCB' d) && incb_beq (InCB' c) (InCB' d) && Bool.eqb (ExtPict' c) (ExtPict' d) && wb_beq (WB' c) (WB' d).
Definition table_check (but : list N) (l : list (N * N)) : bool := forallb (fun e => in_scalar (snd e) && (existsb (N.eqb (fst e)) but || same_check (fst e) (snd e))) l.
Lemma lower_checked : table_check [0x24C2] lower_cases = true. Proof. vm_compute. reflexivity. Qed.
Lemma upper_checked : table_check [0x24DC; 0x345] upper_cases = true. Proof. vm_compute. reflexivity. Qed.
Lemma title_checked : table_check [0x24DC; 0x345] title_cases = true. Proof. vm_compute. reflexivity. Qed.

Lemma by_table_in : forall l c, by_table l c = c \/ In (c, by_table l c) l.
Proof. intros l c. unfold by_table. destruct (find _ l) as [(c', d)|] eqn:E; [|auto]. apply find_some in E. destruct E as (I & E). cbn in E. apply N.eqb_eq in E. subst c'. auto. Qed.
Lemma by_table_scalar : forall but l, table_check but l = true -> forall c, scalar c -> scalar (by_table l c).
Proof.
  intros but l H c S. destruct (by_table_in l c) as [-> |I]; [exact S|]. pose proof (proj1 (forallb_forall _ _) H _ I) as K. cbv beta in K. cbn [fst snd] in K. apply andb_prop in K. destruct K as (K & _). revert K. generalize (by_table l c). intros d K.
  unfold in_scalar in K. apply orb_prop in K. destruct K as [K|K]; [left; apply N.ltb_lt; exact K|]. apply andb_prop in K. destruct K as (A & B). apply N.leb_le in A. apply N.ltb_lt in B. right. lia.
Qed.
Lemma by_table_same : forall but l, table_check but l = true -> forall c, ~ In c but -> same_grapheme c (by_table l c) /\ same_word c (by_table l c).
Proof.
  intros but l H c N1. destruct (by_table_in l c) as [-> |I]; [repeat split|]. pose proof (proj1 (forallb_forall _ _) H _ I) as K. cbv beta in K. cbn [fst snd] in K. apply andb_prop in K. destruct K as (_ & K). revert K. generalize (by_table l c). intros d K.
  apply orb_prop in K. destruct K as [K|K]; [apply existsb_exists in K; destruct K as (x & Ix & E); apply N.eqb_eq in E; subst x; contradiction|].
  unfold same_check in K. rewrite <- !GCB_tree, <- !InCB_tree, <- !ExtPict_tree, <- !WB_tree in K. repeat match type of K with _ && _ = true => let X := fresh "X" in apply andb_prop in K; destruct K as (K & X) end.
  apply internal_gcb_dec_bl in K. apply internal_incb_dec_bl in X1. apply eqb_prop in X0. apply internal_wb_dec_bl in X. split; [split; [exact K|split; [exact X1|exact X0]]|split; [exact X|exact X0]].
Qed.

Lemma same_pieces : forall (f : N -> N) (segs segs' : list text), concat segs' = map f (concat segs) -> map (@length N) segs = map (@length N) segs' -> segs' = map (map f) segs.
Proof.
  intros f. induction segs as [|s segs IH]; intros [|s' segs'] E L; try discriminate; [reflexivity|]. cbn [map concat] in *. injection L as L1 L2. rewrite map_app in E.
  assert (X : s' = map f s /\ concat segs' = map f (concat segs)).
  { clear - E L1. revert s' L1 E. induction s as [|e s IHs]; intros [|x s'] L E; cbn in *; try discriminate; [auto|]. injection E as -> E. destruct (IHs s' ltac:(lia) E) as (-> & H). auto. }
  destruct X as (-> & X). f_equal. exact (IH segs' X L2).
Qed.
(** A map of characters that keeps a relation the rules respect: the tokens are mapped. *)
Lemma mapped_tokens : forall A (D : text -> text -> op -> Prop) (R : N -> N -> Prop) (f : N -> N), tokens_are_segments A D -> (forall x y, R x y -> R y x) ->
  (forall b a o b' a', Forall2 R b b' -> Forall2 R a a' -> D b a o -> D b' a' o) -> (forall c, scalar c -> scalar (f c)) ->
  forall t fuel, scalars t -> Forall (fun c => R c (f c)) t -> (length (encode t) < fuel)%nat -> (length (encode (map f t)) < fuel)%nat ->
  exists segs, concat segs = t /\ tokens A fuel (a_new A (encode t)) = Ok (map encode segs) /\ tokens A fuel (a_new A (encode (map f t))) = Ok (map (fun s => encode (map f s)) segs).
Proof.
  intros A D R f C sy HR HS t fuel S F L L'. assert (S' : scalars (map f t)) by (apply Forall_map; eapply Forall_impl; [|exact S]; exact HS).
  destruct (C t fuel S L) as (segs & T & G). destruct (C _ fuel S' L') as (segs' & T' & G'). exists segs. split; [exact (proj1 G)|]. split; [exact T|]. rewrite T'.
  assert (FR : Forall2 R t (map f t)) by (clear - F; induction F as [|c t H F IH]; constructor; assumption).
  destruct (seg_resp R sy D HR _ _ _ G FR) as (s & X & Gs). rewrite (segmentation_unique _ _ _ _ G' Gs).
  rewrite (same_pieces f segs s); [rewrite map_map; reflexivity|rewrite (proj1 Gs), (proj1 G); reflexivity|].
  clear - X. induction X as [|x y l l' H X IH]; [reflexivity|]. cbn [map]. rewrite IH, (rel_length _ _ _ H). reflexivity.
Qed.

(** ** Sentences: a text with capitals is cut wherever the same text with small letters is *)
Definition lowers (x y : N) : Prop := SB x = SB y \/ SB x = SB_Upper /\ SB y = SB_Lower.
Definition alike (x y : N) : Prop := lowers x y \/ lowers y x.
Definition sb_check (c d : N) : bool := sb_beq (SB' c) (SB' d) || (sb_beq (SB' c) SB_Upper && sb_beq (SB' d) SB_Lower).
Lemma sb_check_ok : forall c d, sb_check c d = true -> lowers c d.
Proof. intros c d H. unfold sb_check in H. rewrite <- !SB_tree in H. apply orb_prop in H. destruct H as [H|H]; [left; apply internal_sb_dec_bl; exact H|]. apply andb_prop in H. destruct H as (A & B). right. split; apply internal_sb_dec_bl; assumption. Qed.
Lemma lower_sb : forallb (fun e => sb_check (fst e) (snd e)) lower_cases = true. Proof. vm_compute. reflexivity. Qed.
Definition raises_check (l : list (N * N)) : bool := forallb (fun e => (fst e =? 0x345) || sb_check (snd e) (fst e)) l.
Lemma upper_sb : raises_check upper_cases = true. Proof. vm_compute. reflexivity. Qed.
Lemma title_sb : raises_check title_cases = true. Proof. vm_compute. reflexivity. Qed.
Lemma lower_lowers : forall c, lowers c (by_table lower_cases c).
Proof. intros c. destruct (by_table_in lower_cases c) as [-> |I]; [left; reflexivity|]. apply sb_check_ok. exact (proj1 (forallb_forall _ _) lower_sb _ I). Qed.
Lemma raises : forall l, raises_check l = true -> forall c, c <> 0x345 -> lowers (by_table l c) c.
Proof.
  intros l H c N1. destruct (by_table_in l c) as [-> |I]; [left; reflexivity|]. apply sb_check_ok. pose proof (proj1 (forallb_forall _ _) H _ I) as K. cbv beta in K. cbn [fst snd] in K.
  apply orb_prop in K. destruct K as [K|K]; [apply N.eqb_eq in K; contradiction|exact K].
Qed.

Section S.
  Import SpecSentences.
  Lemma alike_sym : forall x y, alike x y -> alike y x. Proof. intros x y [H|H]; [right|left]; exact H. Qed.
  Lemma alike_keep : forall k, k <> SB_Upper -> k <> SB_Lower -> keeps alike (sc k).
  Proof. intros k A B x y [[E|(E & E')]|[E|(E & E')]]; unfold sc; rewrite E; try reflexivity; rewrite E'; destruct k; congruence || reflexivity. Qed.
  Lemma alike_ignored : keeps alike ignored.
  Proof. intros x y H. unfold ignored. rewrite (alike_keep SB_Extend ltac:(discriminate) ltac:(discriminate) x y H), (alike_keep SB_Format ltac:(discriminate) ltac:(discriminate) x y H). reflexivity. Qed.
  Lemma alike_para : keeps alike para_sep.
  Proof. intros x y H. unfold para_sep. rewrite (alike_keep SB_Sep ltac:(discriminate) ltac:(discriminate) x y H), (alike_keep SB_CR ltac:(discriminate) ltac:(discriminate) x y H), (alike_keep SB_LF ltac:(discriminate) ltac:(discriminate) x y H). reflexivity. Qed.
  Lemma alike_not : keeps alike (fun c => negb (sc SB_OLetter c || sc SB_Upper c || sc SB_Lower c || para_sep c || sc SB_STerm c || sc SB_ATerm c)).
  Proof.
    intros x y H. rewrite (alike_keep SB_OLetter ltac:(discriminate) ltac:(discriminate) x y H), (alike_keep SB_STerm ltac:(discriminate) ltac:(discriminate) x y H), (alike_keep SB_ATerm ltac:(discriminate) ltac:(discriminate) x y H), (alike_para x y H).
    assert (E : sc SB_Upper x || sc SB_Lower x = sc SB_Upper y || sc SB_Lower y) by (destruct H as [[E|(E & E')]|[E|(E & E')]]; unfold sc; rewrite E; try rewrite E'; reflexivity).
    rewrite <- (orb_assoc _ (sc SB_Upper x)), E, (orb_assoc (sc SB_OLetter y)). reflexivity.
  Qed.
  Lemma lowers_alike : forall t t', Forall2 lowers t t' -> Forall2 alike t t'.
  Proof. intros t t' F. induction F; constructor; auto. left. assumption. Qed.
  Lemma lowers_alike' : forall t t', Forall2 lowers t t' -> Forall2 alike t' t.
  Proof. intros t t' F. induction F; constructor; auto. right. assumption. Qed.

  (** SB7, then SB8 *)
  Lemma sb7 : forall b a b' a', Forall2 lowers b b' -> Forall2 lowers a a' -> applies (Suffix (Cat (Alt Upper Lower) ATerm) × Upper)%rule b a ->
    applies (Suffix (Cat (Alt Upper Lower) ATerm) × Upper)%rule b' a' \/ applies (Suffix (Cat (Cat ATerm (Star Close)) (Star Sp)) × Cat (Star NotStop) Lower)%rule b' a'.
  Proof.
    intros b a b' a' Fb Fa ((b1 & b2 & -> & M) & (a1 & a2 & -> & Ma)). cbn [r_left r_right] in *.
    inversion Ma as [|p u Hu| | | | |]; subst. cbn [app] in Fa. inversion Fa as [|? u' ? a2' Ru Fa']; subst.
    apply Forall2_app_inv_l in Fb. destruct Fb as (b1' & b2' & F1 & F2 & ->).
    assert (X : exists l l' s s', b2 = [l; s] /\ b2' = [l'; s'] /\ (sc SB_Upper l = true \/ sc SB_Lower l = true) /\ sc SB_ATerm s = true /\ lowers l l' /\ lowers s s').
    { inversion M as [| |r s t v M1 M2 | | | |]; subst. inversion M2 as [|p s Hs| | | | |]; subst.
      assert (Y : exists l, t = [l] /\ (sc SB_Upper l = true \/ sc SB_Lower l = true)) by (inversion M1 as [| | |? ? ? M3|? ? ? M3| |]; subst; inversion M3; subst; eauto).
      destruct Y as (l & -> & Y). cbn [app] in F2. inversion F2 as [|? l' ? k Rl F3]; subst. inversion F3 as [|? s' ? k' Rs F4]; subst. inversion F4; subst. exists l, l', s, s'. auto 10. }
    destruct X as (l & l' & s & s' & -> & -> & Hl & Hs & Rl & Rs).
    assert (Hs' : sc SB_ATerm s' = true) by (rewrite <- (alike_keep SB_ATerm ltac:(discriminate) ltac:(discriminate) s s' (or_introl Rs)); exact Hs).
    assert (Hl' : sc SB_Upper l' = true \/ sc SB_Lower l' = true).
    { unfold sc in *. destruct Rl as [E|(E & E')]; [rewrite <- E; exact Hl|]. right. rewrite E'. reflexivity. }
    destruct Ru as [E|(E & E')].
    - left. split; cbn [r_left r_right left_applies].
      + exists b1', [l'; s']. split; [reflexivity|]. apply (m_cat _ _ [l'] [s']); [destruct Hl' as [H|H]; [apply m_altl|apply m_altr]; constructor; exact H|constructor; exact Hs'].
      + exists [u'], a2'. split; [reflexivity|]. constructor. unfold sc in *. rewrite <- E. exact Hu.
    - right. split; cbn [r_left r_right left_applies].
      + exists (b1' ++ [l']), [s']. split; [rewrite <- app_assoc; reflexivity|]. apply (m_cat _ _ [s'] []); [apply (m_cat _ _ [s'] []); [constructor; exact Hs'|constructor]|constructor].
      + exists [u'], a2'. split; [reflexivity|]. apply (m_cat _ _ [] [u']); [constructor|constructor]. unfold sc. rewrite E'. reflexivity.
  Qed.
  Lemma sb8 : forall b a b' a', Forall2 lowers b b' -> Forall2 lowers a a' -> applies (Suffix (Cat (Cat ATerm (Star Close)) (Star Sp)) × Cat (Star NotStop) Lower)%rule b a ->
    applies (Suffix (Cat (Cat ATerm (Star Close)) (Star Sp)) × Cat (Star NotStop) Lower)%rule b' a'.
  Proof.
    intros b a b' a' Fb Fa ((b1 & b2 & -> & M) & (a1 & a2 & -> & Ma)). cbn [r_left r_right] in *.
    apply Forall2_app_inv_l in Fb. destruct Fb as (b1' & b2' & F1 & F2 & ->). apply Forall2_app_inv_l in Fa. destruct Fa as (a1' & a2' & G1 & G2 & ->). split; cbn [r_left r_right left_applies].
    - exists b1', b2'. split; [reflexivity|]. apply (matches_resp alike _ _ M); [|exact (lowers_alike _ _ F2)]. keeps_all; apply alike_keep; discriminate.
    - exists a1', a2'. split; [reflexivity|]. inversion Ma as [| |? ? t v M1 M2 | | | |]; subst. inversion M2 as [|p l Hl| | | | |]; subst.
      apply Forall2_app_inv_l in G1. destruct G1 as (t' & v' & H1 & H2 & ->). inversion H2 as [|? l' ? k Rl H3]; subst. inversion H3; subst.
      apply m_cat; [apply (matches_resp alike _ _ M1); [exact alike_not|exact (lowers_alike _ _ H1)]|]. constructor. unfold sc in *. destruct Rl as [E|(E & _)]; [rewrite <- E; exact Hl|rewrite E in Hl; discriminate].
  Qed.

  Lemma s_raises : forall b a b' a', Forall2 lowers b b' -> Forall2 lowers a a' -> sentence_decides b' a' Break -> sentence_decides b a Break.
  Proof.
    intros b a b' a' Fb Fa.
    assert (R1 : Forall (resp_rule alike) sentence_rules_1) by (unfold sentence_rules_1; keeps_all; try exact alike_ignored; apply alike_keep; discriminate).
    pose proof (lowers_alike' _ _ Fb) as Ab. pose proof (lowers_alike' _ _ Fa) as Aa.
    intros [S|(S1 & S2)]; [left; exact (says_resp _ alike_sym _ _ _ _ _ _ R1 Ab Aa S)|]. right. split; [exact (says_resp _ alike_sym _ _ _ _ _ _ R1 Ab Aa S1)|].
    assert (K1 : keeps lowers ignored) by (intros x y H; apply alike_ignored; left; exact H). assert (K2 : keeps lowers para_sep) by (intros x y H; apply alike_para; left; exact H).
    pose proof (reduce_resp _ _ _ K1 K2 _ _ Fb None None I) as Gb. pose proof (reduce_resp _ _ _ K1 K2 _ _ Fa _ _ (last_resp _ _ _ Fb)) as Ga.
    revert Gb Ga S2. generalize (reduce ignored para_sep None b), (reduce ignored para_sep (last_char b) a), (reduce ignored para_sep None b'), (reduce ignored para_sep (last_char b') a'). clear.
    intros b a b' a' Gb Ga S. pose proof (lowers_alike _ _ Gb) as Ab. pose proof (lowers_alike _ _ Ga) as Aa. pose proof (lowers_alike' _ _ Gb) as Ab'. pose proof (lowers_alike' _ _ Ga) as Aa'.
    assert (NN : forall r, resp_rule alike r -> ~ applies r b' a' -> ~ applies r b a) by (intros r H N1 A; apply N1; exact (applies_resp alike r b a b' a' H Ab Aa A)).
    unfold sentence_rules_2 in *.
    inversion S as [| |? ? ? N6 S7]; subst. apply says_next; [apply NN; [keeps_all; apply alike_keep; discriminate|exact N6]|].
    inversion S7 as [| |? ? ? N7 S8]; subst. inversion S8 as [| |? ? ? N8 S8a]; subst.
    apply says_next; [intros A; destruct (sb7 _ _ _ _ Gb Ga A); [apply N7|apply N8]; assumption|].
    apply says_next; [intros A; apply N8; exact (sb8 _ _ _ _ Gb Ga A)|].
    refine (says_resp _ alike_sym _ _ _ _ _ _ _ Ab' Aa' S8a). keeps_all; apply alike_keep; discriminate.
  Qed.
End S.

(** ** Groups of mapped tokens *)
Lemma nonempty_map : forall (f : N -> N) segs, Forall (fun s : text => s <> []) segs -> Forall (fun s => s <> []) (map (map f) segs).
Proof. intros f segs F. apply Forall_map. eapply Forall_impl; [|exact F]. intros [|x s] H; [congruence|discriminate]. Qed.
Lemma cuts_map : forall f segs b, cuts segs b -> cuts (map (map f) segs) (map f b).
Proof. intros f segs b (p & q & -> & <-). exists (map (map f) p), (map (map f) q). rewrite map_app, concat_map. auto. Qed.
Lemma cuts_unmap : forall f segs b a, concat segs = b ++ a -> cuts (map (map f) segs) (map f b) -> cuts segs b.
Proof.
  intros f segs b a E (p & q & Es & C). apply map_eq_app in Es. destruct Es as (p0 & q0 & -> & <- & <-). exists p0, q0. split; [reflexivity|]. rewrite concat_app in E. apply (same_prefix _ _ _ _ E).
  rewrite <- concat_map in C. apply (f_equal (@length N)) in C. rewrite !map_length in C. exact C.
Qed.
Lemma made_encode : forall s2 s1 : list text, (exists groups, concat groups = s1 /\ map (@concat N) groups = s2) -> made_of (map encode s2) (map encode s1).
Proof.
  intros s2 s1 (groups & <- & <-). exists (map (map encode) groups). split; [rewrite concat_map; reflexivity|]. rewrite !map_map. apply map_ext. intros g. apply concat_encode.
Qed.
Lemma merged : forall (D : text -> text -> op -> Prop) f t segs segs', segmentation D t segs -> segmentation D (map f t) segs' ->
  (forall b a, t = b ++ a -> D (map f b) (map f a) Break -> D b a Break) -> made_of (map encode segs') (map (fun s => encode (map f s)) segs).
Proof.
  intros D f t segs segs' (C & F & B) (C' & F' & B') H. rewrite <- (map_map (map f) encode). apply made_encode.
  apply refine; [apply nonempty_map; exact F|exact F'|rewrite <- concat_map, C, C'; reflexivity|].
  intros b' a' Nb Na E HC. pose proof (proj1 (B' b' a' Nb Na ltac:(congruence)) HC) as HB. rewrite C' in E. apply map_eq_app in E. destruct E as (b & a & Et & <- & <-). apply cuts_map.
  apply (B b a); [intros ->; apply Nb; reflexivity|intros ->; apply Na; reflexivity|exact Et|]. exact (H b a Et HB).
Qed.
Lemma parted : forall (D : text -> text -> op -> Prop) f t segs segs', segmentation D t segs -> segmentation D (map f t) segs' ->
  (forall b a, t = b ++ a -> D b a Break -> D (map f b) (map f a) Break) -> made_of (map (fun s => encode (map f s)) segs) (map encode segs').
Proof.
  intros D f t segs segs' (C & F & B) (C' & F' & B') H. rewrite <- (map_map (map f) encode). apply made_encode.
  apply refine; [exact F'|apply nonempty_map; exact F|rewrite <- concat_map, C, C'; reflexivity|].
  intros b' a' Nb Na E HC. rewrite <- concat_map, C in E. pose proof E as E0. apply map_eq_app in E. destruct E as (b & a & Et & <- & <-). apply (B' _ _ Nb Na E0). apply (H b a Et).
  apply (B b a); [intros ->; apply Nb; reflexivity|intros ->; apply Na; reflexivity|exact Et|]. apply (cuts_unmap f segs b a); [congruence|exact HC].
Qed.
