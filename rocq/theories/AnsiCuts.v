(** graphemes with the escape sequence options: what the tokens are, around and without control sequences. *)
From Verif Require Import Base ListFacts Trie Engine Lk LookupFacts TableFacts SpecUtf8 SpecIter SpecApi SpecRules SpecUcd SpecLookup SpecJoiners SpecGraphemes SpecAnsi
  Drive ApiFacts ApiInst ConformApi Conform SegFacts NestFacts UcdFacts UcdGraphemes BitFacts Ansi AnsiFacts AnsiRec GraphemesIter GraphemesEngine GraphemesConform TableGraphemes.
From Verif Require Graphemes.
Import Graphemes.
Local Open Scope N_scope.

(** ** Tokens of a split function *)
Lemma tb_chop : forall f d l, tokens_by f d l -> forall fuel, (length d < fuel)%nat -> chop f fuel d = Ok l.
Proof.
  intros f d l H. induction H as [|d n l Hs Hn HT IH]; intros fuel Hf; (destruct fuel as [|fuel]; [lia|]); [reflexivity|].
  cbn [chop]. destruct d as [|c d]; [cbn in Hn; lia|]. cbn [is_nil]. rewrite Hs. cbn [bind so_token so_advance]. rewrite Nat2Z.id, IH; [reflexivity|].
  rewrite skipn_length. lia.
Qed.
Lemma tb_fun : forall f d l, tokens_by f d l -> forall l', tokens_by f d l' -> l = l'.
Proof. intros f d l H l' H'. pose proof (tb_chop _ _ _ H (S (length d)) ltac:(lia)) as E. rewrite (tb_chop _ _ _ H' (S (length d)) ltac:(lia)) in E. congruence. Qed.
Lemma tb_ex0 : forall f, well_behaved f -> forall n d, (length d < n)%nat -> exists l, tokens_by f d l.
Proof.
  intros f WB. induction n as [|n IH]; intros d Hd; [lia|]. destruct d as [|c d]; [exists []; constructor|].
  destruct (WB (c :: d) ltac:(discriminate)) as (k & Hk & Hs). destruct (IH (skipn k (c :: d))) as (l & Hl). { rewrite skipn_length. lia. }
  exists (firstn k (c :: d) :: l). constructor; auto.
Qed.
Lemma gi_wb : forall a7 a8, well_behaved (g_isplit a7 a8).
Proof. intros a7 a8 d Hd. exact (g_isplit_eof a7 a8 d Hd). Qed.
Lemma tb_ex : forall a7 a8 d, exists l, tokens_by (g_isplit a7 a8) d l.
Proof. intros. exact (tb_ex0 _ (gi_wb a7 a8) (S (length d)) d ltac:(lia)). Qed.
Lemma tb_tokens : forall a7 a8 d l fuel, tokens_by (g_isplit a7 a8) d l -> (length d < fuel)%nat -> tokens graphemes_api fuel (setAnsi (FromBytes d) a7 a8) = Ok l.
Proof.
  intros a7 a8 d l fuel H Hf. destruct (collect_chop (g_next_ok a7 a8) fuel (setAnsi (FromBytes d) a7 a8) (S (length d)) (conj eq_refl eq_refl)) as (l' & H1 & H2).
  - cbn. lia.
  - cbn. lia.
  - cbn [setAnsi FromBytes it_data it_pos skipn] in H2. rewrite (tb_chop _ _ _ H (S (length d)) ltac:(lia)) in H2. injection H2 as <-. exact H1.
Qed.
Lemma tokens_tb : forall a7 a8 d l fuel, (length d < fuel)%nat -> tokens graphemes_api fuel (setAnsi (FromBytes d) a7 a8) = Ok l -> tokens_by (g_isplit a7 a8) d l.
Proof. intros a7 a8 d l fuel Hf H. destruct (tb_ex a7 a8 d) as (l' & Hl). rewrite (tb_tokens _ _ _ _ _ Hl Hf) in H. injection H as <-. exact Hl. Qed.
Lemma tb_app : forall f e v l, e <> [] -> f (e ++ v) true = Ok (e_done (length e) e) -> tokens_by f v l -> tokens_by f (e ++ v) (e :: l).
Proof.
  intros f e v l He Hs Hl. assert (E : firstn (length e) (e ++ v) = e) by (rewrite firstn_app, firstn_all, Nat.sub_diag; apply app_nil_r).
  pose proof (by_cons f (e ++ v) (length e) l) as H. rewrite E in H. apply H.
  - exact Hs.
  - rewrite app_length. destruct e; [congruence|cbn; lia].
  - rewrite skipn_app, skipn_all, Nat.sub_diag. exact Hl.
Qed.
(** Every end of the token list is the token list of the rest. *)
Lemma tb_suffix : forall f d l, tokens_by f d l -> forall l1 l2, l = l1 ++ l2 -> d = concat l1 ++ concat l2 /\ tokens_by f (concat l2) l2.
Proof.
  intros f d l H. induction H as [|d n l Hs Hn HT IH]; intros l1 l2 E.
  - symmetry in E. apply app_eq_nil in E. destruct E as [-> ->]. split; [reflexivity|constructor].
  - destruct l1 as [|t l1].
    + cbn [app] in E. subst l2. cbn [concat app]. destruct (IH [] l eq_refl) as (E1 & _). cbn [concat app] in E1. rewrite <- E1, firstn_skipn. split; [reflexivity|]. constructor; auto.
    + injection E as <- E. destruct (IH l1 l2 E) as (E1 & E2). cbn [concat]. rewrite <- app_assoc, <- E1, firstn_skipn. auto.
Qed.
(** Two split functions that agree on a kind of data which their tokens do not leave. *)
Lemma tb_agree : forall f g (Q : bytes -> Prop), (forall d, Q d -> d <> [] -> f d true = g d true) ->
  (forall d n, Q d -> d <> [] -> f d true = Ok (e_done n (firstn n d)) -> Q (skipn n d)) -> forall d l, Q d -> tokens_by f d l -> tokens_by g d l.
Proof.
  intros f g Q HA HC d l HQ H. induction H as [|d n l Hs Hn HT IH]; [constructor|].
  assert (Hd : d <> []) by (intros ->; cbn in Hn; lia). constructor; [rewrite <- (HA d HQ Hd); exact Hs|exact Hn|apply IH; apply HC; auto].
Qed.

Lemma skipn_here : forall (x y : bytes), skipn (length x) (x ++ y) = y.
Proof. intros. rewrite skipn_app, skipn_all, Nat.sub_diag. reflexivity. Qed.

(** ** The first token *)
Lemma gi_7 : forall a8 e v b, ansi7 e v -> g_isplit true a8 (e ++ v) b = Ok (e_done (length e) e).
Proof.
  intros a8 e v b H. pose proof (rec7_complete e v H) as HL. destruct (ansi7_esc e v H) as (r & ->). unfold g_isplit. cbn [app andb]. cbn [app] in HL.
  change (esc =? esc) with true. cbv iota. rewrite HL. cbn [length Nat.ltb Nat.leb]. cbv zeta. change (S (length r)) with (length (esc :: r)).
  change (esc :: r ++ v) with ((esc :: r) ++ v). rewrite firstn_app, firstn_all, Nat.sub_diag, app_nil_r. reflexivity.
Qed.
Lemma gi_8 : forall a7 e v b, ansi8 e v -> g_isplit a7 true (e ++ v) b = Ok (e_done (length e) e).
Proof.
  intros a7 e v b H. pose proof (rec8_complete e v H) as HL. destruct (ansi8_head e v H) as (c & r & -> & Hc). unfold g_isplit. cbn [app]. cbn [app] in HL.
  destruct (N.eqb_spec c esc) as [->|_]; [unfold esc in Hc; lia|]. rewrite andb_false_r. cbn [Nat.ltb Nat.leb andb].
  rewrite (proj2 (N.leb_le _ _) (proj1 Hc)), (proj2 (N.leb_le _ _) (proj2 Hc)). cbn [andb]. rewrite HL. cbn [length Nat.ltb Nat.leb]. cbv zeta. change (S (length r)) with (length (c :: r)).
  change (c :: r ++ v) with ((c :: r) ++ v). rewrite firstn_app, firstn_all, Nat.sub_diag, app_nil_r. reflexivity.
Qed.
Lemma gi_no7 : forall a8 d b, (forall e v, d = e ++ v -> ~ ansi7 e v) -> g_isplit true a8 d b = g_isplit false a8 d b.
Proof.
  intros a8 d b H. unfold g_isplit. cbn [andb]. destruct (match d with c :: _ => c =? esc | [] => false end); [|reflexivity].
  destruct (ansiEscapeLength d) as [|n] eqn:E; [reflexivity|]. exfalso. destruct (rec7_sound _ _ E ltac:(discriminate)) as (e & v & Ed & _ & HA). exact (H e v Ed HA).
Qed.
Lemma gi_no8 : forall a7 d b, (forall e v, d = e ++ v -> ~ ansi8 e v) -> g_isplit a7 true d b = g_isplit a7 false d b.
Proof.
  intros a7 d b H. unfold g_isplit. cbn [andb]. destruct (match d with c :: _ => (0x80 <=? c) && (c <=? 0x9F) | [] => false end); [|reflexivity].
  destruct (ansiEscapeLength8Bit d) as [|n] eqn:E; [reflexivity|]. exfalso. destruct (rec8_sound _ _ E ltac:(discriminate)) as (e & v & Ed & _ & HA). exact (H e v Ed HA).
Qed.
(** Unless the first byte is of the right kind the options do nothing. *)
Lemma gi_plain : forall a7 a8 c s b, (a7 = true -> c <> esc) -> (a8 = true -> ~ 0x80 <= c <= 0x9F) -> g_isplit a7 a8 (c :: s) b = splitFunc (c :: s) b.
Proof.
  intros a7 a8 c s b H7 H8. unfold g_isplit.
  assert (E7 : a7 && (c =? esc) = false). { destruct a7; [|reflexivity]. apply N.eqb_neq. auto. }
  assert (E8 : a8 && ((0x80 <=? c) && (c <=? 0x9F)) = false).
  { destruct a8; [|reflexivity]. destruct ((0x80 <=? c) && (c <=? 0x9F)) eqn:E; [|reflexivity]. apply andb_prop in E. rewrite !N.leb_le in E. specialize (H8 eq_refl). contradiction. }
  rewrite E7, E8. reflexivity.
Qed.

Lemma ansi7_ex : forall d, (exists e v, d = e ++ v /\ ansi7 e v) \/ (forall e v, d = e ++ v -> ~ ansi7 e v).
Proof.
  intros d. destruct (ansiEscapeLength d) as [|n] eqn:E.
  - right. intros e v -> H. rewrite (rec7_complete e v H) in E. destruct (ansi7_esc e v H) as (r & ->). discriminate.
  - left. destruct (rec7_sound _ _ E ltac:(discriminate)) as (e & v & -> & _ & H). eauto.
Qed.
Lemma ansi7_unique : forall e v e' v', ansi7 e v -> ansi7 e' v' -> e ++ v = e' ++ v' -> e = e'.
Proof.
  intros e v e' v' H H' E. pose proof (rec7_complete e v H) as L. rewrite E, (rec7_complete e' v' H') in L. apply (f_equal (firstn (length e))) in E.
  rewrite <- L in E at 2. rewrite !firstn_app, !firstn_all, !Nat.sub_diag in E. cbn in E. rewrite !app_nil_r in E. exact E.
Qed.
Lemma ansi8_unique : forall e v e' v', ansi8 e v -> ansi8 e' v' -> e ++ v = e' ++ v' -> e = e'.
Proof.
  intros e v e' v' H H' E. pose proof (rec8_complete e v H) as L. rewrite E, (rec8_complete e' v' H') in L. apply (f_equal (firstn (length e))) in E.
  rewrite <- L in E at 2. rewrite !firstn_app, !firstn_all, !Nat.sub_diag in E. cbn in E. rewrite !app_nil_r in E. exact E.
Qed.

Lemma ansi7_nonnil : forall e v, ansi7 e v -> e <> [].
Proof. intros e v H. destruct (ansi7_esc e v H) as (r & ->). discriminate. Qed.
Lemma ansi8_nonnil : forall e v, ansi8 e v -> e <> [].
Proof. intros e v H. destruct (ansi8_head e v H) as (c & r & -> & _). discriminate. Qed.

(** ** Well-formed text *)
Definition cont (b : N) : Prop := 0x80 <= b <= 0xBF.
Lemma utf8_shape : forall x, scalar x -> exists b s, utf8 x = b :: s /\ ~ cont b /\ Forall cont s /\ (b < 0x80 -> x = b /\ s = []).
Proof.
  intros x Hx. unfold utf8, cont. destruct (N.ltb_spec x 0x80). { exists x, []. split; [reflexivity|]. split; [lia|]. split; [constructor|auto]. }
  assert (M : forall y, y mod 0x40 < 0x40) by (intros; apply N.mod_lt; discriminate).
  destruct (N.ltb_spec x 0x800); [|destruct (N.ltb_spec x 0x10000)]; (eexists; eexists; split; [reflexivity|]; split; [|split]).
  all: try (match goal with |- context [?c + ?y / ?k] => generalize (y / k); intros; lia end).
  all: repeat (constructor; [match goal with |- context [?y mod 0x40] => specialize (M y); revert M; generalize (y mod 0x40); intros; lia end|]); constructor.
Qed.

Lemma cut_before : forall cps x b y, scalars cps -> encode cps = x ++ b :: y -> ~ cont b -> exists c1 c2, cps = c1 ++ c2 /\ x = encode c1 /\ b :: y = encode c2.
Proof.
  induction cps as [|c cps IH]; intros x b y Hs E Hb; [destruct x; discriminate|]. destruct x as [|h x]; [exists [], (c :: cps); auto|].
  inversion Hs as [|? ? Hc Hs']; subst. rewrite encode_cons in E. destruct (prefix_cmp _ _ _ _ E) as [(r & E1 & E2)|(r & E1 & E2)].
  - destruct (IH r b y Hs' E2 Hb) as (c1 & c2 & -> & -> & E3). exists (c :: c1), c2. split; [reflexivity|]. split; [rewrite encode_cons; exact E1|exact E3].
  - destruct r as [|b' r].
    + exists [c], cps. split; [reflexivity|]. cbn [app] in E2. rewrite app_nil_r in E1. split; [rewrite encode_cons; cbn; rewrite app_nil_r; auto|exact E2].
    + injection E2 as <- _. destruct (utf8_shape c Hc) as (l & s & Eu & _ & HF & _). rewrite Eu in E1. injection E1 as _ ->. apply Forall_app in HF. destruct HF as [_ HF]. destruct (Hb (Forall_inv HF)).
Qed.
Lemma cut_after : forall cps x b y, scalars cps -> encode cps = x ++ b :: y -> b < 0x80 -> exists c1 c2, cps = c1 ++ c2 /\ x ++ [b] = encode c1 /\ y = encode c2.
Proof.
  intros cps x b y Hs E Hb. destruct (cut_before cps x b y Hs E) as (c1 & c2 & -> & -> & E2). { unfold cont. lia. }
  destruct c2 as [|c c2]; [discriminate|]. apply Forall_app in Hs. destruct Hs as [_ Hs]. inversion Hs as [|? ? Hc _]; subst. rewrite encode_cons in E2.
  destruct (utf8_shape c Hc) as (l & s & Eu & _ & _ & HA). rewrite Eu in E2. injection E2 as -> ->. destruct (HA Hb) as [-> ->].
  exists (c1 ++ [l]), c2. split; [rewrite <- app_assoc; reflexivity|]. split; [|reflexivity]. rewrite encode_app, (encode_cons l []), Eu. reflexivity.
Qed.

Lemma string_end : forall terms body v, (forall t, In t terms -> exists t' b, t = t' ++ [b] /\ b < 0x80) -> string_body terms body v ->
  (exists e b, body = e ++ [b] /\ b < 0x80) \/ (exists b v', v = b :: v' /\ b < 0x80).
Proof.
  intros terms body v HT [(p & t & -> & _ & Ht)|(_ & c & v' & -> & Hc)].
  - left. destruct (HT t Ht) as (t' & b & -> & Hb). exists (p ++ t'), b. rewrite <- app_assoc. auto.
  - right. exists c, v'. split; [reflexivity|]. unfold CAN, SUB in Hc. lia.
Qed.
Lemma ansi7_end : forall e v, ansi7 e v -> (exists e' b, e = e' ++ [b] /\ b < 0x80) \/ (exists b v', v = b :: v' /\ b < 0x80).
Proof.
  intros e v H. destruct H as [body v (ps & is & f & -> & _ & _ & Hf)|body v H|k body v _ H|b v HR HN|i is f v HI HF Hf].
  - left. exists (ESC :: CSI7 :: ps ++ is), f. unfold final in Hf. split; [cbn [app]; rewrite <- app_assoc; reflexivity|lia].
  - apply string_end in H. { destruct H as [(e & b & -> & Hb)|H]; [left; exists (ESC :: OSC7 :: e), b; auto|right; exact H]. }
    intros t [<-|[<-|[]]]; [exists [], BEL|exists [ESC], BACKSLASH]; split; reflexivity.
  - apply string_end in H. { destruct H as [(e & b & -> & Hb)|H]; [left; exists (ESC :: k :: e), b; auto|right; exact H]. }
    intros t [<-|[]]; exists [ESC], BACKSLASH; split; reflexivity.
  - left. exists [ESC], b. split; [reflexivity|lia].
  - left. exists (ESC :: i :: is), f. split; [reflexivity|lia].
Qed.
Lemma ansi7_cps : forall e v cps, ansi7 e v -> scalars cps -> encode cps = e ++ v -> exists c1 c2, cps = c1 ++ c2 /\ e = encode c1 /\ v = encode c2.
Proof.
  intros e v cps H Hs E. destruct (ansi7_end e v H) as [(e' & b & -> & Hb)|(b & v' & -> & Hb)].
  - rewrite <- app_assoc in E. cbn [app] in E. destruct (cut_after _ _ _ _ Hs E Hb) as (c1 & c2 & H1 & H2 & H3). eauto.
  - apply (cut_before _ _ _ _ Hs E). unfold cont. lia.
Qed.

Lemma g_cut : forall x a, scalars (x :: a) -> exists s a2, x :: a = s ++ a2 /\ s <> [] /\ splitFunc (encode (x :: a)) true = Ok (e_done (length (encode s)) (encode s)).
Proof.
  intros x a Hs. destruct (conform_split GE g_mu g_rules_ok g_fuel g_FU splitFunc g_split_engine P P g_lookup_cp g_lookup_cp
    grapheme_decides g_Sim g_INIT g_STEP [] x a Hs (or_introl eq_refl)) as (s & a2 & H1 & H2 & H3 & _). eauto.
Qed.

(** ** Flags and text without controls *)
Lemma no_esc : forall a8 d l, ~ In ESC d -> tokens_by (g_isplit false a8) d l -> tokens_by (g_isplit true a8) d l.
Proof.
  intros a8 d l HN. apply (tb_agree _ _ (fun d => ~ In ESC d)); [| |exact HN].
  - intros d' Hd Hn. symmetry. apply gi_no7. intros e v -> H. destruct (ansi7_esc e v H) as (r & ->). apply Hd. left. reflexivity.
  - intros d' n Hd _ _ Hin. apply Hd. rewrite <- (firstn_skipn n d'). apply in_or_app. auto.
Qed.
Lemma no_c1 : forall a7 d l, Forall (fun b => ~ 0x80 <= b <= 0x9F) d -> tokens_by (g_isplit a7 false) d l -> tokens_by (g_isplit a7 true) d l.
Proof.
  intros a7 d l HN. apply (tb_agree _ _ (fun d => Forall (fun b => ~ 0x80 <= b <= 0x9F) d)); [| |exact HN].
  - intros d' Hd Hn. symmetry. apply gi_no8. intros e v -> H. destruct (ansi8_head e v H) as (b & r & -> & Hb). exact (Forall_inv Hd Hb).
  - intros d' n Hd _ _. rewrite <- (firstn_skipn n d') in Hd. apply Forall_app in Hd. tauto.
Qed.
Lemma wf_c1 : forall a7 d l, well_formed d -> tokens_by (g_isplit a7 false) d l -> tokens_by (g_isplit a7 true) d l.
Proof.
  intros a7 d l HN. apply (tb_agree _ _ well_formed); [| |exact HN].
  - intros d' (cps & Hs & ->) Hn. symmetry. apply gi_no8. intros e v E H. destruct (ansi8_head e v H) as (b & r & -> & Hb).
    destruct cps as [|c cps]; [destruct (Hn eq_refl)|]. inversion Hs as [|? ? Hc _]; subst. rewrite encode_cons in E. destruct (utf8_shape c Hc) as (b' & s & Eu & HB & _). rewrite Eu in E.
    injection E as -> _. apply HB. unfold cont. lia.
  - intros d' n (cps & Hs & ->) Hn HG. destruct cps as [|x a]; [exfalso; apply Hn; reflexivity|].
    assert (HP : splitFunc (encode (x :: a)) true = Ok (e_done n (firstn n (encode (x :: a)))) -> well_formed (skipn n (encode (x :: a)))).
    { intros HS. destruct (g_cut x a Hs) as (s & a2 & E & _ & H3). rewrite H3 in HS. injection HS as HS _. apply Nat2Z.inj in HS. subst n. rewrite E, skipn_encode. exists a2.
      split; [rewrite E in Hs; apply Forall_app in Hs; tauto|reflexivity]. }
    destruct a7; [|exact (HP HG)]. destruct (ansi7_ex (encode (x :: a))) as [(e & v & E & H)|H].
    + rewrite E, (gi_7 false e v true H) in HG. injection HG as HG _. apply Nat2Z.inj in HG. subst n.
      destruct (ansi7_cps e v _ H Hs E) as (c1 & c2 & E2 & -> & ->). rewrite E, skipn_app, skipn_all, Nat.sub_diag. cbn [skipn app]. exists c2.
      split; [rewrite E2 in Hs; apply Forall_app in Hs; tauto|reflexivity].
    + rewrite (gi_no7 false _ true H) in HG. exact (HP HG).
Qed.

(** ** Sequences in text *)
Section After.
  Variables (z : bytes) (vz : N).
  Hypothesis LZ : graphemes_lookup z = Ok (vz, 1%nat).
  Definition stops (last : N) : Prop := forall ll ri i, g_rules vz last ll ri i = GBreak.

  Lemma z_nonnil : z <> [].
  Proof. intros ->. discriminate. Qed.
  Lemma loop_after : forall cs n n' st, scalars cs -> (length (encode cs) < n)%nat -> (length (encode cs ++ z) < n')%nat -> stops (fold_left (fun _ c => P c) cs (gs_current st)) ->
    eloop GE n' (encode cs ++ z) true st = eloop GE n (encode cs) true st.
  Proof.
    induction cs as [|c cs IH]; intros n n' st Hs Hn Hn' HB; (destruct n as [|n]; [lia|]); (destruct n' as [|n']; [lia|]).
    - cbn [encode map concat app eloop]. rewrite (is_nil_false _ z_nonnil). change (e_lk GE) with graphemes_lookup. rewrite LZ. cbn [bind Nat.eqb is_nil].
      change (e_rules GE) with g_erules. unfold g_erules. cbn [fold_left] in HB. rewrite HB. reflexivity.
    - inversion Hs as [|? ? Hc Hs']; subst. cbn [eloop]. change (e_lk GE) with graphemes_lookup.
      rewrite encode_cons, <- app_assoc. rewrite (g_lookup_cp c (encode cs ++ z) Hc), (g_lookup_cp c (encode cs) Hc). cbn [bind].
      pose proof (utf8_len c) as HU. rewrite (proj2 (Nat.eqb_neq _ _) HU).
      rewrite !is_nil_false by (destruct (utf8 c); [cbn in HU; lia|discriminate]). change (e_rules GE) with g_erules. unfold g_erules.
      destruct (g_rules _ _ _ _ _) as [ri' i'|]; [|reflexivity]. cbn [bind].
      rewrite !slice_from_ok by (rewrite app_length; lia). cbn [bind]. rewrite !skipn_here.
      rewrite encode_cons, app_length in Hn. rewrite encode_cons, <- app_assoc, app_length in Hn'. rewrite (IH n n'); [reflexivity|exact Hs'|lia|lia|exact HB].
  Qed.
  Lemma split_after : forall x a, scalars (x :: a) -> stops (P (last (x :: a) 0)) -> splitFunc (encode (x :: a) ++ z) true = splitFunc (encode (x :: a)) true.
  Proof.
    intros x a Hs HB. rewrite <- !g_split_engine. unfold esplit. change (e_lk0 GE) with graphemes_lookup.
    assert (Hx : scalar x) by exact (Forall_inv Hs). assert (Ha : scalars a) by exact (Forall_inv_tail Hs). rewrite encode_cons, <- app_assoc.
    rewrite (g_lookup_cp x (encode a ++ z) Hx), (g_lookup_cp x (encode a) Hx). cbn [bind]. pose proof (utf8_len x) as HU. rewrite (proj2 (Nat.eqb_neq _ _) HU).
    rewrite !is_nil_false by (destruct (utf8 x); [cbn in HU; lia|discriminate]). rewrite !slice_from_ok by (rewrite app_length; lia). cbn [bind].
    rewrite !skipn_here.
    rewrite (loop_after a (g_fuel (utf8 x ++ encode a)) (g_fuel (utf8 x ++ encode a ++ z)) (e_init GE (P x)) Ha).
    - destruct (eloop_total GE g_mu g_lk g_rules_ok (g_fuel (utf8 x ++ encode a)) (encode a) (e_init GE (P x))) as ((n & Hn & Hle) & _).
      { unfold g_mu, g_fuel. rewrite app_length. lia. }
      rewrite Hn. cbn [bind]. rewrite !slice_to_ok by (rewrite !app_length; lia). cbn [bind]. rewrite (app_assoc (utf8 x)), firstn_app.
      replace (length (utf8 x) + n - length (utf8 x ++ encode a))%nat with 0%nat by (rewrite app_length; lia). cbn [firstn]. rewrite app_nil_r. reflexivity.
    - unfold g_fuel. rewrite app_length. lia.
    - unfold g_fuel. rewrite !app_length. lia.
    - cbn [e_init GE gs_current]. enough (E : forall a x, fold_left (fun _ c => P c) a (P x) = P (last (x :: a) 0)) by (rewrite E; exact HB).
      clear. induction a as [|y a IH]; intros x; [reflexivity|]. cbn [fold_left]. rewrite IH. reflexivity.
  Qed.
  Lemma tokens_after : forall a7 a8 lz, tokens_by (g_isplit a7 a8) z lz -> forall n cps lu, (length cps < n)%nat -> scalars cps -> (a7 = true -> ~ In ESC cps) ->
    (cps <> [] -> stops (P (last cps 0))) -> tokens_by (g_isplit a7 a8) (encode cps) lu -> tokens_by (g_isplit a7 a8) (encode cps ++ z) (lu ++ lz).
  Proof.
    intros a7 a8 lz HZ. induction n as [|n IH]; intros cps lu Hn Hs HE HB HU; [lia|]. destruct cps as [|x a].
    { pose proof (tb_fun _ _ _ HU [] (by_nil _)) as ->. exact HZ. }
    destruct (g_cut x a Hs) as (s & a2 & E & Hsn & H3). assert (Hx : scalar x) by exact (Forall_inv Hs).
    destruct (utf8_shape x Hx) as (b & r & Eu & HC & _ & HA).
    assert (HG : forall y, g_isplit a7 a8 (encode (x :: a) ++ y) true = splitFunc (encode (x :: a) ++ y) true).
    { intros y. rewrite encode_cons, Eu. cbn [app]. apply gi_plain.
      - intros H7 ->. destruct (HA ltac:(reflexivity)) as [-> _]. apply (HE H7). left. reflexivity.
      - intros _ Hr. apply HC. unfold cont. lia. }
    assert (Hs2 : scalars a2). { rewrite E in Hs. apply Forall_app in Hs. tauto. }
    assert (Hsn' : encode s <> []). { intros Hx'. apply encode_nil_inv in Hx'. auto. }
    destruct (tb_ex a7 a8 (encode a2)) as (l2 & HL2).
    assert (HT : tokens_by (g_isplit a7 a8) (encode (x :: a)) (encode s :: l2)).
    { specialize (HG []). rewrite app_nil_r in HG. rewrite E in HG, H3 |- *. rewrite encode_app in HG, H3 |- *. apply tb_app; [exact Hsn'|rewrite HG; exact H3|exact HL2]. }
    rewrite (tb_fun _ _ _ HU _ HT). cbn [app]. specialize (HG z). rewrite (split_after x a Hs (HB ltac:(discriminate))), H3 in HG.
    rewrite E in HG |- *. rewrite encode_app, <- app_assoc in HG |- *. apply tb_app; [exact Hsn'|exact HG|]. apply IH; auto.
    - apply (f_equal (@length N)) in E. rewrite app_length in E. cbn [length] in E, Hn. destruct s; [congruence|]. cbn [length] in E. lia.
    - intros H7 Hin. apply (HE H7). rewrite E. apply in_or_app. auto.
    - intros Ha2. specialize (HB ltac:(discriminate)). rewrite E in HB. clear - HB Ha2. destruct (exists_last Ha2) as (q & y & ->). rewrite app_assoc, last_last in HB. rewrite last_last. exact HB.
  Qed.
End After.

Lemma esc_lookup : forall s, graphemes_lookup (ESC :: s) = Ok (_Control, 1%nat).
Proof. intros s. destruct (ascii_lookup ESC s ltac:(reflexivity)) as (v & H & HA). rewrite H. specialize (HA []). vm_compute in HA. injection HA as <-. reflexivity. Qed.
Lemma esc_stops : forall last, stops _Control last.
Proof.
  intros last ll ri i. unfold g_rules. destruct (_ =? 0); [reflexivity|]. change (is _Control _LF) with false. cbn [andb].
  rewrite is_lor_l. change (is _Control (N.lor _Control (N.lor _CR _LF))) with true. reflexivity.
Qed.
Lemma c1_lookup : forall b s, 0x80 <= b <= 0x9F -> graphemes_lookup (b :: s) = Ok (0, 1%nat).
Proof.
  intros b s H. unfold graphemes_lookup, lookup, byte_at. cbn [nth_error bind]. rewrite (proj2 (N.ltb_ge b 0x80)) by lia. rewrite (proj2 (N.ltb_lt b 0xC2)) by lia. reflexivity.
Qed.
Lemma c1_stops : forall x, gc GCB_Prepend x = false -> stops 0 (P x).
Proof.
  intros x H ll ri i. rewrite (gc_is GCB_Prepend x) in H by discriminate. change (gcb_bit GCB_Prepend) with _Prepend in H. unfold g_rules.
  destruct (_ =? 0); [reflexivity|]. change (is 0 _) with false. cbn [andb]. rewrite H.
  destruct (is (N.lor 0 (P x)) _); [reflexivity|]. change (N.land 0 (P x)) with 0. change (is 0 _) with false. destruct i; reflexivity.
Qed.

(** ** What a client sees *)
Notation run a7 a8 fuel d := (tokens graphemes_api fuel (setAnsi (FromBytes d) a7 a8)).

Lemma seq7 : forall a8 e v fuel, ansi7 e v -> (length (e ++ v) < fuel)%nat -> exists l, run true a8 fuel v = Ok l /\ run true a8 fuel (e ++ v) = Ok (e :: l).
Proof.
  intros a8 e v fuel H Hf. destruct (tb_ex true a8 v) as (l & Hl). exists l. split; [apply tb_tokens; [exact Hl|rewrite app_length in Hf; lia]|].
  apply tb_tokens; [|exact Hf]. apply tb_app; [exact (ansi7_nonnil e v H)|apply gi_7; exact H|exact Hl].
Qed.
Lemma seq8 : forall a7 e v fuel, ansi8 e v -> (length (e ++ v) < fuel)%nat -> exists l, run a7 true fuel v = Ok l /\ run a7 true fuel (e ++ v) = Ok (e :: l).
Proof.
  intros a7 e v fuel H Hf. destruct (tb_ex a7 true v) as (l & Hl). exists l. split; [apply tb_tokens; [exact Hl|rewrite app_length in Hf; lia]|].
  apply tb_tokens; [|exact Hf]. apply tb_app; [exact (ansi8_nonnil e v H)|apply gi_8; exact H|exact Hl].
Qed.

Lemma tb_head : forall f d t l, tokens_by f d (t :: l) -> exists n, f d true = Ok (e_done n (firstn n d)) /\ t = firstn n d /\ d <> [].
Proof. intros f d t l H. inversion H as [|d' n l' Hs Hn HT]; subst. exists n. split; [exact Hs|]. split; [reflexivity|]. intros ->. cbn in Hn. lia. Qed.
Lemma tb_same : forall f g d t l, well_behaved g -> tokens_by f d (t :: l) -> f d true = g d true -> exists l0, tokens_by g d (t :: l0).
Proof.
  intros f g d t l WB H E. destruct (tb_head _ _ _ _ H) as (n & Hs & -> & Hd). destruct (tb_ex0 g WB (S (length d)) d ltac:(lia)) as (l' & Hl').
  destruct l' as [|t' l']. { inversion Hl'; subst. congruence. }
  destruct (tb_head _ _ _ _ Hl') as (n' & Hs' & -> & _). rewrite E, Hs' in Hs. injection Hs as Hs _. apply Nat2Z.inj in Hs. subst n'. eauto.
Qed.

Lemma at_start7 : forall a8 d fuel l1 t l2, (length d < fuel)%nat -> run true a8 fuel d = Ok (l1 ++ t :: l2) ->
  (forall e v, concat (t :: l2) = e ++ v -> ansi7 e v -> t = e)
  /\ ((forall e v, concat (t :: l2) = e ++ v -> ~ ansi7 e v) -> exists l0, run false a8 fuel (concat (t :: l2)) = Ok (t :: l0)).
Proof.
  intros a8 d fuel l1 t l2 Hf H. apply tokens_tb in H; [|exact Hf]. destruct (tb_suffix _ _ _ H l1 (t :: l2) eq_refl) as (Ed & HT). split.
  - intros e v E HA. rewrite E in HT. destruct (tb_head _ _ _ _ HT) as (n & Hs & -> & _). rewrite (gi_7 a8 e v true HA) in Hs. injection Hs as _ Hs. auto.
  - intros HN. destruct (tb_same _ (g_isplit false a8) _ _ _ (gi_wb _ _) HT (gi_no7 a8 _ true HN)) as (l0 & Hl0). exists l0. apply tb_tokens; [exact Hl0|]. rewrite Ed, app_length in Hf. lia.
Qed.
Lemma at_start8 : forall a7 d fuel l1 t l2, (length d < fuel)%nat -> run a7 true fuel d = Ok (l1 ++ t :: l2) ->
  (forall e v, concat (t :: l2) = e ++ v -> ansi8 e v -> t = e)
  /\ ((forall e v, concat (t :: l2) = e ++ v -> ~ ansi8 e v) -> exists l0, run a7 false fuel (concat (t :: l2)) = Ok (t :: l0)).
Proof.
  intros a7 d fuel l1 t l2 Hf H. apply tokens_tb in H; [|exact Hf]. destruct (tb_suffix _ _ _ H l1 (t :: l2) eq_refl) as (Ed & HT). split.
  - intros e v E HA. rewrite E in HT. destruct (tb_head _ _ _ _ HT) as (n & Hs & -> & _). rewrite (gi_8 a7 e v true HA) in Hs. injection Hs as _ Hs. auto.
  - intros HN. destruct (tb_same _ (g_isplit a7 false) _ _ _ (gi_wb _ _) HT (gi_no8 a7 _ true HN)) as (l0 & Hl0). exists l0. apply tb_tokens; [exact Hl0|]. rewrite Ed, app_length in Hf. lia.
Qed.

Lemma flag7_idle : forall a8 d fuel, ~ In ESC d -> (length d < fuel)%nat -> run true a8 fuel d = run false a8 fuel d.
Proof. intros a8 d fuel HN Hf. destruct (tb_ex false a8 d) as (l & Hl). rewrite (tb_tokens _ _ _ _ _ Hl Hf). apply tb_tokens; [|exact Hf]. apply no_esc; auto. Qed.
Lemma flag8_idle : forall a7 d fuel, (well_formed d \/ forall b, In b d -> ~ 0x80 <= b <= 0x9F) -> (length d < fuel)%nat -> run a7 true fuel d = run a7 false fuel d.
Proof.
  intros a7 d fuel HN Hf. destruct (tb_ex a7 false d) as (l & Hl). rewrite (tb_tokens _ _ _ _ _ Hl Hf). apply tb_tokens; [|exact Hf].
  destruct HN as [HN|HN]; [apply wf_c1; auto|]. apply no_c1; [|exact Hl]. apply Forall_forall. exact HN.
Qed.

Lemma cut7 : forall a8 cps e v fuel, scalars cps -> ~ In ESC cps -> ansi7 e v -> (length (encode cps ++ e ++ v) < fuel)%nat -> exists lu lv,
  run true a8 fuel (encode cps) = Ok lu /\ run true a8 fuel v = Ok lv /\ run true a8 fuel (encode cps ++ e ++ v) = Ok (lu ++ e :: lv).
Proof.
  intros a8 cps e v fuel Hs HE HA Hf. destruct (tb_ex true a8 (encode cps)) as (lu & Hu). destruct (tb_ex true a8 v) as (lv & Hv). exists lu, lv.
  split; [apply tb_tokens; [exact Hu|rewrite !app_length in Hf; lia]|]. split; [apply tb_tokens; [exact Hv|rewrite !app_length in Hf; lia]|]. apply tb_tokens; [|exact Hf].
  assert (LZ : graphemes_lookup (e ++ v) = Ok (_Control, 1%nat)). { destruct (ansi7_esc e v HA) as (r & ->). apply esc_lookup. }
  apply (tokens_after (e ++ v) _Control LZ true a8 (e :: lv)) with (n := S (length cps)); auto.
  - apply tb_app; [exact (ansi7_nonnil e v HA)|apply gi_7; exact HA|exact Hv].
  - intros _. apply esc_stops.
Qed.
Lemma cut8 : forall a7 cps e v fuel, scalars cps -> (a7 = true -> ~ In ESC cps) -> (forall p c, cps = p ++ [c] -> GCB c <> GCB_Prepend) -> ansi8 e v ->
  (length (encode cps ++ e ++ v) < fuel)%nat -> exists lu lv,
  run a7 true fuel (encode cps) = Ok lu /\ run a7 true fuel v = Ok lv /\ run a7 true fuel (encode cps ++ e ++ v) = Ok (lu ++ e :: lv).
Proof.
  intros a7 cps e v fuel Hs HE HP HA Hf. destruct (tb_ex a7 true (encode cps)) as (lu & Hu). destruct (tb_ex a7 true v) as (lv & Hv). exists lu, lv.
  split; [apply tb_tokens; [exact Hu|rewrite !app_length in Hf; lia]|]. split; [apply tb_tokens; [exact Hv|rewrite !app_length in Hf; lia]|]. apply tb_tokens; [|exact Hf].
  assert (LZ : graphemes_lookup (e ++ v) = Ok (0, 1%nat)). { destruct (ansi8_head e v HA) as (b & r & -> & Hb). apply c1_lookup. exact Hb. }
  apply (tokens_after (e ++ v) 0 LZ a7 true (e :: lv)) with (n := S (length cps)); auto.
  - apply tb_app; [exact (ansi8_nonnil e v HA)|apply gi_8; exact HA|exact Hv].
  - intros Hn. destruct (exists_last Hn) as (p & c & E). rewrite E, last_last. apply c1_stops. specialize (HP p c E). unfold gc.
    destruct (gcb_beq (GCB c) GCB_Prepend) eqn:EB; [|reflexivity]. exfalso. apply HP. revert EB. destruct (GCB c); cbn; congruence.
Qed.
