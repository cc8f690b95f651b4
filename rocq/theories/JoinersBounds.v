(** words with Joiners: boundaries of the tokens. *)
From Verif Require Import Base ListFacts Trie Engine Lk SpecUtf8 SpecUcd SpecLookup SpecIter SpecApi SpecRules SpecWords SpecJoined SpecNest SpecJoiners
  RuleFacts SegFacts BitFacts WordFacts Conform UcdFacts UcdWords TableFacts TableWords WordsEngine WordsIter WordsConform JoinedFacts DecodeFacts Utf8 JoinersConform JoinersSim
  Drive ApiFacts ApiInst ConformApi NestFacts JoinersFacts TextFacts.
From Verif Require Words.
Import Words.

Definition mid_of (j : option Joiners) (r : N) : bool := match j with Some jj => listed (Middle jj) r | None => false end.
Definition lead_of (j : option Joiners) (r : N) : bool := match j with Some jj => listed (Leading jj) r | None => false end.

Lemma contain_listed : forall l r, runesContain l r = listed l r.
Proof. intros l r. induction l as [|x l IH]; [reflexivity|]. cbn [runesContain listed existsb]. unfold listed in IH. rewrite IH, N.eqb_sym. destruct (r =? x)%N; reflexivity. Qed.
Lemma listed_in : forall l r, listed l r = true <-> In r l.
Proof. intros l r. unfold listed. rewrite existsb_exists. split; [intros (x & H & E); apply N.eqb_eq in E; subst; exact H|intros H; exists r; split; [exact H|apply N.eqb_refl]]. Qed.

Lemma lkL_cp : forall j x rest, scalar x -> e_lk0 (WE j) (utf8 x ++ rest) = Ok (L (lead_of j) x, length (utf8 x)).
Proof.
  intros j x rest Hx. change (e_lk0 (WE j)) with (lkL j). unfold lkL. rewrite w_lookup_cp by exact Hx. cbn [bind].
  destruct (Nat.eqb_spec (length (utf8 x)) 0) as [E|_]; [destruct (utf8_len x E)|]. unfold leadingBits, L, lead_of. destruct j as [jj|]; [|reflexivity].
  rewrite decode_utf8 by exact Hx. cbn [fst]. rewrite contain_listed. reflexivity.
Qed.
Lemma lkM_cp : forall j x rest, scalar x -> e_lk (WE j) (utf8 x ++ rest) = Ok (M (mid_of j) x, length (utf8 x)).
Proof.
  intros j x rest Hx. change (e_lk (WE j)) with (lkM j). unfold lkM. rewrite w_lookup_cp by exact Hx. cbn [bind].
  destruct (Nat.eqb_spec (length (utf8 x)) 0) as [E|_]; [destruct (utf8_len x E)|]. unfold middleBits, M, mid_of. destruct j as [jj|]; [|reflexivity].
  rewrite decode_utf8 by exact Hx. cbn [fst]. rewrite contain_listed. reflexivity.
Qed.
Lemma wj_FU : forall j data v w, e_lk0 (WE j) data = Ok (v, w) -> w <> 0 -> w <= length data ->
  w_mu (e_init (WE j) v) (skipn w data) < w_fuel data.
Proof. intros j data v w _ Hw Hle. unfold w_mu, w_fuel. rewrite skipn_length. lia. Qed.

Lemma j_split : forall j b x a, scalars (b ++ x :: a) -> (b = [] \/ D_j (mid_of j) (lead_of j) b (x :: a) Break) ->
  exists s a2, x :: a = s ++ a2 /\ s <> [] /\ joinersSplitFunc j (encode (x :: a)) true = Ok (e_done (length (encode s)) (encode s))
    /\ (forall p q, s = p ++ q -> p <> [] -> q <> [] -> D_j (mid_of j) (lead_of j) (b ++ p) (q ++ a2) Join) /\ (a2 = [] \/ D_j (mid_of j) (lead_of j) (b ++ s) a2 Break).
Proof.
  intros j. exact (conform_split (WE j) w_mu (w_rules_ok j) w_fuel (wj_FU j) (joinersSplitFunc j) (w_split_engine j) (L (lead_of j)) (M (mid_of j)) (lkL_cp j) (lkM_cp j)
    (D_j (mid_of j) (lead_of j)) (j_Sim (mid_of j) (lead_of j)) (j_INIT (mid_of j) (lead_of j)) (j_STEP (mid_of j) (lead_of j))).
Qed.

Lemma j_chop : forall j cps, scalars cps -> exists segs, chop (joinersSplitFunc j) (S (length (encode cps))) (encode cps) = Ok (map encode segs)
  /\ concat segs = cps /\ Forall (fun s => s <> []) segs
  /\ forall p q, p <> [] -> q <> [] -> cps = p ++ q ->
       (cut_at segs p /\ joined_decides (mid_of j) p q Break) \/ (~ cut_at segs p /\ (nolead (lead_of j) -> joined_decides (mid_of j) p q Join)).
Proof.
  intros j cps Hs. exact (conform_chop _ _ (j_split j) (S (length (encode cps))) [] cps Hs ltac:(lia) ltac:(auto)).
Qed.

(** ** Joined boundaries are word boundaries *)
Lemma joined_word : forall mid b x y a, joined_decides mid (b ++ [x]) (y :: a) Break -> word_decides (b ++ [x]) (y :: a) Break.
Proof.
  intros mid b x y a H. pose proof (joined_fun _ _ _ _ _ H (m_spec mid b x y a)) as E. cbv zeta in E. pose proof (w_spec b x y a) as W. cbv zeta in W.
  replace (vdec (P x) _ _ _ (P y) _) with Break in W; [exact W|]. rewrite E. unfold vdec in *.
  assert (E1 : vdec1 (M mid x) (M mid y) = vdec1 (P x) (P y)) by (unfold vdec1; rewrite !M_other by reflexivity; reflexivity).
  rewrite E1 in E |- *. destruct (vdec1 (P x) (P y)) as [o|] eqn:EV; [reflexivity|].
  assert (HI : is (P y) _Ignore = false). { unfold vdec1 in EV. repeat match type of EV with (if ?c then _ else _) = _ => destruct c eqn:?; try discriminate end. reflexivity. }
  assert (HN : line_end y = false). { rewrite c_LE. unfold vdec1 in EV. repeat match type of EV with (if ?c then _ else _) = _ => destruct c eqn:?; try discriminate end. reflexivity. }
  rewrite <- (after_red_v y a HN) in *. rewrite <- joined_dec in E |- * by exact HI.
  destruct (vdec2 (val _) _ _ (P y) _); [discriminate|]. destruct (extra _ _ _ _ _); [discriminate|reflexivity].
Qed.

(** What comes before a space that follows a letter or digit does not matter to what comes after the space. *)
Lemma wtrack_reset : forall x b1 b, is (P x) _Ignore = false -> is (P x) _RegionalIndicator = false ->
  let t := wtrack (b1 ++ x :: b) in let t' := wtrack (x :: b) in
  w_l t = w_l t' /\ w_lx t = w_lx t' /\ w_run t = w_run t' /\ (w_ll t = w_ll t' \/ w_lx t = Some x).
Proof.
  intros x b1 b HI HR. induction b as [|c b IH] using rev_ind; cbv zeta.
  - rewrite wtrack_snoc. change (wtrack [x]) with (wstep wtr0 x). unfold wstep. unfold drops. rewrite c_IG, HI. cbn [andb w_l w_lx w_ll w_run].
    unfold wri. change (wc WB_Regional_Indicator x) with (spred RI x). rewrite c_RI, HR. auto.
  - cbv zeta in IH. destruct IH as (H1 & H2 & H3 & H4).
    replace (b1 ++ x :: b ++ [c]) with ((b1 ++ x :: b) ++ [c]) by (rewrite <- app_assoc; reflexivity). change (x :: b ++ [c]) with ((x :: b) ++ [c]).
    rewrite !wtrack_snoc. unfold wstep. rewrite H1. destruct (drops _ _ _ _); cbn [w_l w_lx w_ll w_run]; rewrite H2 in H4; rewrite ?H2, ?H3; auto 6.
Qed.

Definition space : N := 0x20%N.
Lemma P_space : P space = _WSegSpace. Proof. reflexivity. Qed.

Lemma word_after_space : forall b1 b a, a <> [] -> word_decides (space :: b) a Break -> word_decides (b1 ++ space :: b) a Break.
Proof.
  intros b1 b a Ha H. destruct a as [|y a]; [congruence|].
  destruct (wtrack_reset space b1 b eq_refl eq_refl) as (H1 & H2 & H3 & H4). cbv zeta in *.
  assert (EB : exists b2 x, space :: b = b2 ++ [x]).
  { destruct (@exists_last _ (space :: b)) as (b2 & x & E); [discriminate|]. eauto. }
  destruct EB as (b2 & x & EB). rewrite EB in *. rewrite app_assoc.
  pose proof (w_spec b2 x y a) as W. pose proof (w_spec (b1 ++ b2) x y a) as W'. cbv zeta in W, W'.
  pose proof (word_like_fun _ _ _ _ _ _ H W) as E. rewrite <- app_assoc in W'. rewrite H2, H3 in W'.
  replace (vdec (P x) _ _ _ (P y) _) with Break in W'; [rewrite app_assoc in W'; exact W'|].
  destruct H4 as [H4|H4]; [rewrite H4; exact E|]. rewrite <- H2, H4 in E |- *. change (val (Some space)) with (P space) in *. rewrite P_space in *.
  rewrite E. unfold vdec, vdec2. change (is _WSegSpace _ML) with false. change (is _WSegSpace _DoubleQuote) with false. change (is _WSegSpace _MN) with false. reflexivity.
Qed.

(** ** The Iterator, whatever the joiners *)
Definition alnum (c : N) : Prop := isASCIIAlphanumeric c = true.

Lemma utf8_head : forall x, scalar x -> (alnum x /\ utf8 x = [x]) \/ (exists b s, utf8 x = b :: s /\ isASCIIAlphanumeric b = false /\ (b = 0x20%N -> x = space)).
Proof.
  intros x Hx. unfold utf8. destruct (N.ltb_spec x 0x80).
  - destruct (isASCIIAlphanumeric x) eqn:E; [left; auto|]. right. exists x, []. auto.
  - right. assert (H2 : forall b s r, (0x80 <= b)%N -> r = b :: s -> exists b s, r = b :: s /\ isASCIIAlphanumeric b = false /\ (b = 0x20%N -> x = space)).
    { intros b s r Hb ->. exists b, s. split; [reflexivity|]. split; [|lia]. unfold isASCIIAlphanumeric. rewrite !orb_false_iff, !andb_false_iff, !N.leb_gt. lia. }
    destruct (N.ltb_spec x 0x800); [|destruct (N.ltb_spec x 0x10000)]; (eapply H2; [|reflexivity]); (eapply N.le_trans; [|apply N.le_add_r]); lia.
Qed.

Lemma run_cps : forall a, scalars a -> exists s a2, a = s ++ a2 /\ Forall alnum s /\ alnum_run (encode a) = length (encode s).
Proof.
  induction a as [|x a IH]; intros Hs; [exists [], []; auto|]. inversion Hs; subst. destruct (utf8_head x) as [(Hx & E)|(b & s & E & Hb & _)]; [assumption| |].
  - destruct (IH ltac:(assumption)) as (s & a2 & -> & HF & HE). exists (x :: s), a2. split; [reflexivity|]. split; [constructor; auto|].
    rewrite !encode_cons, E. cbn [app alnum_run length]. red in Hx. rewrite Hx, HE. reflexivity.
  - exists [], (x :: a). split; [reflexivity|]. split; [constructor|]. rewrite encode_cons, E. cbn [app alnum_run]. rewrite Hb. reflexivity.
Qed.

Lemma hot_cps : forall x a k, scalars (x :: a) -> hot_run (encode (x :: a)) = Some k ->
  exists s a2, x :: a = s ++ a2 /\ s <> [] /\ Forall alnum s /\ k = length (encode s) /\ (a2 = [] \/ exists r, a2 = space :: r).
Proof.
  intros x a k Hs Hh. inversion Hs; subst. rewrite encode_cons in Hh. destruct (utf8_head x) as [(Hx & E)|(b & s & E & Hb & _)]; [assumption| |];
    rewrite E in Hh; cbn [app hot_run] in Hh; [|rewrite Hb in Hh; discriminate]. unfold alnum in Hx. rewrite Hx in Hh. cbn [skipn] in Hh.
  destruct (run_cps a ltac:(assumption)) as (s & a2 & -> & HF & HE). exists (x :: s), a2. split; [reflexivity|]. split; [discriminate|]. split; [constructor; auto|].
  rewrite HE, encode_app, skipn_app, skipn_all, Nat.sub_diag in Hh. cbn [skipn app] in Hh. rewrite encode_cons, E.
  destruct a2 as [|y a2]; [injection Hh as <-; auto|]. unfold scalars in *. match goal with H : Forall scalar (s ++ _) |- _ => apply Forall_app in H; destruct H as [_ H]; inversion H; subst end.
  rewrite encode_cons in Hh. destruct (utf8_head y) as [(Hy & EY)|(b & s' & EY & Hb & Hsp)]; [assumption| |]; rewrite EY in Hh; cbn [app] in Hh.
  - destruct (N.eqb_spec y 0x20); [subst y; discriminate|discriminate].
  - destruct (N.eqb_spec b 0x20); [|discriminate]. injection Hh as <-. split; [reflexivity|]. right. rewrite (Hsp e). eauto.
Qed.

Definition D_i (mid : N -> bool) (b a : text) (o : op) : Prop :=
  match o with
  | Break => exists b1 b2, b = b1 ++ b2 /\ (b1 = [] \/ ((exists p c, b1 = p ++ [c] /\ alnum c) /\ exists r, b2 ++ a = space :: r))
      /\ (b2 = [] \/ joined_decides mid b2 a Break)
  | Join => True
  end.

Lemma i_split : forall j b x a, scalars (b ++ x :: a) -> (b = [] \/ D_i (mid_of j) b (x :: a) Break) ->
  exists s a2, x :: a = s ++ a2 /\ s <> [] /\ w_isplit (joinersSplitFunc j) (encode (x :: a)) true = Ok (e_done (length (encode s)) (encode s))
    /\ (forall p q, s = p ++ q -> p <> [] -> q <> [] -> D_i (mid_of j) (b ++ p) (q ++ a2) Join) /\ (a2 = [] \/ D_i (mid_of j) (b ++ s) a2 Break).
Proof.
  intros j b x a Hs Hb. unfold w_isplit. assert (Hsa : scalars (x :: a)) by (unfold scalars in *; apply Forall_app in Hs; apply Hs).
  destruct (hot_run (encode (x :: a))) as [k|] eqn:EH.
  - destruct (hot_cps x a k Hsa EH) as (s & a2 & E & Hn & HF & -> & Ha2). exists s, a2. split; [exact E|]. split; [exact Hn|]. split.
    { rewrite E, encode_app, firstn_app, firstn_all, Nat.sub_diag, app_nil_r. reflexivity. }
    split; [intros; exact I|]. destruct Ha2 as [->|(r & ->)]; [left; reflexivity|]. right. exists (b ++ s), []. rewrite app_nil_r. split; [reflexivity|]. split; [|left; reflexivity].
    right. split; [|exists r; reflexivity]. destruct (exists_last Hn) as (p & c & ->). exists (b ++ p), c. split; [apply app_assoc|]. apply Forall_app in HF. destruct HF as [_ HF]. exact (Forall_inv HF).
  - assert (HB : exists b1 b2, b = b1 ++ b2 /\ (b1 = [] \/ ((exists p c, b1 = p ++ [c] /\ alnum c) /\ exists r, b2 ++ x :: a = space :: r))
      /\ (b2 = [] \/ joined_decides (mid_of j) b2 (x :: a) Break)).
    { destruct Hb as [->|H]; [exists [], []; auto|exact H]. }
    destruct HB as (b1 & b2 & -> & H1 & H2). rewrite <- app_assoc in Hs.
    destruct (j_split j b2 x a) as (s & a2 & E & Hn & ES & HJ & HBr); [unfold scalars in *; apply Forall_app in Hs; apply Hs|exact H2|].
    exists s, a2. split; [exact E|]. split; [exact Hn|]. split; [exact ES|]. split; [intros; exact I|]. destruct HBr as [->|HBr]; [left; reflexivity|]. right.
    exists b1, (b2 ++ s). split; [rewrite app_assoc; reflexivity|]. split; [|right; exact HBr]. rewrite <- app_assoc, <- E. exact H1.
Qed.

Lemma P_alnum : forall c, alnum c -> P c = 0x1%N \/ P c = 0x8000%N.
Proof.
  intros c H. unfold alnum, isASCIIAlphanumeric in H. rewrite !orb_true_iff, !andb_true_iff, !N.leb_le in H.
  assert (HC : In c (map N.of_nat (seq 0 128))). { rewrite <- (N2Nat.id c). apply in_map. apply in_seq. lia. }
  assert (HA : forallb (fun c => implb (isASCIIAlphanumeric c) ((P c =? 0x1) || (P c =? 0x8000))%N) (map N.of_nat (seq 0 128)) = true) by (vm_compute; reflexivity).
  rewrite forallb_forall in HA. specialize (HA c HC). replace (isASCIIAlphanumeric c) with true in HA.
  - cbn [implb] in HA. apply orb_true_iff in HA. rewrite !N.eqb_eq in HA. exact HA.
  - symmetry. unfold isASCIIAlphanumeric. rewrite !orb_true_iff, !andb_true_iff, !N.leb_le. exact H.
Qed.

Lemma word_alnum_space : forall p c r, alnum c -> word_decides (p ++ [c]) (space :: r) Break.
Proof.
  intros p c r Hc. pose proof (w_spec p c space r) as W. cbv zeta in W. rewrite P_space in W.
  match type of W with word_decides _ _ ?o => replace o with Break in W; [exact W|] end.
  destruct (P_alnum c Hc) as [E|E]; rewrite E; unfold vdec, vdec1, vdec2; change (is _WSegSpace _AHLetter) with false; change (is _WSegSpace _ALetter) with false; cbn; rewrite ?andb_false_r; reflexivity.
Qed.

Lemma i_word : forall mid b a, b <> [] -> a <> [] -> D_i mid b a Break -> word_decides b a Break.
Proof.
  intros mid b a Hb Ha (b1 & b2 & -> & H1 & H2).
  assert (JW : b2 <> [] -> word_decides b2 a Break).
  { intros Hn. destruct H2 as [->|H2]; [congruence|]. destruct a as [|y a]; [congruence|]. destruct (exists_last Hn) as (p & c & ->). exact (joined_word _ _ _ _ _ H2). }
  destruct H1 as [->|((p & c & -> & Hc) & r & Hr)]; [cbn [app] in *; auto|].
  destruct b2 as [|z b2].
  - rewrite app_nil_r. cbn [app] in Hr. subst a. apply word_alnum_space. exact Hc.
  - cbn [app] in Hr. injection Hr as -> _. apply word_after_space; [exact Ha|]. apply JW. discriminate.
Qed.

Lemma i_chop : forall j cps, scalars cps -> exists segs, chop (w_isplit (joinersSplitFunc j)) (S (length (encode cps))) (encode cps) = Ok (map encode segs)
  /\ concat segs = cps /\ Forall (fun s => s <> []) segs /\ forall p q, p <> [] -> q <> [] -> cps = p ++ q -> cut_at segs p -> word_decides p q Break.
Proof.
  intros j cps Hs. destruct (conform_chop _ _ (i_split j) (S (length (encode cps))) [] cps Hs ltac:(lia) ltac:(auto)) as (segs & H1 & H2 & H3 & H4).
  exists segs. split; [exact H1|]. split; [exact H2|]. split; [exact H3|]. intros p q Hp Hq E HC. destruct (H4 p q Hp Hq E) as [[_ H]|[H _]]; [|contradiction]. exact (i_word _ _ _ Hp Hq H).
Qed.

Lemma joiner_tokens : forall j d fuel l, length d < fuel -> chop (w_isplit (joinersSplitFunc j)) (S (length d)) d = Ok l ->
  tokens words_api fuel (setJoiners (FromBytes d) j) = Ok l.
Proof.
  intros j d fuel l Hf Hc.
  destruct (collect_chop (ao_next _ _ _ _ _ _ _ _ words_api_ok j) fuel (setJoiners (FromBytes d) j) (S (length d)) (eq_refl (joinersSplitFunc j))) as (l' & Hl' & Hc').
  { cbn. lia. } { cbn. lia. }
  change (chop (WordsIter.w_isplit (joinersSplitFunc j)) (S (length d)) d = Ok l') in Hc'. rewrite Hc in Hc'. injection Hc' as ->. exact Hl'.
Qed.

(** Every boundary with joiners is a boundary without. *)
Lemma joiners_coarser : forall j cps fuel, scalars cps -> length (encode cps) < fuel -> exists l l',
  tokens words_api fuel (FromBytes (encode cps)) = Ok l /\ tokens words_api fuel (setJoiners (FromBytes (encode cps)) j) = Ok l'
  /\ made_of l' l /\ forall k, boundary l' k -> boundary l k.
Proof.
  intros j cps fuel Hs Hf. destruct (w_segments cps fuel Hs Hf) as (s1 & HT & HC1 & HF1 & HB1). destruct (i_chop j cps Hs) as (s2 & HC & HC2 & HF2 & HB2).
  exists (map encode s1), (map encode s2). split; [exact HT|]. split; [exact (joiner_tokens j _ _ _ Hf HC)|].
  assert (HM : made_of (map encode s2) (map encode s1)).
  { destruct (refine s2 s1 HF1 HF2 ltac:(congruence)) as (groups & G1 & G2).
    - intros b a Hb Ha E Hcut. apply (HB1 b a Hb Ha ltac:(congruence)). apply HB2; auto. congruence.
    - exists (map (map encode) groups). rewrite <- G1, <- G2. rewrite concat_map. split; [reflexivity|]. rewrite !map_map. apply map_ext. intros l. apply concat_encode. }
  split; [exact HM|]. destruct HM as (groups & <- & <-). intros k (l1 & l2 & E & HL). apply map_eq_app in E. destruct E as (g1 & g2 & -> & <- & <-).
  exists (concat g1), (concat g2). rewrite concat_app. split; [reflexivity|]. rewrite <- HL. clear. induction g1 as [|g g1 IH]; [reflexivity|].
  cbn [concat map]. rewrite concat_app, !app_length, IH. reflexivity.
Qed.

(** ** Exact boundaries without leading joiners *)
Lemma middle_exact : forall middle cps fuel, ~ In space middle -> scalars cps -> length (encode cps) < fuel ->
  exists segs, tokens words_api fuel (setJoiners (FromBytes (encode cps)) (Some {| Middle := middle; Leading := [] |})) = Ok (map encode segs)
    /\ segmentation (joined_decides (listed middle)) cps segs.
Proof.
  intros middle cps fuel Hm Hs Hf. destruct (j_chop (Some {| Middle := middle; Leading := [] |}) cps Hs) as (segs & HC & H1 & H2 & H3).
  exists segs. split; [exact (joiners_agree (Some {| Middle := middle; Leading := [] |}) Hm _ _ _ Hf HC)|]. split; [exact H1|]. split; [exact H2|].
  intros b a Hb Ha E. change (mid_of (Some {| Middle := middle; Leading := [] |})) with (listed middle) in H3.
  destruct (H3 b a Hb Ha E) as [[HK HD]|[HK HD]]; (split; intros H; [|]); try assumption; try contradiction.
  specialize (HD ltac:(intros x; reflexivity)). pose proof (joined_fun _ _ _ _ _ H HD). discriminate.
Qed.

(** ** Middle joiners in context *)
Lemma P_letter : forall c, letter c -> is (P c) _AHLetter = true /\ is (P c) _Ignore = false /\ is (P c) _NL = false.
Proof. intros c. unfold letter, words_property, wc. generalize (WB c) (ExtPict c) (SpecUcd.BleveIdeographic c). intros [] [] [] [H|H]; try discriminate H; repeat split; reflexivity. Qed.
Lemma P_digit : forall c, digit c -> is (P c) _Numeric = true /\ is (P c) _Ignore = false /\ is (P c) _NL = false.
Proof. intros c. unfold digit, words_property, wc. generalize (WB c) (ExtPict c) (SpecUcd.BleveIdeographic c). intros [] [] [] H; try discriminate H; repeat split; reflexivity. Qed.
Definition wordy (c : N) : Prop := letter c \/ digit c.
Lemma P_wordy : forall c, wordy c -> is (P c) (N.lor _Numeric _AHLetter) = true /\ is (P c) _Ignore = false /\ is (P c) _NL = false.
Proof.
  intros c [H|H]; [destruct (P_letter c H) as (A & B & C)|destruct (P_digit c H) as (A & B & C)]; rewrite is_lor_r, A, ?orb_true_r; auto.
Qed.
Lemma wordy_not_space : ~ wordy space.
Proof. intros [[H|H]|H]; vm_compute in H; discriminate. Qed.

Section Mid.
  Variable mid : N -> bool.
  Notation M := (M mid).
  Notation mval := (mval mid).

  Lemma nextv_keep : forall v q, is (P v) _Ignore = false -> nextv (v :: q) = P v.
  Proof. intros v q H. cbn [SeekText.nextv]. unfold SeekText.skipped. rewrite H. reflexivity. Qed.

  (** Two letters, or two digits. *)
  Definition alike (u v : N) : Prop := (letter u /\ letter v) \/ (digit u /\ digit v).
  Lemma joins_before : forall p u r v q, alike u v -> mid r = true -> line_end r = false -> joined_decides mid (p ++ [u]) (r :: v :: q) Join.
  Proof.
    intros p u r v q HA Hr HN. pose proof (m_spec mid p u r (v :: q)) as H. cbv zeta in H.
    match type of H with joined_decides _ _ _ ?o => replace o with Join in H; [exact H|] end. symmetry. rewrite c_LE in HN.
    assert (HU : is (P u) _Ignore = false /\ is (P u) _NL = false /\ is (P v) _Ignore = false).
    { destruct HA as [[A B]|[A B]]; [apply P_letter in A, B|apply P_digit in A, B]; tauto. }
    destruct HU as (U1 & U2 & V1). rewrite mtrack_lx, nextv_keep by assumption. unfold vdec, vdec1.
    rewrite !M_nl, !M_ign, HN, U2. repeat match goal with |- match (if ?c then _ else _) with _ => _ end = _ => destruct c; [reflexivity|] end.
    rewrite vdec2_flat. rewrite (M_is mid r _ML), (M_is mid r _MN), Hr. change (is _MidNumLet _ML) with true. change (is _MidNumLet _MN) with true. cbn [andb]. rewrite !orb_true_r. cbn [andb].
    rewrite !(M_other mid u _AHLetter), !(M_other mid u _Numeric) by reflexivity.
    destruct HA as [[A B]|[A B]]; [apply P_letter in A, B|apply P_digit in A, B]; destruct A as (A & _), B as (B & _); rewrite A, B; cbn [andb orb]; rewrite ?orb_true_r; reflexivity.
  Qed.
  Lemma joins_after : forall p u r v q, alike u v -> mid r = true -> line_end r = false -> joined_decides mid (p ++ [u; r]) (v :: q) Join.
  Proof.
    intros p u r v q HA Hr HN. pose proof (m_spec mid (p ++ [u]) r v q) as H. cbv zeta in H. rewrite <- app_assoc in H. cbn [app] in H.
    match type of H with joined_decides _ _ _ ?o => replace o with Join in H; [exact H|] end. symmetry. rewrite c_LE in HN.
    assert (HU : is (P u) _Ignore = false /\ is (P u) _NL = false /\ is (P v) _Ignore = false /\ is (P v) _NL = false).
    { destruct HA as [[A B]|[A B]]; [apply P_letter in A, B|apply P_digit in A, B]; tauto. }
    destruct HU as (U1 & U2 & V1 & V2). unfold vdec, vdec1. rewrite !M_nl, !M_ign, HN, V2. repeat match goal with |- match (if ?c then _ else _) with _ => _ end = _ => destruct c; [reflexivity|] end.
    replace (p ++ [u; r]) with ((p ++ [u]) ++ [r]) by (rewrite <- app_assoc; reflexivity).
    pose proof (mtrack_lx mid p u U1) as HL. rewrite wtrack_snoc. unfold wstep.
    assert (HLt : w_l (wtrack (p ++ [u])) = Some u) by (destruct (wtrack_facts (p ++ [u])) as (HLt & _); rewrite HLt, last_char_snoc; reflexivity).
    rewrite HLt. unfold drops. rewrite c_IG, c_LE, U2. cbn [negb]. rewrite andb_true_r. rewrite vdec2_flat.
    destruct (is (P r) _Ignore) eqn:EI; cbn [w_lx w_ll w_run].
    - rewrite HL, !(M_other mid u _AHLetter), !(M_other mid u _Numeric), !(M_other mid v _AHLetter), !(M_other mid v _Numeric) by reflexivity.
      destruct HA as [[A B]|[A B]]; [apply P_letter in A, B|apply P_digit in A, B]; destruct A as (A & _), B as (B & _); rewrite A, B; cbn [andb orb]; rewrite ?orb_true_r; reflexivity.
    - rewrite HL. cbn [JoinedFacts.mval]. rewrite c_IG, EI. rewrite (M_is mid r _ML), (M_is mid r _MN), Hr. change (is _MidNumLet _ML) with true. change (is _MidNumLet _MN) with true. cbn [andb]. rewrite !orb_true_r. cbn [andb].
      rewrite !(M_other mid u _AHLetter), !(M_other mid u _Numeric), !(M_other mid v _AHLetter), !(M_other mid v _Numeric) by reflexivity.
      destruct HA as [[A B]|[A B]]; [apply P_letter in A, B|apply P_digit in A, B]; destruct A as (A & _), B as (B & _); rewrite A, B; cbn [andb orb]; rewrite ?orb_true_r; reflexivity.
  Qed.
  Lemma joins_wordy : forall p u v q, wordy u -> wordy v -> joined_decides mid (p ++ [u]) (v :: q) Join.
  Proof.
    intros p u v q Hu Hv. pose proof (m_spec mid p u v q) as H. cbv zeta in H.
    match type of H with joined_decides _ _ _ ?o => replace o with Join in H; [exact H|] end. symmetry.
    destruct (P_wordy u Hu) as (A1 & A2 & A3), (P_wordy v Hv) as (B1 & B2 & B3). rewrite mtrack_lx by assumption.
    unfold vdec, vdec1. rewrite !M_nl, !M_ign, A3, B3. repeat match goal with |- match (if ?c then _ else _) with _ => _ end = _ => destruct c; [reflexivity|] end.
    rewrite vdec2_flat, !(M_other mid u _AHLetter), !(M_other mid u _Numeric), !(M_other mid v _AHLetter), !(M_other mid v _Numeric) by reflexivity. rewrite is_lor_r in A1, B1. apply orb_prop in A1, B1. destruct A1 as [A1|A1], B1 as [B1|B1]; rewrite A1, B1; cbn [andb orb]; rewrite ?andb_true_r, ?orb_true_r; reflexivity.
  Qed.

  (** What a boundary of the Iterator says when no space follows. *)
  Lemma D_i_inv : forall b y a, y <> space -> D_i mid b (y :: a) Break -> exists b1 b2, b = b1 ++ b2 /\ (b = [] \/ b2 <> []) /\ (b1 = [] \/ exists r, b2 = space :: r) /\ (b2 = [] \/ joined_decides mid b2 (y :: a) Break).
  Proof.
    intros b y a Hy (b1 & b2 & -> & H1 & H2). exists b1, b2. split; [reflexivity|].
    destruct H1 as [->|(_ & r & Hr)].
    - split; [destruct b2; [left; reflexivity|right; discriminate]|]. auto.
    - destruct b2 as [|z b2]; [cbn [app] in Hr; injection Hr as -> _; congruence|]. split; [right; discriminate|]. split; [|exact H2]. right. cbn [app] in Hr. injection Hr as -> _. eauto.
  Qed.
End Mid.

(** The facts about the Iterator with joiners, in terms of cuts. *)
Lemma i_tokens : forall j cps fuel, scalars cps -> length (encode cps) < fuel -> exists segs,
  tokens words_api fuel (setJoiners (FromBytes (encode cps)) j) = Ok (map encode segs) /\ concat segs = cps /\ Forall (fun s => s <> []) segs
  /\ forall p q, p <> [] -> q <> [] -> cps = p ++ q -> cut_at segs p -> D_i (mid_of j) p q Break.
Proof.
  intros j cps fuel Hs Hf. destruct (conform_chop _ _ (i_split j) (S (length (encode cps))) [] cps Hs ltac:(lia) ltac:(auto)) as (segs & H1 & H2 & H3 & H4).
  exists segs. split; [exact (joiner_tokens _ _ _ _ Hf H1)|]. split; [exact H2|]. split; [exact H3|]. intros p q Hp Hq E HC. destruct (H4 p q Hp Hq E) as [[_ H]|[H _]]; [exact H|contradiction].
Qed.

Lemma no_cut_before : forall mid p u r v q, alike u v -> mid r = true -> line_end r = false -> r <> space -> ~ D_i mid (p ++ [u]) (r :: v :: q) Break.
Proof.
  intros mid p u r v q HA Hr HN Hsp HD. destruct (D_i_inv _ _ _ _ Hsp HD) as (b1 & b2 & E & [E0|Hn] & _ & [->|HJ]); try congruence; try (destruct p; discriminate).
  destruct (exists_last Hn) as (p2 & c & ->). rewrite app_assoc in E. apply app_inj_tail in E. destruct E as [_ <-].
  pose proof (joined_fun _ _ _ _ _ HJ (joins_before mid p2 u r v q HA Hr HN)). discriminate.
Qed.
Lemma no_cut_after : forall mid p u r v q, alike u v -> mid r = true -> line_end r = false -> r <> space -> ~ D_i mid (p ++ [u; r]) (v :: q) Break.
Proof.
  intros mid p u r v q HA Hr HN Hsp HD.
  assert (Hv : v <> space). { intros ->. apply wordy_not_space. destruct HA as [[_ H]|[_ H]]; [left|right]; exact H. }
  destruct (D_i_inv _ _ _ _ Hv HD) as (b1 & b2 & E & [E0|Hn] & H1 & [->|HJ]); try congruence; try (destruct p; discriminate).
  destruct (exists_last Hn) as (p2 & c & ->). rewrite app_assoc in E. change [u; r] with ([u] ++ [r]) in E. rewrite app_assoc in E. apply app_inj_tail in E. destruct E as [E <-].
  destruct p2 as [|z p2 _] using rev_ind.
  - rewrite app_nil_r in E. subst b1. destruct H1 as [H1|(s & H1)]; [destruct p; discriminate|]. cbn [app] in H1. injection H1 as -> _. congruence.
  - rewrite app_assoc in E. apply app_inj_tail in E. destruct E as [_ <-]. rewrite <- app_assoc in HJ. cbn [app] in HJ.
    pose proof (joined_fun _ _ _ _ _ HJ (joins_after mid p2 u r v q HA Hr HN)). discriminate.
Qed.
Lemma no_cut_wordy : forall mid p u v q, wordy u -> wordy v -> ~ D_i mid (p ++ [u]) (v :: q) Break.
Proof.
  intros mid p u v q Hu Hv HD. assert (Hsp : v <> space) by (intros ->; exact (wordy_not_space Hv)).
  destruct (D_i_inv _ _ _ _ Hsp HD) as (b1 & b2 & E & [E0|Hn] & _ & [->|HJ]); try congruence; try (destruct p; discriminate).
  destruct (exists_last Hn) as (p2 & c & ->). rewrite app_assoc in E. apply app_inj_tail in E. destruct E as [_ <-].
  pose proof (joined_fun _ _ _ _ _ HJ (joins_wordy mid p2 u v q Hu Hv)). discriminate.
Qed.

Lemma mid_of_in : forall jj r, In r (Middle jj) -> mid_of (Some jj) r = true.
Proof. intros jj r H. apply listed_in. exact H. Qed.

(** No boundary next to a middle joiner between two letters or between two digits. *)
Lemma middle_joins : forall jj p u r v q fuel, scalars (p ++ u :: r :: v :: q) -> length (encode (p ++ u :: r :: v :: q)) < fuel ->
  In r (Middle jj) -> r <> space -> line_end r = false -> alike u v ->
  exists l, tokens words_api fuel (setJoiners (FromBytes (encode (p ++ u :: r :: v :: q))) (Some jj)) = Ok l
    /\ ~ boundary l (length (encode (p ++ [u]))) /\ ~ boundary l (length (encode (p ++ [u; r]))).
Proof.
  intros jj p u r v q fuel Hs Hf Hr Hsp HN HA. destruct (i_tokens (Some jj) _ fuel Hs Hf) as (segs & HT & HC & _ & HD).
  exists (map encode segs). split; [exact HT|]. apply mid_of_in in Hr. split; intros HB.
  - refine (no_cut_before _ p u r v q HA Hr HN Hsp (HD (p ++ [u]) (r :: v :: q) _ _ _ _)); try (destruct p; discriminate); try discriminate; [rewrite <- app_assoc; reflexivity|].
    apply (cut_boundary segs (p ++ [u]) (r :: v :: q)); [rewrite HC, <- app_assoc; reflexivity|exact HB].
  - refine (no_cut_after _ p u r v q HA Hr HN Hsp (HD (p ++ [u; r]) (v :: q) _ _ _ _)); try (destruct p; discriminate); try discriminate; [rewrite <- app_assoc; reflexivity|].
    apply (cut_boundary segs (p ++ [u; r]) (v :: q)); [rewrite HC, <- app_assoc; reflexivity|exact HB].
Qed.

(** Without a cut inside there is one token. *)
Lemma one_segment : forall segs cps, cps <> [] -> concat segs = cps -> Forall (fun s => s <> []) segs -> (forall p q, p <> [] -> q <> [] -> cps = p ++ q -> ~ cut_at segs p) -> segs = [cps].
Proof.
  intros segs cps Hn HC HF H. destruct segs as [|s segs]; [cbn in HC; congruence|]. destruct segs as [|t segs].
  - cbn [concat] in HC. rewrite app_nil_r in HC. subst. reflexivity.
  - exfalso. apply (H s (concat (t :: segs))).
    + exact (Forall_inv HF).
    + cbn [concat]. apply Forall_inv_tail, Forall_inv in HF. destruct t; [congruence|discriminate].
    + rewrite <- HC. reflexivity.
    + exists [s], (t :: segs). split; [reflexivity|]. cbn. apply app_nil_r.
Qed.

(** A position inside us ++ r :: vs. *)
Lemma middle_one : forall jj us u r v vs fuel, scalars (us ++ u :: r :: v :: vs) -> length (encode (us ++ u :: r :: v :: vs)) < fuel ->
  In r (Middle jj) -> r <> space -> line_end r = false -> alike u v -> Forall wordy us -> Forall wordy vs ->
  tokens words_api fuel (setJoiners (FromBytes (encode (us ++ u :: r :: v :: vs))) (Some jj)) = Ok [encode (us ++ u :: r :: v :: vs)].
Proof.
  intros jj us u r v vs fuel Hs Hf Hr Hsp HN HA HU HV. destruct (i_tokens (Some jj) _ fuel Hs Hf) as (segs & HT & HC & HF & HD).
  rewrite (one_segment segs (us ++ u :: r :: v :: vs)) in HT; [exact HT|destruct us; discriminate|exact HC|exact HF|].
  intros p q Hp Hq E Hcut. specialize (HD p q Hp Hq E Hcut). apply mid_of_in in Hr.
  assert (Hu : wordy u) by (destruct HA as [[A _]|[A _]]; [left|right]; exact A). assert (Hv : wordy v) by (destruct HA as [[_ A]|[_ A]]; [left|right]; exact A).
  destruct (exists_last Hp) as (p' & c & ->). destruct q as [|y q]; [congruence|]. rewrite <- app_assoc in E. cbn [app] in E.
  destruct (prefix_cmp _ _ _ _ E) as [(e & E1 & E2)|(e & E1 & E2)].
  - (* us ++ e = p' *)
    destruct e as [|e1 e]; [cbn [app] in E2; injection E2 as -> -> E2|].
    + subst. apply (no_cut_before _ (us ++ []) c y v vs HA Hr HN Hsp). exact HD.
    + cbn [app] in E2. injection E2 as <- E2. destruct e as [|e2 e]; cbn [app] in E2.
      * injection E2 as <- <- <-. rewrite E1 in HD. rewrite <- app_assoc in HD. exact (no_cut_after _ _ _ _ _ _ HA Hr HN Hsp HD).
      * injection E2 as <- E2. assert (HW : Forall wordy (v :: vs)) by (constructor; assumption). rewrite E2 in HW. apply Forall_app in HW. destruct HW as [_ HW].
        inversion HW as [|? ? W1 W2]; subst. inversion W2; subst. exact (no_cut_wordy _ _ _ _ _ W1 H1 HD).
  - (* p' ++ e = us *)
    destruct e as [|e1 e]; [cbn [app] in E2; rewrite app_nil_r in E1; subst; injection E2 as -> -> ->; exact (no_cut_before _ p' _ _ v vs HA Hr HN Hsp HD)|].
    cbn [app] in E2. injection E2 as <- E2. subst us. apply Forall_app in HU. destruct HU as [_ HU]. inversion HU as [|? ? W1 W2]; subst.
    destruct e as [|e2 e]; cbn [app] in E2; injection E2 as -> E2.
    + exact (no_cut_wordy _ _ _ _ _ W1 Hu HD).
    + inversion W2; subst. exact (no_cut_wordy _ _ _ _ _ W1 H1 HD).
Qed.

(** ** Leading joiners *)
Section Lead.
  Variable j : option Joiners.
  Variable r : N.
  Variable w q : text.
  Hypothesis Hr : lead_of j r = true.
  Hypothesis HI : ignored r = false.
  Hypothesis HW : Forall wordy w.
  Notation mid := (mid_of j).
  Notation lead := (lead_of j).

  (** Strictly inside the leading joiner and the word after it. *)
  Definition inside (b : text) : Prop := exists w1 w2, b = r :: w1 /\ w = w1 ++ w2 /\ w2 <> [].
  Definition D_l (b a : text) (o : op) : Prop := D_j mid lead b a o /\ (o = Break -> b ++ a = r :: w ++ q -> ~ inside b).
  Definition ready (st : wst) : Prop := is (up_ex (ws_current st) (ws_lastEx st)) (N.lor _Numeric _AHLetter) = true.
  Definition S_l (st : wst) (b a : text) : Prop := j_Sim mid lead st b a /\ b <> [] /\ (b ++ a = r :: w ++ q -> inside b -> ready st).

  Lemma l_INIT : forall b x a, scalars (b ++ x :: a) -> (b = [] \/ D_l b (x :: a) Break) ->
    S_l {| ws_current := L lead x; ws_lastEx := 0; ws_lastLastEx := 0; ws_ri := 0 |} (b ++ [x]) a.
  Proof.
    intros b x a Hs Hb. split; [|split].
    - apply j_INIT; [exact Hs|]. destruct Hb as [Hb|[Hb _]]; auto.
    - destruct b; discriminate.
    - intros E HIn. destruct b as [|c b].
      + cbn [app] in E. injection E as -> E. unfold ready, up_ex. cbn [ws_current ws_lastEx]. unfold L. rewrite Hr.
        rewrite is_lor_l. rewrite <- c_IG, HI. change (is _AHLetter _Ignore) with false. cbn [orb negb]. rewrite is_lor_l. change (is _AHLetter (N.lor _Numeric _AHLetter)) with true. apply orb_true_r.
      + exfalso. destruct Hb as [Hb|[_ Hb]]; [discriminate|]. rewrite <- app_assoc in E. apply (Hb eq_refl E). destruct HIn as (w1 & w2 & E1 & E2 & Hn).
        injection E1 as -> E1. exists b, (x :: w2). split; [reflexivity|]. split; [|discriminate]. rewrite E2, <- E1, <- app_assoc. reflexivity.
  Qed.

  Lemma inside_pre : forall b p, b <> [] -> inside (b ++ p) -> inside b.
  Proof.
    intros b p Hb (w1 & w2 & E1 & E2 & Hn). destruct b as [|c b]; [congruence|]. injection E1 as -> E1. exists b, (p ++ w2). split; [reflexivity|].
    split; [rewrite E2, <- E1, <- app_assoc; reflexivity|]. destruct p; [exact Hn|discriminate].
  Qed.
  Lemma inside_next : forall b x a, b ++ x :: a = r :: w ++ q -> inside b -> wordy x.
  Proof.
    intros b x a E (w1 & w2 & -> & E2 & Hn). cbn [app] in E. injection E as E. rewrite E2, <- app_assoc in E. apply app_inv_head in E.
    destruct w2 as [|y w2]; [congruence|]. cbn [app] in E. injection E as -> _. rewrite E2 in HW. apply Forall_app in HW. exact (Forall_inv (proj2 HW)).
  Qed.

  Lemma l_STEP : forall st b x a, scalars (b ++ x :: a) -> S_l st b (x :: a) ->
    exists dec, w_erules st (M mid x) (encode (x :: a)) (length (utf8 x)) true = Ok dec
      /\ match dec with
         | EBreak => D_l b (x :: a) Break
         | EJoin adv st' => exists a1 a2, x :: a = a1 ++ a2 /\ adv = length (encode a1)
             /\ (forall p q, a1 = p ++ q -> q <> [] -> D_l (b ++ p) (q ++ a2) Join) /\ S_l st' (b ++ a1) a2
         | _ => False
         end.
  Proof.
    intros st b x a Hs (HS & Hb & HR). destruct (j_STEP mid lead st b x a Hs HS) as (dec & HE & HD).
    exists dec. split; [exact HE|].
    assert (FIRE : b ++ x :: a = r :: w ++ q -> inside b -> exists st', dec = EJoin (length (utf8 x)) st' /\ ws_current st' = M mid x).
    { intros E Hin. pose proof (HR E Hin) as HRd. pose proof (inside_next _ _ _ E Hin) as Hx. destruct (P_wordy x Hx) as (X1 & _ & _).
      unfold w_erules in HE. rewrite slice_from_ok in HE by (rewrite encode_cons, app_length; lia). cbn [bind] in HE.
      unfold ready, up_ex in HRd. unfold w_rules in HE. rewrite HRd in HE. rewrite M_other in HE by reflexivity. rewrite X1 in HE. cbn [andb bind] in HE. injection HE as <-. eauto. }
    destruct dec as [adv st'| | |]; try contradiction.
    - destruct HD as (a1 & a2 & E & Hadv & HJ & HS'). exists a1, a2. split; [exact E|]. split; [exact Hadv|]. split.
      + intros p q' E1 Hq'. split; [apply HJ; assumption|discriminate].
      + split; [exact HS'|]. split; [destruct b; [congruence|discriminate]|]. intros E1 Hin. rewrite <- app_assoc, <- E in E1.
        pose proof (inside_pre _ _ Hb Hin) as Hin'. destruct (FIRE E1 Hin') as (st2 & F1 & F2). injection F1 as _ <-.
        pose proof (inside_next _ _ _ E1 Hin') as Hx. destruct (P_wordy x Hx) as (X1 & X2 & _).
        unfold ready, up_ex. rewrite F2, M_ign, X2. cbn [negb]. rewrite M_other by reflexivity. exact X1.
    - split; [exact HD|]. intros _ E Hin. destruct (FIRE E Hin) as (st' & F & _). discriminate.
  Qed.

  Lemma l_split : scalars (r :: w ++ q) -> exists s a2, r :: w ++ q = s ++ a2 /\ s <> []
    /\ w_isplit (joinersSplitFunc j) (encode (r :: w ++ q)) true = Ok (e_done (length (encode s)) (encode s)) /\ ~ inside s.
  Proof.
    intros Hs. unfold w_isplit. destruct (hot_run (encode (r :: w ++ q))) as [k|] eqn:EH.
    - destruct (hot_cps r (w ++ q) k Hs EH) as (s & a2 & E & Hn & HF & -> & Ha2). exists s, a2. split; [exact E|]. split; [exact Hn|]. split.
      { rewrite E, encode_app, firstn_app, firstn_all, Nat.sub_diag, app_nil_r. reflexivity. }
      intros Hin. pose proof Hin as (w1 & w2 & E1 & E2 & Hw2). destruct a2 as [|y a2].
      + rewrite app_nil_r in E. rewrite E1 in E. injection E as E. apply (f_equal (@length N)) in E. rewrite E2, !app_length in E. destruct w2; [congruence|]. cbn in E. lia.
      + symmetry in E. apply (wordy_not_space). destruct Ha2 as [Ha2|(a3 & Ha2)]; [discriminate|]. injection Ha2 as -> _. exact (inside_next s space a2 E Hin).
    - destruct (conform_split (WE j) w_mu (w_rules_ok j) w_fuel (wj_FU j) (joinersSplitFunc j) (w_split_engine j) (L lead) (M mid) (lkL_cp j) (lkM_cp j)
        D_l S_l l_INIT l_STEP [] r (w ++ q) Hs (or_introl eq_refl)) as (s & a2 & E & Hn & ES & _ & HB).
      exists s, a2. split; [exact E|]. split; [exact Hn|]. split; [exact ES|]. intros Hin. destruct HB as [->|[_ HB]].
      + pose proof Hin as (w1 & w2 & E1 & E2 & Hw2). rewrite app_nil_r in E. rewrite E1 in E. injection E as E. apply (f_equal (@length N)) in E. rewrite E2, !app_length in E. destruct w2; [congruence|]. cbn in E. lia.
      + exact (HB eq_refl (eq_sym E) Hin).
  Qed.
End Lead.

(** Chopping from a boundary on. *)
Lemma cuts_fuel : forall f, WordsIter.cuts f -> forall f1 f2 d, length d < f1 -> length d < f2 -> chop f f1 d = chop f f2 d.
Proof.
  intros f OK. induction f1 as [|f1 IH]; intros f2 d H1 H2; [lia|]. destruct f2 as [|f2]; [lia|].
  destruct d as [|c d0]; [reflexivity|]. set (d := c :: d0) in *. cbn [chop]. change (is_nil d) with false. cbv iota.
  destruct (OK d ltac:(discriminate)) as (n & Hn & Hs). rewrite Hs. cbn [bind e_done so_token so_advance].
  rewrite Nat2Z.id. rewrite (IH f2); [reflexivity| |]; rewrite skipn_length; lia.
Qed.
Lemma chop_suffix : forall f, WordsIter.cuts f -> forall l1 n d l2, length d < n -> chop f n d = Ok (l1 ++ l2) -> chop f n (skipn (length (concat l1)) d) = Ok l2.
Proof.
  intros f Hf. induction l1 as [|t l1 IH]; intros n d l2 Hn H; [exact H|].
  destruct n as [|n]; [lia|]. cbn [chop] in H. destruct d as [|c d]; [discriminate|]. set (d0 := c :: d) in *. change (is_nil d0) with false in H. cbv iota in H.
  destruct (Hf d0 ltac:(discriminate)) as (k & Hk & HE). rewrite HE in H. cbn [bind e_done so_token so_advance] in H. rewrite Nat2Z.id in H.
  destruct (chop f n (skipn k d0)) as [l| |] eqn:EC; cbn [bind] in H; try discriminate. cbn [app] in H. injection H as <- ->.
  assert (HL : length (skipn k d0) < n) by (rewrite skipn_length; lia).
  pose proof (IH n (skipn k d0) l2 HL EC) as HI. cbn [concat]. rewrite app_length, firstn_length_le by lia. rewrite skipn_skipn, Nat.add_comm in HI.
  rewrite (cuts_fuel f Hf (S n) n); [exact HI|rewrite skipn_length; lia|rewrite skipn_length; lia].
Qed.
Lemma isplit_cuts : forall f, WordsIter.cuts f -> WordsIter.cuts (w_isplit f).
Proof.
  intros f Hf d Hd. unfold w_isplit. destruct (hot_run d) as [k|] eqn:E; [|exact (Hf d Hd)]. exists k. split; [exact (hot_run_le _ _ E)|reflexivity].
Qed.

Lemma leading_joins : forall jj b r w q fuel, scalars (b ++ r :: w ++ q) -> length (encode (b ++ r :: w ++ q)) < fuel ->
  In r (Leading jj) -> ignored r = false -> Forall wordy w ->
  exists l, tokens words_api fuel (setJoiners (FromBytes (encode (b ++ r :: w ++ q))) (Some jj)) = Ok l
    /\ (boundary l (length (encode b)) -> forall w1 w2, w = w1 ++ w2 -> w2 <> [] -> ~ boundary l (length (encode (b ++ r :: w1)))).
Proof.
  intros jj b r w q fuel Hs Hf Hr HI HW. set (cps := b ++ r :: w ++ q) in *.
  destruct (conform_chop _ _ (i_split (Some jj)) (S (length (encode cps))) [] cps Hs ltac:(lia) ltac:(auto)) as (segs & H1 & H2 & H3 & _).
  exists (map encode segs). split; [exact (joiner_tokens _ _ _ _ Hf H1)|]. intros HB w1 w2 E Hw2 HB2.
  apply (cut_boundary segs b (r :: w ++ q) H2) in HB. destruct HB as (s1 & s2 & -> & HC1).
  assert (E2 : concat (s1 ++ s2) = (b ++ r :: w1) ++ w2 ++ q).
  { rewrite H2. unfold cps. rewrite E. rewrite <- (app_assoc w1). rewrite <- (app_assoc b). reflexivity. }
  apply (cut_boundary _ _ _ E2) in HB2. destruct HB2 as (t1 & t2 & ET & HC2).
  assert (EC : chop (w_isplit (joinersSplitFunc (Some jj))) (S (length (encode cps))) (encode (r :: w ++ q)) = Ok (map encode s2)).
  { rewrite map_app in H1. pose proof (chop_suffix _ (isplit_cuts _ (so_eof _ (w_split_ok (Some jj)))) _ _ _ _ (Nat.lt_succ_diag_r _) H1) as HS.
    rewrite concat_encode, HC1 in HS. unfold cps in HS at 2. rewrite encode_app, skipn_app, skipn_all, Nat.sub_diag in HS. exact HS. }
  destruct (l_split (Some jj) r w q (proj2 (listed_in _ _) Hr) HI HW) as (s & a2 & ES & Hn & HSp & Hout).
  { unfold scalars in *. apply Forall_app in Hs. apply Hs. }
  assert (Hd : encode (r :: w ++ q) <> []) by (intros Hx; apply encode_nil_inv in Hx; discriminate).
  cbn [chop] in EC. rewrite (is_nil_false _ Hd), HSp in EC. cbn [bind e_done so_token so_advance] in EC.
  destruct (chop _ _ (skipn _ _)) as [l2| |]; cbn [bind] in EC; try discriminate. injection EC as EC.
  destruct s2 as [|s0 s2]; [discriminate|]. cbn [map] in EC. injection EC as EC _.
  (* s0 = s *)
  assert (ES0 : s0 = s).
  { rewrite concat_app, HC1 in H2. unfold cps in H2. apply app_inv_head in H2. rewrite ES in H2. cbn [concat] in H2.
    destruct (prefix_cmp _ _ _ _ H2) as [(e & E3 & _)|(e & E3 & _)]; subst.
    - apply (f_equal (@length N)) in EC. rewrite encode_app, app_length in EC. destruct e; [rewrite app_nil_r; reflexivity|]. pose proof (len_encode_pos (n :: e) ltac:(discriminate)). lia.
    - apply (f_equal (@length N)) in EC. rewrite encode_app, app_length in EC. destruct e; [rewrite app_nil_r; reflexivity|]. pose proof (len_encode_pos (n :: e) ltac:(discriminate)). lia. }
  subst s0.
  (* the cut after r :: w1 lies after s *)
  assert (HC : NestFacts.cuts (s1 ++ s :: s2) (concat s1 ++ r :: w1)) by (exists t1, t2; rewrite HC1; auto).
  apply cuts_app in HC; [|apply Forall_app in H3; apply H3]. destruct HC as (u1 & u2 & EU & HU).
  destruct u1 as [|u u1]; [discriminate|]. injection EU as <- EU. cbn [concat] in HU.
  apply Hout. apply (inside_pre r w s (concat u1) Hn). rewrite HU. exists w1, w2. auto.
Qed.

Lemma leading_one : forall jj r w fuel, scalars (r :: w) -> length (encode (r :: w)) < fuel -> In r (Leading jj) -> ignored r = false -> Forall wordy w ->
  tokens words_api fuel (setJoiners (FromBytes (encode (r :: w))) (Some jj)) = Ok [encode (r :: w)].
Proof.
  intros jj r w fuel Hs Hf Hr HI HW. assert (E0 : r :: w = [] ++ r :: w ++ []) by (cbn [app]; rewrite app_nil_r; reflexivity).
  destruct (i_tokens (Some jj) (r :: w) fuel Hs Hf) as (segs & HT & HC & HF & _). rewrite E0 in Hs, Hf.
  destruct (leading_joins jj [] r w [] fuel Hs Hf Hr HI HW) as (l & HL & HB). rewrite <- E0 in HL. rewrite HT in HL. injection HL as <-.
  rewrite (one_segment segs (r :: w)) in HT; [exact HT|discriminate|exact HC|exact HF|].
  intros p q Hp Hq E Hcut. destruct p as [|c p]; [congruence|]. injection E as <- E.
  refine (HB _ p q E Hq _); [exists [], (map encode segs); auto|]. cbn [app]. apply (cut_boundary segs (r :: p) q); [rewrite HC, E; reflexivity|exact Hcut].
Qed.

(** The same for the split functions themselves, however the space is set. *)
Lemma split_coarser : forall j cps, scalars cps -> exists l l', tokens_by (joinersSplitFunc None) (encode cps) l /\ tokens_by (joinersSplitFunc j) (encode cps) l'
  /\ made_of l' l.
Proof.
  intros j cps Hs. destruct (w_conform cps Hs) as (s1 & HC1 & H1 & HF1 & HB1). destruct (j_chop j cps Hs) as (s2 & HC2 & H2 & HF2 & HB2).
  exists (map encode s1), (map encode s2). split; [|split].
  - refine (by_chop _ _ (S (length (encode cps))) _ _ _ _); [exact (so_eof _ (w_split_ok None))|lia|]. rewrite (chop_ext _ _ absent_split). exact HC1.
  - refine (by_chop _ _ (S (length (encode cps))) _ _ _ HC2); [exact (so_eof _ (w_split_ok j))|lia].
  - destruct (refine s2 s1 HF1 HF2 ltac:(congruence)) as (groups & G1 & G2).
    + intros b a Hb Ha E Hcut. apply (HB1 b a Hb Ha ltac:(congruence)). destruct (HB2 b a Hb Ha ltac:(congruence)) as [[_ H]|[H _]]; [|contradiction].
      destruct (exists_last Hb) as (p & c & ->). destruct a as [|y a]; [congruence|]. exact (joined_word _ _ _ _ _ H).
    + exists (map (map encode) groups). rewrite <- G1, <- G2. rewrite concat_map. split; [reflexivity|]. rewrite !map_map. apply map_ext. intros l. apply concat_encode.
Qed.
