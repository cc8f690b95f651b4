(** sentences: text is segmented line by line. *)
From Verif Require Import Base ListFacts Trie TableFacts Engine Lk Seek SeekText SpecUtf8 SpecIter SpecRules SpecLookup
  RuleFacts BitFacts WordFacts Conform UcdFacts UcdSentences Lines TableSentences SentencesEngine SentencesConform.
From Verif Require Sentences.
Import Sentences.
Local Open Scope N_scope.
Definition atLF (st : sst) : Prop := ss_current st = P 10.
Lemma P_LF : P 10 = _LF. Proof. vm_compute. reflexivity. Qed.
Lemma BRK : forall st v d w, atLF st -> e_lk SE d = Ok (v, w) -> w <> O -> e_rules SE st v d w true = Ok EBreak.
Proof.
  intros st v d w H Hl Hw. change (e_rules SE) with s_erules. unfold s_erules. rewrite H, P_LF. cbv zeta.
  unfold s_rules. change (is _LF _CR) with false. rewrite andb_false_r.
  assert (N.lor v _LF =? 0 = false) as ->. { apply N.eqb_neq. intros E. apply N.lor_eq_0_iff in E. destruct E; discriminate. }
  change (is _LF _ParaSep) with true. reflexivity.
Qed.

Lemma scan_stop : forall a, scalars a -> Exists (fun c => is (P c) stopProps = true) a ->
  exists a1 z a2, a = a1 ++ z :: a2 /\ is (P z) stopProps = true
  /\ forall fuel, (length (encode a) < fuel)%nat -> rscan fuel (encode a) false = Ok (ScanAt (length (encode a1))).
Proof.
  induction a as [|x a IH]; intros Hs HE; [inversion HE|].
  assert (Hx : scalar x) by exact (Forall_inv Hs).
  assert (HL : forall fuel, rscan (S fuel) (encode (x :: a)) false =
    if is (P x) stopProps then Ok (ScanAt 0)
    else (s <- rscan fuel (encode a) false ;; match s with ScanAt p => Ok (ScanAt (length (utf8 x) + p)) | y => Ok y end)).
  { intros fuel. cbn [rscan]. rewrite encode_cons. destruct (utf8_nonnil x) as (b0 & s0 & Eu).
    assert (is_nil (utf8 x ++ encode a) = false) as -> by (rewrite Eu; reflexivity).
    rewrite lk_cp by exact Hx. cbn [bind]. rewrite Eu at 1. cbn [length Nat.eqb].
    destruct (is (P x) stopProps); [reflexivity|]. rewrite slice_from_ok by (rewrite app_length; lia). cbn [bind].
    rewrite skipn_app, skipn_all, Nat.sub_diag. reflexivity. }
  destruct (is (P x) stopProps) eqn:EI.
  - exists [], x, a. repeat split; auto. intros fuel Hf. destruct fuel as [|fuel]; [lia|]. apply HL.
  - destruct IH as (a1 & z & a2 & -> & Hz & H); [exact (Forall_inv_tail Hs)|inversion HE; [congruence|assumption]|].
    exists (x :: a1), z, a2. repeat split; auto. intros fuel Hf. destruct fuel as [|fuel]; [lia|]. rewrite HL.
    rewrite H. 2:{ rewrite encode_cons, app_length in Hf. pose proof (utf8_len x). lia. }
    cbn [bind]. rewrite encode_cons, app_length. reflexivity.
Qed.

Lemma stop_not_ignored : forall v, In v sV -> is v stopProps = true -> is v _Ignore = false.
Proof.
  intros v Hv H.
  assert (Hall : forallb (fun v => negb (is v stopProps) || negb (is v _Ignore)) sV = true) by (vm_compute; reflexivity).
  rewrite forallb_forall in Hall. specialize (Hall v Hv). rewrite H in Hall. apply negb_true_iff in Hall. exact Hall.
Qed.

Lemma RL : forall st x a, scalars (x :: a) -> last_char (x :: a) = Some 10 ->
    exists dec, e_rules SE st (P x) (encode (x :: a)) (length (utf8 x)) false = Ok dec
      /\ match dec with
         | EBreak => True
         | EJoin adv st' => exists a1 a2, x :: a = a1 ++ a2 /\ adv = length (encode a1) /\ (a2 = [] -> atLF st')
         | _ => False
         end.
Proof.
  intros st x a Hs Ha. change (e_rules SE) with s_erules. unfold s_erules. cbv zeta.
  set (h := s_update _ _).
  assert (HJ : forall h', exists a1 a2, x :: a = a1 ++ a2 /\ length (utf8 x) = length (encode a1) /\ (a2 = [] -> atLF {| ss_current := P x; ss_hist := h' |})).
  { intros h'. destruct (one_adv x a) as (a1 & a2 & E1 & E2 & _ & E4). exists a1, a2. repeat split; auto. intros ->. subst a. cbn in Ha. injection Ha as ->. reflexivity. }
  set (Q := fun r : res sdecision => exists dec, (dc <- r ;; match dc with
    | SMore => Ok EMore
    | SBreak O => Ok EBreak
    | SBreak (S _) => Ok EEnd
    | SJoin adv => Ok (EJoin adv {| ss_current := P x; ss_hist := h |})
    end) = Ok dec
      /\ match dec with
         | EBreak => True
         | EJoin adv st' => exists a1 a2, x :: a = a1 ++ a2 /\ adv = length (encode a1) /\ (a2 = [] -> atLF st')
         | _ => False
         end).
  change (Q (s_rules (encode (x :: a)) false (P x) (ss_current st) h 0 (length (utf8 x)))).
  assert (QJ : Q (Ok (SJoin (0 + length (utf8 x))))) by (eexists; split; [reflexivity|]; apply HJ).
  assert (QB : Q (Ok (SBreak 0))) by (eexists; split; [reflexivity|exact I]).
  assert (QT : Q (Ok (s_rules_tail (P x) h 0 (length (utf8 x))))).
  { unfold s_rules_tail. repeat match goal with |- Q (Ok (if ?c then _ else _)) => destruct c end; assumption. }
  unfold s_rules.
  do 6 (match goal with |- Q (if ?c then _ else _) => destruct c end; [assumption|]).
  destruct (is (h_lastExSpClose h) _ATerm); [|exact QT].
  rewrite scan_rscan by lia. cbn [skipn].
  destruct (scan_stop (x :: a) Hs) as (a1 & z & a2 & Ea & Hz & HR).
  { apply last_exists; [exact Ha|]. rewrite P_LF. reflexivity. }
  rewrite HR by lia. cbn [bind shift_scan Nat.add].
  rewrite Ea. rewrite slice_from_ok by (rewrite encode_app, app_length; lia). cbn [bind]. rewrite skipn_encode.
  assert (Hs2 : scalars (z :: a2)) by (rewrite Ea in Hs; apply Forall_app in Hs; tauto).
  assert (Hzi : is (P z) _Ignore = false) by (apply stop_not_ignored; [apply P_in|exact Hz]).
  rewrite subsequent_gsub, gsubsequent_rsub by exact s_lk. cbn [rsub].
  rewrite encode_cons. destruct (utf8_nonnil z) as (b0 & s0 & Eu).
  assert (is_nil (utf8 z ++ encode a2) = false) as -> by (rewrite Eu; reflexivity).
  rewrite lk_cp by exact (Forall_inv Hs2). cbn [bind]. rewrite Eu at 1. cbn [length Nat.eqb]. rewrite Hzi.
  destruct (is (P z) _Lower); cbn [bind]; [|exact QT].
  eexists; split; [reflexivity|]. cbv beta iota. exists a1, (z :: a2). split; [exact Ea|]. split; [lia|discriminate].
Qed.

Theorem s_lines : forall a b la lb n, scalars a -> last_char a = Some 10 -> starts_whole SE b ->
  chop splitFunc (S (length (encode a))) (encode a) = Ok la -> chop splitFunc (S (length b)) b = Ok lb -> (length (encode a ++ b) < n)%nat ->
  chop splitFunc n (encode a ++ b) = Ok (la ++ lb).
Proof.
  intros a b la lb n Hs Ha. apply (lines_chop SE s_mu s_rules_ok s_fuel s_FU splitFunc s_split_engine s_split_ok P P lk_cp lk_cp
    atLF eq_refl BRK RL (length a)); auto.
Qed.
