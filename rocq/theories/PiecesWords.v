(** words: text cut at the end of a token. *)
From Verif Require Import Base ListFacts Trie LookupFacts TableFacts Engine EngineMore Lk Seek SeekText SpecUtf8 SpecRules UcdFacts UcdWords Conform Trunc Pieces BitFacts TableWords WordsEngine WordsIter WordsCut WordsConform JoinedFacts JoinersConform JoinersSim JoinersBounds.
From Verif Require Words.
Import Words.
Local Open Scope N_scope.

Definition w_brkP (after : bytes) (F : bytes -> res wdecision) : Prop := F after = Ok WBreak -> forall m, F (firstn m after) = Ok WBreak.
Lemma w_brk_join : forall after w ri, w_brkP after (fun _ => Ok (WJoin w ri)).
Proof. intros after w ri H. discriminate. Qed.
Lemma w_brk_break : forall after, w_brkP after (fun _ => Ok WBreak).
Proof. intros after H m. reflexivity. Qed.
Lemma w_brk_look : forall after w ri cond props next, w_brkP after next -> w_brkP after (fun x => lookahead cond props x true w ri (next x)).
Proof.
  intros after w ri cond props next HN. destruct cond; [|exact HN]. intros H m. unfold lookahead in *. rewrite subsequent_gsub in H |- *.
  destruct (gsubsequent_total words_lookup _Ignore props w_lk after true) as (r & mo & Hr & H1 & _). specialize (H1 eq_refl). subst mo. rewrite Hr in H. cbn [bind] in H.
  destruct r as [a|]; [discriminate|]. rewrite (sub_none _ _ _ w_lk _ m Hr). cbn [bind]. apply HN. exact H.
Qed.
Lemma w_rules_brkP : forall cur last lastEx lastLastEx ri w after, w_brkP after (fun x => w_rules cur last lastEx lastLastEx ri w x true).
Proof.
  intros. unfold w_rules. destruct (_ && _); [apply w_brk_join|]. destruct (is (N.land _ _) _); [apply w_brk_join|]. destruct (_ && _); [apply w_brk_join|].
  destruct (is (N.lor last cur) _); [apply w_brk_break|]. destruct (_ && _); [apply w_brk_join|]. destruct (is cur _); [apply w_brk_join|].
  apply w_brk_look. destruct (_ && _); [apply w_brk_join|]. destruct (_ && _); [apply w_brk_join|].
  apply w_brk_look. destruct (_ && _); [apply w_brk_join|]. destruct (_ && _); [apply w_brk_join|].
  apply w_brk_look. destruct (_ && _); [apply w_brk_join|]. destruct (_ && _); [apply w_brk_join|]. destruct (_ && _); [apply w_brk_join|]. destruct (_ && _); [|apply w_brk_break].
  destruct (Nat.eqb _ _); [apply w_brk_join|apply w_brk_break].
Qed.

(** What the lookahead has found is in the token. *)
Lemma hit_in_token : forall j d p v w' cur lastEx ri st' fuel k, words_lookup (skipn p d) = Ok (v, w') -> w' <> 0%nat -> (p < length d)%nat -> w_hit cur lastEx v ->
  ws_current st' = cur -> ws_lastEx st' = lastEx -> ws_ri st' = ri -> eloop (WE j) fuel (skipn p d) true st' = Ok (Some k) -> (w' <= k)%nat.
Proof.
  intros j d p v w' cur lastEx ri st' fuel k E2 E3 Hp E5 X1 X2 X3 HL. destruct fuel as [|fuel]; [discriminate|]. cbn [eloop] in HL.
  rewrite (is_nil_false (skipn p d)) in HL by (apply skipn_nonnil; lia). change (e_lk (WE j)) with (lkM j) in HL.
  unfold lkM in HL. rewrite E2 in HL. cbn [bind] in HL. rewrite (proj2 (Nat.eqb_neq _ _) E3) in HL. change (e_rules (WE j)) with w_erules in HL. unfold w_erules in HL. cbv zeta in HL.
  rewrite X1, X2, X3 in HL. destruct E5 as (I1 & E5). rewrite I1 in HL. cbn [negb] in HL.
  destruct (w_lk (skipn p d)) as (v1 & w1 & Hx & Hw1 & _); [apply skipn_nonnil; lia|]. rewrite E2 in Hx. injection Hx as <- <-.
  rewrite slice_from_ok in HL by exact Hw1. cbn [bind] in HL. destruct (middle_lor j (skipn p d) v) as (u & Eu & HU). rewrite Eu in HL.
  destruct (w_hit_joins cur lastEx v ri w' (skipn w' (skipn p d)) u (conj I1 E5) HU) as (adv2 & ri2 & HJ). rewrite HJ in HL. cbn [bind] in HL.
  match type of HJ with w_rules ?a ?b ?c ?d ?e ?f ?g ?h = _ => destruct (w_rules_good a b c d e f g h) as (dec2 & Hr2 & Hj2 & _) end. rewrite HJ in Hr2. injection Hr2 as <-. specialize (Hj2 _ _ eq_refl).
  destruct (slice_from (skipn p d) adv2) as [d'| |]; try discriminate. cbn [bind] in HL.
  match type of HL with context [eloop ?x ?y ?z ?t ?q] => destruct (eloop x y z t q) as [[n|]| |] end; try discriminate. cbn [bind option_map] in HL. injection HL as <-. lia.
Qed.

(** The lookahead stops at the end of a character. *)
Lemma found_at : forall props a n m, scalars a -> gsubsequent words_lookup _Ignore props (encode a) true = Ok (Some n, m) -> exists a1 a2, a = a1 ++ a2 /\ n = length (encode a1).
Proof.
  intros props a n m Hs H. destruct (seek_text words_lookup _Ignore P w_lk w_lookup_cp a Hs) as (a1 & a2 & E & _ & _ & HG). rewrite HG in H.
  destruct (is _ _); [|discriminate]. injection H as <- _. eauto.
Qed.

Section J.
  Variable j : option Joiners.
  Lemma enc_skip : forall x a, skipn (length (utf8 x)) (encode (x :: a)) = encode a.
  Proof. intros. rewrite encode_cons, skipn_app, skipn_all, Nat.sub_diag. reflexivity. Qed.
  Lemma enc_skip_app : forall x a b, skipn (length (utf8 x)) (encode (x :: a) ++ b) = encode a ++ b.
  Proof. intros. rewrite encode_cons, <- app_assoc, skipn_app, skipn_all, Nat.sub_diag. reflexivity. Qed.
  Lemma enc_firstn : forall a b, firstn (length (encode a)) (encode a ++ b) = encode a.
  Proof. intros. rewrite firstn_app, firstn_all, Nat.sub_diag. apply app_nil_r. Qed.
  Lemma w_RB : forall st x a b, scalars (x :: a) -> e_rules (WE j) st (M (mid_of j) x) (encode (x :: a) ++ b) (length (utf8 x)) true = Ok EBreak ->
    e_rules (WE j) st (M (mid_of j) x) (encode (x :: a)) (length (utf8 x)) true = Ok EBreak.
  Proof.
    intros st x a b Hs H. change (e_rules (WE j)) with w_erules in *. unfold w_erules in *. cbv zeta in *.
    rewrite slice_from_ok in H by (rewrite encode_cons, <- app_assoc, app_length; lia). rewrite slice_from_ok by (rewrite encode_cons, app_length; lia).
    cbn [bind] in *. rewrite enc_skip. rewrite enc_skip_app in H.
    match type of H with context [w_rules ?c ?l ?e ?f ?r ?w ?x ?t] => destruct (w_rules c l e f r w x t) as [[| |]| |] eqn:EW; try discriminate end.
    pose proof (w_rules_brkP _ _ _ _ _ _ _ EW (length (encode a))) as HB. cbv beta in HB. rewrite enc_firstn in HB. rewrite HB. reflexivity.
  Qed.
  Lemma w_RJ : forall st x a b adv st' n k, scalars (x :: a) -> e_rules (WE j) st (M (mid_of j) x) (encode (x :: a) ++ b) (length (utf8 x)) true = Ok (EJoin adv st') ->
    (w_mu st' (skipn adv (encode (x :: a) ++ b)) < n)%nat -> eloop (WE j) n (skipn adv (encode (x :: a) ++ b)) true st' = Ok (Some k) -> (adv + k <= length (encode (x :: a)))%nat ->
    e_rules (WE j) st (M (mid_of j) x) (encode (x :: a)) (length (utf8 x)) true = Ok (EJoin adv st') /\ exists a1 a2, x :: a = a1 ++ a2 /\ adv = length (encode a1).
  Proof.
    intros st x a b adv st' n k Hs H Hmu HL Hk. change (e_rules (WE j)) with w_erules in *. unfold w_erules in *. cbv zeta in *.
    rewrite slice_from_ok in H by (rewrite encode_cons, <- app_assoc, app_length; lia). rewrite slice_from_ok by (rewrite encode_cons, app_length; lia).
    cbn [bind] in *. rewrite enc_skip. rewrite enc_skip_app in H.
    set (lastEx := if negb (is (ws_current st) _Ignore) then ws_current st else ws_lastEx st) in *.
    set (lastLastEx := if negb (is (ws_current st) _Ignore) then ws_lastEx st else ws_lastLastEx st) in *.
    destruct (w_rules (M (mid_of j) x) (ws_current st) lastEx lastLastEx (ws_ri st) (length (utf8 x)) (encode a ++ b) true) as [[adv' ri'| |]| |] eqn:EW; try discriminate.
    cbn [bind] in H. injection H as <- <-.
    destruct (w_rules_cutP _ _ _ _ _ _ _ _ _ EW) as [(-> & HF)|(p & v' & w' & E1 & E2 & E3 & E4 & E5 & HF)].
    { specialize (HF (length (encode a))). cbv beta in HF. rewrite enc_firstn in HF. rewrite HF. split; [reflexivity|]. exists [x], a. split; [reflexivity|]. cbn. rewrite app_nil_r. reflexivity. }
    subst adv'. rewrite encode_cons, <- app_assoc in HL. rewrite (Nat.add_comm (length (utf8 x)) p), <- skipn_skipn, skipn_app, skipn_all, Nat.sub_diag in HL. cbn [app skipn] in HL.
    assert (Hw : (w' <= k)%nat) by (eapply (hit_in_token j (encode a ++ b) p v' w'); [exact E2|exact E3|exact E4|exact E5| | | |exact HL]; reflexivity).
    rewrite encode_cons, app_length in Hk. assert (HFa := HF (length (encode a)) ltac:(lia)). cbv beta in HFa. rewrite enc_firstn in HFa. rewrite HFa. split; [reflexivity|].
    (* the place of the hit, read off from the text alone *)
    destruct (w_rules_cutP _ _ _ _ _ _ _ _ _ HFa) as [(E & _)|(p2 & v2 & w2 & F1 & F2 & F3 & F4 & F5 & _)].
    { exists [x], a. split; [reflexivity|]. cbn. rewrite app_nil_r. lia. }
    assert (p2 = p) by lia. subst p2. clear HF.
    assert (HA : exists a1 a2, a = a1 ++ a2 /\ p = length (encode a1)).
    { clear - Hs HFa. revert HFa. apply Forall_inv_tail in Hs.
      assert (LKA : forall cond props next, (next = Ok (WJoin (length (utf8 x) + p) ri') -> exists a1 a2, a = a1 ++ a2 /\ p = length (encode a1)) ->
        lookahead cond props (encode a) true (length (utf8 x)) (ws_ri st) next = Ok (WJoin (length (utf8 x) + p) ri') -> exists a1 a2, a = a1 ++ a2 /\ p = length (encode a1)).
      { intros cond props next HN H. unfold lookahead in H. destruct cond; [|exact (HN H)]. rewrite subsequent_gsub in H.
        destruct (gsubsequent words_lookup _Ignore props (encode a) true) as [[[q|] [|]]| |] eqn:EG; cbn [bind] in H; try discriminate; try exact (HN H).
        all: injection H as H _; assert (q = p) by lia; subst q; exact (found_at _ _ _ _ Hs EG). }
      assert (J0' : forall ri2, Ok (WJoin (length (utf8 x)) ri2) = Ok (WJoin (length (utf8 x) + p) ri') -> exists a1 a2, a = a1 ++ a2 /\ p = length (encode a1)).
      { intros ri2 H. injection H as H _. exists [], a. split; [reflexivity|]. cbn. lia. }
      unfold w_rules. repeat match goal with
        | |- Ok (WJoin (length (utf8 x)) _) = _ -> _ => apply J0'
        | |- Ok WBreak = _ -> _ => discriminate
        | |- lookahead _ _ _ _ _ _ _ = _ -> _ => apply LKA
        | |- (if ?c then _ else _) = _ -> _ => destruct c
        end. }
    destruct HA as (a1 & a2 & -> & ->). exists (x :: a1), a2. split; [reflexivity|]. rewrite encode_cons, app_length. reflexivity.
  Qed.

  Lemma w_pieces : forall a b n, scalars a -> a <> [] -> (n <= length (encode a))%nat ->
    joinersSplitFunc j (encode a ++ b) true = Ok (e_done n (firstn n (encode a ++ b))) -> joinersSplitFunc j (encode a) true = Ok (e_done n (firstn n (encode a))).
  Proof.
    intros a b n Hs Ha Hn H. rewrite <- w_split_engine in H |- *.
    exact (pieces_split (WE j) w_mu (lkM_ok j) (w_rules_ok j) w_fuel (wj_FU j) _ _ (lkL_cp j) (lkM_cp j) w_RB w_RJ a b n Hs Ha Hn H).
  Qed.

  (** The iterator, with its hot path. *)
  Lemma all_alnum : forall d fuel st, In (ws_current st) alV -> (length d < fuel)%nat -> alnum_run d = length d -> eloop (WE j) fuel d true st = Ok (Some (length d)).
  Proof.
    induction d as [|b d IH]; intros fuel st Hc Hf Hr. { destruct fuel; [cbn in Hf; lia|]. reflexivity. }
    destruct fuel as [|fuel]; [cbn in Hf; lia|]. cbn [eloop is_nil]. change (e_lk (WE j)) with (lkM j). change (e_rules (WE j)) with w_erules. cbn [alnum_run length] in Hr.
    destruct (isASCIIAlphanumeric b) eqn:E; [|lia]. destruct (alnum_lookup b d E) as (v & Hl & Hv). unfold lkM. rewrite Hl. cbn [bind Nat.eqb].
    destruct (al_join st (middleBits j (b :: d) v) (b :: d) 1 true Hc (middleBits_al j (b :: d) v Hv) ltac:(cbn; lia)) as (st' & Hr' & Hc').
    rewrite Hr'. cbn [bind]. rewrite slice_from_ok by (cbn; lia). cbn [skipn bind].
    rewrite IH; [reflexivity| |cbn in Hf; lia| lia]. rewrite Hc'. apply middleBits_al. exact Hv.
  Qed.
  Lemma all_alnum_split : forall b d, isASCIIAlphanumeric b = true -> alnum_run d = length d -> joinersSplitFunc j (b :: d) true = Ok (e_done (S (length d)) (b :: d)).
  Proof.
    intros b d E Hr. rewrite <- w_split_engine. unfold esplit. cbn [is_nil]. change (e_lk0 (WE j)) with (lkL j). unfold lkL. destruct (alnum_lookup b d E) as (v & Hl & Hv). rewrite Hl. cbn [bind Nat.eqb].
    rewrite slice_from_ok by (cbn; lia). cbn [skipn bind]. rewrite all_alnum; [|exact (leadingBits_al j (b :: d) v Hv)|unfold w_fuel; cbn; lia|exact Hr].
    cbn [bind]. rewrite slice_to_ok by (cbn; lia). cbn [bind Nat.add firstn]. rewrite firstn_all. reflexivity.
  Qed.
  Lemma alnum_app : forall d b, alnum_run (d ++ b) = if Nat.eqb (alnum_run d) (length d) then (length d + alnum_run b)%nat else alnum_run d.
  Proof.
    induction d as [|c d IH]; intros b; [reflexivity|]. cbn [app alnum_run length]. destruct (isASCIIAlphanumeric c); [|reflexivity]. rewrite IH. cbn [Nat.eqb]. destruct (Nat.eqb _ _); reflexivity.
  Qed.
  Lemma w_ipieces : forall a b n, scalars a -> a <> [] -> (n <= length (encode a))%nat ->
    w_isplit (joinersSplitFunc j) (encode a ++ b) true = Ok (e_done n (firstn n (encode a ++ b))) -> w_isplit (joinersSplitFunc j) (encode a) true = Ok (e_done n (firstn n (encode a))).
  Proof.
    intros a b n Hs Ha Hn H. assert (Hd : encode a <> []) by (intros Z; apply encode_nil_inv in Z; auto). pose proof (w_pieces a b n Hs Ha Hn) as HP.
    unfold w_isplit in *. destruct (encode a) as [|c d]; [congruence|]. clear Hd. cbn [app] in *. unfold hot_run in *. cbn [skipn] in *.
    destruct (isASCIIAlphanumeric c) eqn:EC; [|exact (HP H)]. rewrite alnum_app in H. destruct (Nat.eqb_spec (alnum_run d) (length d)) as [E|E].
    - (* nothing but alphanumerics before the cut *)
      rewrite E, skipn_all. cbn [length] in Hn.
      assert (HN : n = S (length d)).
      { destruct (skipn (length d + alnum_run b) (d ++ b)) as [|b' r].
        - injection H as H _. lia.
        - destruct (b' =? 0x20); [injection H as H _; lia|]. apply HP in H. rewrite (all_alnum_split c d EC E) in H. injection H as H _. lia. }
      subst n. reflexivity.
    - assert (Hlt : (alnum_run d < length d)%nat) by (pose proof (alnum_run_le d); lia).
      rewrite skipn_app in H. replace (alnum_run d - length d)%nat with 0%nat in H by lia. cbn [skipn] in H.
      destruct (skipn (alnum_run d) d) as [|b' r] eqn:ES. { apply (f_equal (@length N)) in ES. rewrite skipn_length in ES. cbn in ES. lia. }
      cbn [app] in H. destruct (b' =? 0x20); [|exact (HP H)]. injection H as H _. assert (n = S (alnum_run d)) by lia. subst n. reflexivity.
  Qed.
End J.
