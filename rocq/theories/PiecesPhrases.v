(** phrases: text cut at the end of a token. *)
From Verif Require Import Base ListFacts Trie LookupFacts TableFacts Engine EngineMore Lk Seek SeekText SpecUtf8 SpecRules UcdFacts UcdPhrases Conform Trunc Pieces BitFacts TablePhrases PhrasesEngine PhrasesCut PhrasesConform.
From Verif Require Phrases.
Import Phrases.
Local Open Scope N_scope.

Definition p_brkP (after : bytes) (F : bytes -> res pdecision) : Prop := F after = Ok PBreak -> forall m, F (firstn m after) = Ok PBreak.
Lemma p_brk_join : forall after w ri, p_brkP after (fun _ => Ok (PJoin w ri)).
Proof. intros after w ri H. discriminate. Qed.
Lemma p_brk_break : forall after, p_brkP after (fun _ => Ok PBreak).
Proof. intros after H m. reflexivity. Qed.
Lemma p_brk_look : forall after w ri cond props next, p_brkP after next -> p_brkP after (fun x => lookahead cond props x true w ri (next x)).
Proof.
  intros after w ri cond props next HN. destruct cond; [|exact HN]. intros H m. unfold lookahead in *. rewrite subsequent_gsub in H |- *.
  destruct (gsubsequent_total phrases_lookup _Ignore props p_lk after true) as (r & mo & Hr & H1 & _). specialize (H1 eq_refl). subst mo. rewrite Hr in H. cbn [bind] in H.
  destruct r as [a|]; [discriminate|]. rewrite (sub_none _ _ _ p_lk _ m Hr). cbn [bind]. apply HN. exact H.
Qed.
Lemma p_rules_brkP : forall cur last lastEx lastLastEx ri w after, p_brkP after (fun x => p_rules cur last lastEx lastLastEx ri w x true).
Proof.
  intros. unfold p_rules. repeat first [apply p_brk_join | apply p_brk_break | apply p_brk_look | match goal with |- p_brkP _ (fun x => if ?c then _ else _) => destruct c end].
Qed.

(** What the lookahead has found is in the token. *)
Lemma hit_in_token : forall d p v w' cur lastEx ri st' fuel k, phrases_lookup (skipn p d) = Ok (v, w') -> w' <> 0%nat -> (p < length d)%nat -> p_hit cur lastEx v ->
  ps_current st' = cur -> ps_lastEx st' = lastEx -> ps_ri st' = ri -> eloop PE fuel (skipn p d) true st' = Ok (Some k) -> (w' <= k)%nat.
Proof.
  intros d p v w' cur lastEx ri st' fuel k E2 E3 Hp E5 X1 X2 X3 HL. destruct fuel as [|fuel]; [discriminate|]. cbn [eloop] in HL.
  rewrite (is_nil_false (skipn p d)) in HL by (apply skipn_nonnil; lia). change (e_lk PE) with phrases_lookup in HL.
  rewrite E2 in HL. cbn [bind] in HL. rewrite (proj2 (Nat.eqb_neq _ _) E3) in HL. change (e_rules PE) with p_erules in HL. unfold p_erules in HL. cbv zeta in HL.
  rewrite X1, X2, X3 in HL. destruct E5 as (I1 & E5). rewrite I1 in HL. cbn [negb] in HL.
  destruct (p_lk (skipn p d)) as (v1 & w1 & Hx & Hw1 & _); [apply skipn_nonnil; lia|]. rewrite E2 in Hx. injection Hx as <- <-.
  rewrite slice_from_ok in HL by exact Hw1. cbn [bind] in HL.
  destruct (p_hit_joins cur lastEx v ri w' (skipn w' (skipn p d)) (conj I1 E5)) as (adv2 & ri2 & HJ). rewrite HJ in HL. cbn [bind] in HL.
  match type of HJ with p_rules ?a ?b ?c ?d ?e ?f ?g ?h = _ => destruct (p_rules_good a b c d e f g h) as (dec2 & Hr2 & Hj2 & _) end. rewrite HJ in Hr2. injection Hr2 as <-. specialize (Hj2 _ _ eq_refl).
  destruct (slice_from (skipn p d) adv2) as [d'| |]; try discriminate. cbn [bind] in HL.
  match type of HL with context [eloop ?x ?y ?z ?t ?q] => destruct (eloop x y z t q) as [[n|]| |] end; try discriminate. cbn [bind option_map] in HL. injection HL as <-. lia.
Qed.

(** The lookahead stops at the end of a character. *)
Lemma found_at : forall props a n m, scalars a -> gsubsequent phrases_lookup _Ignore props (encode a) true = Ok (Some n, m) -> exists a1 a2, a = a1 ++ a2 /\ n = length (encode a1).
Proof.
  intros props a n m Hs H. destruct (seek_text phrases_lookup _Ignore P p_lk p_lookup_cp a Hs) as (a1 & a2 & E & _ & _ & HG). rewrite HG in H.
  destruct (is _ _); [|discriminate]. injection H as <- _. eauto.
Qed.

  Lemma enc_skip : forall x a, skipn (length (utf8 x)) (encode (x :: a)) = encode a.
  Proof. intros. rewrite encode_cons, skipn_app, skipn_all, Nat.sub_diag. reflexivity. Qed.
  Lemma enc_skip_app : forall x a b, skipn (length (utf8 x)) (encode (x :: a) ++ b) = encode a ++ b.
  Proof. intros. rewrite encode_cons, <- app_assoc, skipn_app, skipn_all, Nat.sub_diag. reflexivity. Qed.
  Lemma enc_firstn : forall a b, firstn (length (encode a)) (encode a ++ b) = encode a.
  Proof. intros. rewrite firstn_app, firstn_all, Nat.sub_diag. apply app_nil_r. Qed.
  Lemma p_RB : forall st x a b, scalars (x :: a) -> e_rules PE st (P x) (encode (x :: a) ++ b) (length (utf8 x)) true = Ok EBreak ->
    e_rules PE st (P x) (encode (x :: a)) (length (utf8 x)) true = Ok EBreak.
  Proof.
    intros st x a b Hs H. change (e_rules PE) with p_erules in *. unfold p_erules in *. cbv zeta in *.
    rewrite slice_from_ok in H by (rewrite encode_cons, <- app_assoc, app_length; lia). rewrite slice_from_ok by (rewrite encode_cons, app_length; lia).
    cbn [bind] in *. rewrite enc_skip. rewrite enc_skip_app in H.
    match type of H with context [p_rules ?c ?l ?e ?f ?r ?w ?x ?t] => destruct (p_rules c l e f r w x t) as [[| |]| |] eqn:EW; try discriminate end.
    pose proof (p_rules_brkP _ _ _ _ _ _ _ EW (length (encode a))) as HB. cbv beta in HB. rewrite enc_firstn in HB. rewrite HB. reflexivity.
  Qed.
  Lemma p_RJ : forall st x a b adv st' n k, scalars (x :: a) -> e_rules PE st (P x) (encode (x :: a) ++ b) (length (utf8 x)) true = Ok (EJoin adv st') ->
    (p_mu st' (skipn adv (encode (x :: a) ++ b)) < n)%nat -> eloop PE n (skipn adv (encode (x :: a) ++ b)) true st' = Ok (Some k) -> (adv + k <= length (encode (x :: a)))%nat ->
    e_rules PE st (P x) (encode (x :: a)) (length (utf8 x)) true = Ok (EJoin adv st') /\ exists a1 a2, x :: a = a1 ++ a2 /\ adv = length (encode a1).
  Proof.
    intros st x a b adv st' n k Hs H Hmu HL Hk. change (e_rules PE) with p_erules in *. unfold p_erules in *. cbv zeta in *.
    rewrite slice_from_ok in H by (rewrite encode_cons, <- app_assoc, app_length; lia). rewrite slice_from_ok by (rewrite encode_cons, app_length; lia).
    cbn [bind] in *. rewrite enc_skip. rewrite enc_skip_app in H.
    set (lastEx := if negb (is (ps_current st) _Ignore) then ps_current st else ps_lastEx st) in *.
    set (lastLastEx := if negb (is (ps_current st) _Ignore) then ps_lastEx st else ps_lastLastEx st) in *.
    destruct (p_rules (P x) (ps_current st) lastEx lastLastEx (ps_ri st) (length (utf8 x)) (encode a ++ b) true) as [[adv' ri'| |]| |] eqn:EW; try discriminate.
    cbn [bind] in H. injection H as <- <-.
    destruct (p_rules_cutP _ _ _ _ _ _ _ _ _ EW) as [(-> & HF)|(p & v' & w' & E1 & E2 & E3 & E4 & E5 & HF)].
    { specialize (HF (length (encode a))). cbv beta in HF. rewrite enc_firstn in HF. rewrite HF. split; [reflexivity|]. exists [x], a. split; [reflexivity|]. cbn. rewrite app_nil_r. reflexivity. }
    subst adv'. rewrite encode_cons, <- app_assoc in HL. rewrite (Nat.add_comm (length (utf8 x)) p), <- skipn_skipn, skipn_app, skipn_all, Nat.sub_diag in HL. cbn [app skipn] in HL.
    assert (Hw : (w' <= k)%nat) by (eapply (hit_in_token (encode a ++ b) p v' w'); [exact E2|exact E3|exact E4|exact E5| | | |exact HL]; reflexivity).
    rewrite encode_cons, app_length in Hk. assert (HFa := HF (length (encode a)) ltac:(lia)). cbv beta in HFa. rewrite enc_firstn in HFa. rewrite HFa. split; [reflexivity|].
    (* the place of the hit, read off from the text alone *)
    destruct (p_rules_cutP _ _ _ _ _ _ _ _ _ HFa) as [(E & _)|(p2 & v2 & w2 & F1 & F2 & F3 & F4 & F5 & _)].
    { exists [x], a. split; [reflexivity|]. cbn. rewrite app_nil_r. lia. }
    assert (p2 = p) by lia. subst p2. clear HF.
    assert (HA : exists a1 a2, a = a1 ++ a2 /\ p = length (encode a1)).
    { clear - Hs HFa. revert HFa. apply Forall_inv_tail in Hs.
      assert (LKA : forall cond props next, (next = Ok (PJoin (length (utf8 x) + p) ri') -> exists a1 a2, a = a1 ++ a2 /\ p = length (encode a1)) ->
        lookahead cond props (encode a) true (length (utf8 x)) (ps_ri st) next = Ok (PJoin (length (utf8 x) + p) ri') -> exists a1 a2, a = a1 ++ a2 /\ p = length (encode a1)).
      { intros cond props next HN H. unfold lookahead in H. destruct cond; [|exact (HN H)]. rewrite subsequent_gsub in H.
        destruct (gsubsequent phrases_lookup _Ignore props (encode a) true) as [[[q|] [|]]| |] eqn:EG; cbn [bind] in H; try discriminate; try exact (HN H).
        all: injection H as H _; assert (q = p) by lia; subst q; exact (found_at _ _ _ _ Hs EG). }
      assert (J0' : forall ri2, Ok (PJoin (length (utf8 x)) ri2) = Ok (PJoin (length (utf8 x) + p) ri') -> exists a1 a2, a = a1 ++ a2 /\ p = length (encode a1)).
      { intros ri2 H. injection H as H _. exists [], a. split; [reflexivity|]. cbn. lia. }
      unfold p_rules. repeat match goal with
        | |- Ok (PJoin (length (utf8 x)) _) = _ -> _ => apply J0'
        | |- Ok PBreak = _ -> _ => discriminate
        | |- lookahead _ _ _ _ _ _ _ = _ -> _ => apply LKA
        | |- (if ?c then _ else _) = _ -> _ => destruct c
        end. }
    destruct HA as (a1 & a2 & -> & ->). exists (x :: a1), a2. split; [reflexivity|]. rewrite encode_cons, app_length. reflexivity.
  Qed.

  Lemma p_pieces : forall a b n, scalars a -> a <> [] -> (n <= length (encode a))%nat ->
    splitFunc (encode a ++ b) true = Ok (e_done n (firstn n (encode a ++ b))) -> splitFunc (encode a) true = Ok (e_done n (firstn n (encode a))).
  Proof.
    intros a b n Hs Ha Hn H. rewrite <- p_split_engine in H |- *.
    exact (pieces_split PE p_mu p_lk p_rules_ok p_fuel p_FU P P p_lookup_cp p_lookup_cp p_RB p_RJ a b n Hs Ha Hn H).
  Qed.

