(** Text cut at the end of one of its tokens: the tokens before the cut are those of the first piece. *)
From Verif Require Import Base ListFacts Trie Engine EngineMore Seek SpecUtf8 SpecIter SpecRules UcdFacts Conform Drive Trunc CutApi.

Section Pieces.
  Variable E : eng.
  Variable mu : e_St E -> bytes -> nat.
  Hypothesis LK : lk_ok (e_lk E).
  Hypothesis RU : rules_ok E mu.
  Variable fuel : bytes -> nat.
  Hypothesis FU : forall data v w, e_lk0 E data = Ok (v, w) -> w <> 0 -> w <= length data -> mu (e_init E v) (skipn w data) < fuel data.
  Variables P0 P : N -> N.
  Hypothesis HP0 : forall x rest, scalar x -> e_lk0 E (utf8 x ++ rest) = Ok (P0 x, length (utf8 x)).
  Hypothesis HP : forall x rest, scalar x -> e_lk E (utf8 x ++ rest) = Ok (P x, length (utf8 x)).

  (** A break is a break without the rest; a Join is a Join if the token ends before the rest. *)
  Hypothesis RB : forall st x a b, scalars (x :: a) -> e_rules E st (P x) (encode (x :: a) ++ b) (length (utf8 x)) true = Ok EBreak ->
    e_rules E st (P x) (encode (x :: a)) (length (utf8 x)) true = Ok EBreak.
  Hypothesis RJ : forall st x a b adv st' n k, scalars (x :: a) -> e_rules E st (P x) (encode (x :: a) ++ b) (length (utf8 x)) true = Ok (EJoin adv st') ->
    mu st' (skipn adv (encode (x :: a) ++ b)) < n -> eloop E n (skipn adv (encode (x :: a) ++ b)) true st' = Ok (Some k) -> adv + k <= length (encode (x :: a)) ->
    e_rules E st (P x) (encode (x :: a)) (length (utf8 x)) true = Ok (EJoin adv st') /\ exists a1 a2, x :: a = a1 ++ a2 /\ adv = length (encode a1).

  Lemma pieces_loop : forall n n' st a b k, scalars a -> mu st (encode a ++ b) < n -> mu st (encode a) < n' ->
    eloop E n (encode a ++ b) true st = Ok (Some k) -> k <= length (encode a) -> eloop E n' (encode a) true st = Ok (Some k).
  Proof.
    induction n as [|n IH]; intros n' st a b k Hs Hn Hn' H Hk; [lia|]. destruct n' as [|n']; [lia|].
    destruct a as [|x a]. { cbn [encode map concat length] in Hk. replace k with 0 by lia. reflexivity. }
    assert (Hx : scalar x) by exact (Forall_inv Hs).
    assert (Hl : e_lk E (encode (x :: a)) = Ok (P x, length (utf8 x))) by (rewrite encode_cons; apply HP; exact Hx).
    assert (Hlb : e_lk E (encode (x :: a) ++ b) = Ok (P x, length (utf8 x))) by (rewrite encode_cons, <- app_assoc; apply HP; exact Hx).
    assert (Hd : encode (x :: a) <> []) by (intros Z; apply encode_nil_inv in Z; discriminate).
    assert (Hdb : encode (x :: a) ++ b <> []) by (destruct (encode (x :: a)); [congruence|discriminate]).
    cbn [eloop] in H |- *. rewrite (is_nil_false _ Hd), Hl. rewrite (is_nil_false _ Hdb), Hlb in H. cbn [bind] in *.
    rewrite (proj2 (Nat.eqb_neq _ _) (utf8_len x)) in *.
    destruct (RU st (P x) (encode (x :: a) ++ b) (length (utf8 x)) Hdb Hlb (utf8_len x)) as (T & _). destruct (T true) as (dec & R & Hj & Hm & _).
    rewrite R in H. cbn [bind] in H. destruct dec as [adv st'| | |]; try discriminate.
    - destruct (Hj _ _ eq_refl) as (Hle & Hmu). rewrite slice_from_ok in H by exact Hle. cbn [bind] in H.
      destruct (eloop E n (skipn adv (encode (x :: a) ++ b)) true st') as [[k'|]| |] eqn:EL; try discriminate. cbn [bind option_map] in H. injection H as <-.
      destruct (RJ _ _ _ _ _ _ n k' Hs R ltac:(lia) EL Hk) as (R' & a1 & a2 & Ea & ->). rewrite R'. cbn [bind].
      destruct (RU st (P x) (encode (x :: a)) (length (utf8 x)) Hd Hl (utf8_len x)) as (T2 & _). destruct (T2 true) as (dec2 & R2 & Hj2 & _). rewrite R' in R2. injection R2 as <-.
      destruct (Hj2 _ _ eq_refl) as (Hle2 & Hmu2). rewrite slice_from_ok by exact Hle2. cbn [bind].
      rewrite Ea in *. rewrite skipn_encode in *. assert (ES : skipn (length (encode a1)) (encode (a1 ++ a2) ++ b) = encode a2 ++ b) by (rewrite encode_app, <- app_assoc, skipn_app, skipn_all, Nat.sub_diag; reflexivity).
      rewrite ES in *. rewrite encode_app, app_length in Hk. rewrite (IH n' st' a2 b k'); auto; try lia. apply Forall_app in Hs. tauto.
    - injection H as <-. rewrite (RB _ _ _ _ Hs R). reflexivity.
    - injection H as <-. rewrite app_length in Hk. assert (b = []) as -> by (destruct b; [reflexivity|cbn in Hk; lia]). rewrite app_nil_r in *. rewrite R. reflexivity.
  Qed.

  Lemma pieces_split : forall a b n, scalars a -> a <> [] -> n <= length (encode a) ->
    esplit E fuel (encode a ++ b) true = Ok (e_done n (firstn n (encode a ++ b))) -> esplit E fuel (encode a) true = Ok (e_done n (firstn n (encode a))).
  Proof.
    intros [|x a] b n Hs Ha Hn H; [congruence|]. clear Ha.
    assert (Hx : scalar x) by exact (Forall_inv Hs).
    assert (Hl : e_lk0 E (encode (x :: a)) = Ok (P0 x, length (utf8 x))) by (rewrite encode_cons; apply HP0; exact Hx).
    assert (Hlb : e_lk0 E (encode (x :: a) ++ b) = Ok (P0 x, length (utf8 x))) by (rewrite encode_cons, <- app_assoc; apply HP0; exact Hx).
    assert (Hd : encode (x :: a) <> []) by (intros Z; apply encode_nil_inv in Z; discriminate).
    assert (Hdb : encode (x :: a) ++ b <> []) by (destruct (encode (x :: a)); [congruence|discriminate]).
    unfold esplit in *. rewrite (is_nil_false _ Hd), Hl. rewrite (is_nil_false _ Hdb), Hlb in H. cbn [bind] in *. rewrite (proj2 (Nat.eqb_neq _ _) (utf8_len x)) in *.
    assert (L1 : length (utf8 x) <= length (encode (x :: a))) by (rewrite encode_cons, app_length; lia).
    assert (L2 : length (utf8 x) <= length (encode (x :: a) ++ b)) by (rewrite app_length; lia).
    pose proof (FU _ _ _ Hl (utf8_len x) L1) as F1. pose proof (FU _ _ _ Hlb (utf8_len x) L2) as F2.
    rewrite slice_from_ok in * by assumption. cbn [bind] in *.
    assert (S1 : skipn (length (utf8 x)) (encode (x :: a)) = encode a) by (rewrite encode_cons, skipn_app, skipn_all, Nat.sub_diag; reflexivity).
    assert (S2 : skipn (length (utf8 x)) (encode (x :: a) ++ b) = encode a ++ b) by (rewrite encode_cons, <- app_assoc, skipn_app, skipn_all, Nat.sub_diag; reflexivity).
    rewrite S1 in *. rewrite S2 in *. destruct (eloop E (fuel (encode (x :: a) ++ b)) (encode a ++ b) true (e_init E (P0 x))) as [[k|]| |] eqn:EL; try discriminate. cbn [bind] in H.
    destruct (eloop_total E mu LK RU _ _ _ F2) as ((k0 & Hk0 & Hle) & _). rewrite EL in Hk0. injection Hk0 as <-.
    rewrite slice_to_ok in H by (rewrite encode_cons, <- app_assoc, app_length; lia). cbn [bind] in H. injection H as H _. assert (E1 : n = length (utf8 x) + k) by lia. clear H. subst n.
    rewrite encode_cons, app_length in Hn. rewrite (pieces_loop _ (fuel (encode (x :: a))) _ _ _ _ (Forall_inv_tail Hs) F2 F1 EL) by lia. cbn [bind].
    rewrite slice_to_ok by (rewrite encode_cons, app_length; lia). reflexivity.
  Qed.
End Pieces.
