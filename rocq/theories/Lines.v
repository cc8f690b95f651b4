(** Text that ends in a line feed is segmented independently of what follows it. *)
From Verif Require Import Base ListFacts Trie Engine EngineMore Seek SpecUtf8 SpecIter SpecRules UcdFacts Conform Drive RuleFacts WordFacts SeekText.

Lemma last_cons : forall x (a : text), a <> [] -> last_char (x :: a) = last_char a.
Proof. intros x [|y a] H; [congruence|reflexivity]. Qed.
Lemma last_app_r : forall (a1 a2 : text), a2 <> [] -> last_char (a1 ++ a2) = last_char a2.
Proof.
  induction a1 as [|x a1 IH]; intros a2 H; [reflexivity|]. cbn [app]. rewrite last_cons; [auto|]. destruct a1; [exact H|discriminate].
Qed.

Section Lines.
  Variable E : eng.
  Variable mu : e_St E -> bytes -> nat.
  Hypothesis RU : rules_ok E mu.
  Variable fuel : bytes -> nat.
  Hypothesis FU : forall data v w, e_lk0 E data = Ok (v, w) -> w <> 0 -> w <= length data ->
    mu (e_init E v) (skipn w data) < fuel data.
  Variable f : splitfun.
  Hypothesis SP : forall data b, esplit E fuel data b = f data b.
  Hypothesis OK : split_ok f.
  Variables P0 P : N -> N.
  Hypothesis HP0 : forall x rest, scalar x -> e_lk0 E (utf8 x ++ rest) = Ok (P0 x, length (utf8 x)).
  Hypothesis HP : forall x rest, scalar x -> e_lk E (utf8 x ++ rest) = Ok (P x, length (utf8 x)).

  (** The state after a line feed. *)
  Variable atLF : e_St E -> Prop.
  Hypothesis INITLF : atLF (e_init E (P0 10%N)).
  Hypothesis BRK : forall st v d w, atLF st -> e_lk E d = Ok (v, w) -> w <> 0 -> e_rules E st v d w true = Ok EBreak.
  Hypothesis RL : forall st x a, scalars (x :: a) -> last_char (x :: a) = Some 10%N ->
    exists dec, e_rules E st (P x) (encode (x :: a)) (length (utf8 x)) false = Ok dec
      /\ match dec with
         | EBreak => True
         | EJoin adv st' => exists a1 a2, x :: a = a1 ++ a2 /\ adv = length (encode a1) /\ (a2 = [] -> atLF st')
         | _ => False
         end.

  (** [b] does not begin with an incomplete character (or is empty). *)
  Definition starts_whole (b : bytes) : Prop := b = [] \/ exists v w, e_lk E b = Ok (v, w) /\ w <> 0.

  Lemma skipn_enc : forall a1 a2 b, skipn (length (encode a1)) (encode (a1 ++ a2) ++ b) = encode a2 ++ b.
  Proof. intros. rewrite encode_app, <- app_assoc, skipn_app, skipn_all, Nat.sub_diag. reflexivity. Qed.

  Lemma lines_loop : forall n n' st a b, scalars a -> (a = [] /\ atLF st \/ last_char a = Some 10%N) -> starts_whole b ->
    mu st (encode a ++ b) < n -> mu st (encode a) < n' ->
    exists a1 a2, a = a1 ++ a2 /\ eloop E n (encode a ++ b) true st = Ok (Some (length (encode a1)))
      /\ eloop E n' (encode a) true st = Ok (Some (length (encode a1))).
  Proof.
    induction n as [|n IH]; intros n' st a b Hs Ha Hb Hn Hn'; [lia|]. destruct n' as [|n']; [lia|].
    destruct a as [|x a].
    { destruct Ha as [[_ Ha]|Ha]; [|discriminate]. exists [], []. split; [reflexivity|]. cbn [encode map concat app eloop is_nil length]. split; [|reflexivity].
      destruct b as [|c b]; [reflexivity|]. destruct Hb as [Hb|(v & w & Hl & Hw)]; [discriminate|]. cbn [is_nil].
      rewrite Hl. cbn [bind]. rewrite (proj2 (Nat.eqb_neq _ _) Hw). rewrite (BRK _ _ _ _ Ha Hl Hw). reflexivity. }
    destruct Ha as [[Ha _]|Ha]; [discriminate|].
    assert (Hx : scalar x) by exact (Forall_inv Hs).
    assert (Hl : e_lk E (encode (x :: a)) = Ok (P x, length (utf8 x))) by (rewrite encode_cons; apply HP; exact Hx).
    assert (Hlb : e_lk E (encode (x :: a) ++ b) = Ok (P x, length (utf8 x))) by (rewrite encode_cons, <- app_assoc; apply HP; exact Hx).
    assert (Hd : encode (x :: a) <> []) by (intros H; apply encode_nil_inv in H; discriminate).
    assert (Hdb : encode (x :: a) ++ b <> []) by (destruct (encode (x :: a)); [congruence|discriminate]).
    cbn [eloop]. rewrite (is_nil_false _ Hd), (is_nil_false _ Hdb), Hl, Hlb. cbn [bind].
    rewrite (proj2 (Nat.eqb_neq _ _) (utf8_len x)).
    destruct (RL st x a Hs Ha) as (dec & R0 & HD).
    assert (R : forall t, e_rules E st (P x) (encode (x :: a) ++ t) (length (utf8 x)) true = Ok dec).
    { intros t. destruct (RU st (P x) (encode (x :: a)) (length (utf8 x)) Hd Hl (utf8_len x)) as (_ & Z). apply Z; [exact R0|].
      intros ->. exact HD. }
    pose proof (R b) as R1. pose proof (R []) as R2. rewrite app_nil_r in R2. rewrite R1, R2. cbn [bind].
    destruct dec as [adv st'| | |]; try contradiction.
    2:{ exists [], (x :: a). auto. }
    destruct HD as (a1 & a2 & Ea & -> & HL).
    destruct (RU st (P x) (encode (x :: a)) (length (utf8 x)) Hd Hl (utf8_len x)) as (T & _).
    destruct (T true) as (dec & R2' & Hj & _). rewrite R2 in R2'. injection R2' as <-. destruct (Hj _ _ eq_refl) as (Hle & Hmu).
    destruct (RU st (P x) (encode (x :: a) ++ b) (length (utf8 x)) Hdb Hlb (utf8_len x)) as (T2 & _).
    destruct (T2 true) as (dec & R1' & Hj2 & _). rewrite R1 in R1'. injection R1' as <-. destruct (Hj2 _ _ eq_refl) as (Hle2 & Hmu2).
    rewrite !slice_from_ok by assumption. cbn [bind]. rewrite Ea in *. rewrite skipn_enc in *. rewrite skipn_encode in *.
    destruct (IH n' st' a2 b) as (c1 & c2 & Ec & E1 & E2); try assumption; try lia.
    - apply Forall_app in Hs. tauto.
    - destruct a2 as [|z a2]; [left; auto|]. right. rewrite <- Ha. symmetry. apply last_app_r. discriminate.
    - rewrite E1, E2. cbn [bind option_map]. exists (a1 ++ c1), c2. rewrite Ec, app_assoc. split; [reflexivity|].
      rewrite encode_app, app_length. auto.
  Qed.

  Lemma lines_split : forall x a b, scalars (x :: a) -> last_char (x :: a) = Some 10%N -> starts_whole b ->
    exists a1 a2, x :: a = a1 ++ a2 /\ a1 <> []
      /\ f (encode (x :: a) ++ b) true = Ok (e_done (length (encode a1)) (encode a1))
      /\ f (encode (x :: a)) true = Ok (e_done (length (encode a1)) (encode a1)).
  Proof.
    intros x a b Hs Ha Hb. rewrite <- !SP. unfold esplit.
    assert (Hx : scalar x) by exact (Forall_inv Hs).
    assert (Hl : e_lk0 E (encode (x :: a)) = Ok (P0 x, length (utf8 x))) by (rewrite encode_cons; apply HP0; exact Hx).
    assert (Hlb : e_lk0 E (encode (x :: a) ++ b) = Ok (P0 x, length (utf8 x))) by (rewrite encode_cons, <- app_assoc; apply HP0; exact Hx).
    assert (Hd : encode (x :: a) <> []) by (intros H; apply encode_nil_inv in H; discriminate).
    assert (Hdb : encode (x :: a) ++ b <> []) by (destruct (encode (x :: a)); [congruence|discriminate]).
    rewrite (is_nil_false _ Hd), (is_nil_false _ Hdb), Hl, Hlb. cbn [bind]. rewrite (proj2 (Nat.eqb_neq _ _) (utf8_len x)).
    assert (L1 : length (utf8 x) <= length (encode (x :: a))) by (rewrite encode_cons, app_length; lia).
    assert (L2 : length (utf8 x) <= length (encode (x :: a) ++ b)) by (rewrite app_length; lia).
    pose proof (FU _ _ _ Hl (utf8_len x) L1) as F1. pose proof (FU _ _ _ Hlb (utf8_len x) L2) as F2.
    rewrite !slice_from_ok by assumption. cbn [bind].
    assert (S1 : skipn (length (utf8 x)) (encode (x :: a)) = encode a) by (rewrite encode_cons, skipn_app, skipn_all, Nat.sub_diag; reflexivity).
    assert (S2 : skipn (length (utf8 x)) (encode (x :: a) ++ b) = encode a ++ b) by (rewrite encode_cons, <- app_assoc, skipn_app, skipn_all, Nat.sub_diag; reflexivity).
    rewrite S1 in *. rewrite S2 in *.
    destruct (lines_loop (fuel (encode (x :: a) ++ b)) (fuel (encode (x :: a))) (e_init E (P0 x)) a b (Forall_inv_tail Hs)) as (a1 & a2 & Ea & E1 & E2); try assumption.
    { destruct a as [|y a]; [left; split; [reflexivity|]; cbn in Ha; injection Ha as ->; exact INITLF|]. right. rewrite <- Ha. reflexivity. }
    rewrite E1, E2. cbn [bind]. exists (x :: a1), a2. split; [rewrite Ea; reflexivity|]. split; [discriminate|].
    assert (Hlen : length (utf8 x) + length (encode a1) = length (encode (x :: a1))) by (rewrite encode_cons, app_length; reflexivity).
    rewrite Hlen. rewrite Ea. change (x :: a1 ++ a2) with ((x :: a1) ++ a2).
    rewrite !slice_to_ok by (rewrite ?app_length, encode_app, app_length; lia). cbn [bind].
    rewrite firstn_encode. rewrite encode_app, <- app_assoc, firstn_app, firstn_all, Nat.sub_diag. cbn [firstn]. rewrite app_nil_r. auto.
  Qed.

  Lemma lines_chop : forall k a b la lb n, length a <= k -> scalars a -> (a = [] \/ last_char a = Some 10%N) -> starts_whole b ->
    chop f (S (length (encode a))) (encode a) = Ok la -> chop f (S (length b)) b = Ok lb -> length (encode a ++ b) < n ->
    chop f n (encode a ++ b) = Ok (la ++ lb).
  Proof.
    induction k as [|k IH]; intros a b la lb n Hk Hs Ha Hb HA HB Hn.
    - destruct a as [|x a]; [|cbn in Hk; lia]. cbn in HA. injection HA as <-. cbn [encode map concat app] in *. rewrite <- HB. apply (chop_fuel f OK); [exact Hn|lia].
    - destruct a as [|x a].
      { cbn in HA. injection HA as <-. cbn [encode map concat app] in *. rewrite <- HB. apply (chop_fuel f OK); [exact Hn|lia]. }
      destruct Ha as [Ha|Ha]; [discriminate|].
      destruct (lines_split x a b Hs Ha Hb) as (a1 & a2 & Ea & Hne & F1 & F2).
      assert (Hd : encode (x :: a) <> []) by (intros H; apply encode_nil_inv in H; discriminate).
      assert (Hdb : encode (x :: a) ++ b <> []) by (destruct (encode (x :: a)); [congruence|discriminate]).
      destruct n as [|n]; [lia|]. cbn [chop] in HA |- *. rewrite (is_nil_false _ Hd) in HA. rewrite (is_nil_false _ Hdb). rewrite F1. rewrite F2 in HA.
      cbn [bind e_done so_token so_advance] in *. rewrite Nat2Z.id in *. rewrite Ea in *. rewrite skipn_enc. rewrite skipn_encode in HA.
      assert (HL1 : length (encode a1) <> 0).
      { destruct a1 as [|y a1]; [congruence|]. rewrite encode_cons, app_length. pose proof (utf8_len y). lia. }
      rewrite (chop_fuel f OK (length (encode (a1 ++ a2))) (S (length (encode a2))) (encode a2)) in HA by (rewrite ?encode_app, ?app_length; lia).
      destruct (chop f (S (length (encode a2))) (encode a2)) as [l2| |] eqn:E2; try discriminate. cbn [bind] in HA. injection HA as <-.
      rewrite (IH a2 b l2 lb n).
      + reflexivity.
      + rewrite app_length in Hk. destruct a1; [congruence|]. cbn [length] in Hk. lia.
      + apply Forall_app in Hs. tauto.
      + destruct a2 as [|z a2]; [left; reflexivity|]. right. rewrite <- Ha. symmetry. apply last_app_r. discriminate.
      + exact Hb.
      + exact E2.
      + exact HB.
      + rewrite encode_app, <- app_assoc, app_length in Hn. lia.
  Qed.
End Lines.

(** The look-ahead stops at a character that is not ignored, whatever follows. *)
Lemma seek_stop : forall lk ign P, lk_ok lk -> (forall x rest, scalar x -> lk (utf8 x ++ rest) = Ok (P x, length (utf8 x))) ->
  forall a, scalars a -> Exists (fun c => is (P c) ign = false) a ->
  exists a1 c a2, a = a1 ++ c :: a2 /\ forall props,
    gsubsequent lk ign props (encode a) false = Ok (if is (P c) props then Some (length (encode a1)) else None, false).
Proof.
  intros lk ign P LK HP a Hs HE.
  enough (HR : exists a1 c a2, a = a1 ++ c :: a2 /\ forall props fuel, length (encode a) < fuel ->
    rsub lk ign props fuel (encode a) false = Ok (if is (P c) props then Some (length (encode a1)) else None, false)).
  { destruct HR as (a1 & c & a2 & Ea & H). exists a1, c, a2. split; [exact Ea|]. intros props. rewrite gsubsequent_rsub by exact LK. apply H. lia. }
  induction a as [|x a IH]; [inversion HE|].
  assert (Hx : scalar x) by exact (Forall_inv Hs).
  assert (HL : forall props fuel, rsub lk ign props (S fuel) (encode (x :: a)) false =
     if is (P x) ign then (' (r, m) <- rsub lk ign props fuel (encode a) false ;; Ok (option_map (fun n => length (utf8 x) + n) r, m))
     else if is (P x) props then Ok (Some 0, false) else Ok (None, false)).
  { intros props fuel. cbn [rsub]. rewrite encode_cons. destruct (utf8_nonnil x) as (b0 & s0 & Eu).
    assert (is_nil (utf8 x ++ encode a) = false) as -> by (rewrite Eu; reflexivity).
    rewrite HP by exact Hx. cbn [bind]. rewrite Eu at 1. cbn [length Nat.eqb].
    destruct (is (P x) ign); [|reflexivity]. rewrite slice_from_ok by (rewrite app_length; lia). cbn [bind].
    rewrite skipn_app, skipn_all, Nat.sub_diag. reflexivity. }
  destruct (is (P x) ign) eqn:EI.
  - destruct IH as (a1 & c & a2 & -> & H); [exact (Forall_inv_tail Hs)|inversion HE; [congruence|assumption]|].
    exists (x :: a1), c, a2. split; [reflexivity|]. intros props fuel Hf. destruct fuel as [|fuel]; [lia|]. rewrite HL.
    rewrite H. 2:{ rewrite encode_cons, app_length in Hf. pose proof (utf8_len x). lia. }
    cbn [bind]. rewrite encode_cons, app_length. destruct (is (P c) props); reflexivity.
  - exists [], x, a. split; [reflexivity|]. intros props fuel Hf. destruct fuel as [|fuel]; [lia|]. rewrite HL. destruct (is (P x) props); reflexivity.
Qed.

Lemma last_exists : forall (Q : N -> Prop) a, last_char a = Some 10%N -> Q 10%N -> Exists Q a.
Proof.
  induction a as [|x a IH]; intros H HQ; [discriminate|]. destruct a as [|y a].
  - cbn in H. injection H as ->. left. exact HQ.
  - right. apply IH; [exact H|exact HQ].
Qed.

Lemma one_adv : forall x (a : text), exists a1 a2, x :: a = a1 ++ a2 /\ length (utf8 x) = length (encode a1) /\ a1 = [x] /\ a2 = a.
Proof. intros x a. exists [x], a. rewrite encode_cons. cbn [encode map concat]. rewrite app_nil_r. auto. Qed.
