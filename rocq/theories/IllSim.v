(** Ill-formed text: the loop runs on the units as it runs on the characters they stand for. *)
From Verif Require Import Base ListFacts Trie Engine EngineMore SpecUtf8 SpecIter SpecRules UcdFacts Conform SpecIll IllFacts.

(** The text a list of units stands for. *)
Notation stand us := (encode (map character us)).

Lemma units_drop : forall us1 us2 d tail, units d (us1 ++ us2) tail -> units (concat us2 ++ tail) us2 tail /\ d = concat us1 ++ concat us2 ++ tail.
Proof.
  induction us1 as [|u us1 IH]; intros us2 d tail U.
  - pose proof (units_concat _ _ _ U) as E. cbn [app] in *. rewrite <- E. split; [exact U|reflexivity].
  - remember ((u :: us1) ++ us2) as x. destruct U as [t E|u' d us t E U]; [discriminate|]. injection Heqx as -> ->.
    destruct (IH _ _ _ U) as (U2 & ->). split; [exact U2|]. cbn [concat]. rewrite !app_assoc. reflexivity.
Qed.
Lemma units_head : forall d u us tail, units d (u :: us) tail -> exists d', d = u ++ d' /\ first_unit (u ++ d') = Some u /\ units d' us tail.
Proof. intros d u us tail U. remember (u :: us) as x. destruct U as [t E|u' d us' t E U]; [discriminate|]. injection Heqx as -> ->. exists d. auto. Qed.
Lemma units_nil : forall d tail, units d [] tail -> d = tail /\ first_unit tail = None.
Proof. intros d tail U. remember [] as x. destruct U as [t E|]; [auto|discriminate]. Qed.
Lemma chars_scalars : forall us, scalars (map character us).
Proof. induction us; constructor; [apply character_scalar|assumption]. Qed.
Lemma concat_nonnil : forall u us tail d, units d (u :: us) tail -> d <> [].
Proof. intros u us tail d U. destruct (units_head _ _ _ _ U) as (d' & -> & F & _). apply first_unit_nonnil in F. destruct u; [congruence|discriminate]. Qed.

(** What comes after the units that were taken: the tail, when they were the last. *)
Definition end_of (us : list bytes) (tail : bytes) : bytes := match us with [] => tail | _ => [] end.

Section Sim.
  Variable E : eng.
  Variable mu : e_St E -> bytes -> nat.
  Hypothesis RU : rules_ok E mu.
  Variable fuel : bytes -> nat.
  Hypothesis FU : forall data v w, e_lk0 E data = Ok (v, w) -> w <> 0 -> w <= length data -> mu (e_init E v) (skipn w data) < fuel data.
  Variable f : splitfun.
  Hypothesis SP : forall data b, esplit E fuel data b = f data b.
  Variables P0 P : N -> N.
  Hypothesis U0 : forall u d, first_unit (u ++ d) = Some u -> e_lk0 E (u ++ d) = Ok (P0 (character u), length u).
  Hypothesis U1 : forall u d, first_unit (u ++ d) = Some u -> e_lk E (u ++ d) = Ok (P (character u), length u).
  Hypothesis N0 : forall d, d <> [] -> first_unit d = None -> exists v, e_lk0 E d = Ok (v, 0).
  Hypothesis N1 : forall d, d <> [] -> first_unit d = None -> exists v, e_lk E d = Ok (v, 0).
  Variable T : bytes -> Prop.
  Hypothesis STEP : forall st (u d : bytes) (us : list bytes) (tail : bytes), T tail -> units (u ++ d) (u :: us) tail -> exists dec,
    e_rules E st (P (character u)) (u ++ d) (length u) true = Ok dec
    /\ match dec with
       | EBreak => e_rules E st (P (character u)) (stand (u :: us)) (length (utf8 (character u))) true = Ok EBreak
       | EJoin adv st' => exists us1 us2 : list bytes, u :: us = us1 ++ us2 /\ adv = length (concat us1)
           /\ e_rules E st (P (character u)) (stand (u :: us)) (length (utf8 (character u))) true = Ok (EJoin (length (stand us1)) st')
       | _ => False
       end.

  Lemma lk_stand : forall (u : bytes) (us : list bytes), e_lk E (stand (u :: us)) = Ok (P (character u), length (utf8 (character u))).
  Proof.
    intros u us. cbn [map]. rewrite encode_cons. pose proof (first_unit_utf8 (character u) (stand us) (character_scalar u)) as F.
    rewrite (U1 _ _ F), (character_utf8 _ (character_scalar u)). reflexivity.
  Qed.
  Lemma lk0_stand : forall (u : bytes) (us : list bytes), e_lk0 E (stand (u :: us)) = Ok (P0 (character u), length (utf8 (character u))).
  Proof.
    intros u us. cbn [map]. rewrite encode_cons. pose proof (first_unit_utf8 (character u) (stand us) (character_scalar u)) as F.
    rewrite (U0 _ _ F), (character_utf8 _ (character_scalar u)). reflexivity.
  Qed.
  Lemma stand_nonnil : forall (u : bytes) (us : list bytes), stand (u :: us) <> [].
  Proof. intros u us H. apply encode_nil_inv in H. discriminate. Qed.

  Lemma sim_loop : forall n m st d us tail, T tail -> units d us tail -> mu st d < n -> mu st (stand us) < m ->
    exists us1 us2 : list bytes, us = us1 ++ us2 /\ eloop E n d true st = Ok (Some (length (concat us1 ++ end_of us2 tail)))
      /\ eloop E m (stand us) true st = Ok (Some (length (stand us1))).
  Proof.
    induction n as [|n IH]; intros m st d us tail HT HU Hn Hm; [lia|]. destruct m as [|m]; [lia|].
    destruct us as [|u us].
    { destruct (units_nil _ _ HU) as (-> & Fn). exists [], []. split; [reflexivity|]. split; [|reflexivity]. cbn [concat app end_of].
      destruct tail as [|c tail]; [reflexivity|]. destruct (N1 (c :: tail) ltac:(discriminate) Fn) as (v & Hl). cbn [eloop is_nil]. rewrite Hl. reflexivity. }
    pose proof (concat_nonnil _ _ _ _ HU) as Hd. destruct (units_head _ _ _ _ HU) as (d' & -> & Hu & HU').
    destruct (STEP st u d' us tail HT HU) as (dec & Hr & Hdec). pose proof (U1 _ _ Hu) as Hl. pose proof (lk_stand u us) as Hl'.
    pose proof (first_unit_nonnil _ _ Hu) as Nu. assert (Wu : length u <> 0) by (destruct u; [congruence|discriminate]).
    pose proof (utf8_len (character u)) as Wx. pose proof (stand_nonnil u us) as Hd'.
    destruct (RU st _ _ _ Hd Hl Wu) as (Tt & _). destruct (Tt true) as (dec1 & Hr1 & Hj1 & _). rewrite Hr in Hr1. injection Hr1 as <-.
    destruct (RU st _ _ _ Hd' Hl' Wx) as (Tt' & _). destruct (Tt' true) as (dec2 & Hr2 & Hj2 & _).
    set (x := u ++ d') in *. set (y := stand (u :: us)) in *.
    cbn [eloop]. rewrite (is_nil_false _ Hd), (is_nil_false _ Hd'), Hl, Hl'. cbn [bind].
    destruct (Nat.eqb_spec (length u) 0) as [|_]; [contradiction|]. destruct (Nat.eqb_spec (length (utf8 (character u))) 0) as [|_]; [contradiction|].
    rewrite Hr. cbn [bind]. destruct dec as [adv st'| | |]; try contradiction.
    - destruct Hdec as (us1 & us2 & Eus & -> & Hr'). rewrite Hr' in Hr2. injection Hr2 as <-. rewrite Hr'. cbn [bind].
      destruct (Hj1 _ _ eq_refl) as (Hle & Hmu). destruct (Hj2 _ _ eq_refl) as (Hle' & Hmu'). rewrite !slice_from_ok by assumption. cbn [bind].
      rewrite Eus in HU. destruct (units_drop _ _ _ _ HU) as (HU2 & Ex).
      assert (Sx : skipn (length (concat us1)) x = concat us2 ++ tail) by (rewrite Ex, skipn_app, skipn_all, Nat.sub_diag; reflexivity).
      assert (Sy : skipn (length (stand us1)) y = stand us2) by (unfold y; rewrite Eus, map_app; apply skipn_encode).
      rewrite Sx in *. rewrite Sy in *. destruct (IH m st' _ us2 tail HT HU2) as (v1 & v2 & Ev & H1 & H2); [lia|lia|].
      rewrite H1, H2. cbn [bind option_map]. exists (us1 ++ v1), v2. split; [rewrite Eus, Ev, app_assoc; reflexivity|].
      rewrite concat_app, map_app, encode_app, !app_length. split; do 2 f_equal; lia.
    - rewrite Hdec. cbn [bind]. exists [], (u :: us). auto.
  Qed.

  Lemma sim_split : forall (d u : bytes) (us : list bytes) (tail : bytes), T tail -> units d (u :: us) tail -> exists us1 us2 : list bytes, us = us1 ++ us2
    /\ f d true = Ok (e_done (length (concat (u :: us1) ++ end_of us2 tail)) (concat (u :: us1) ++ end_of us2 tail))
    /\ f (stand (u :: us)) true = Ok (e_done (length (stand (u :: us1))) (stand (u :: us1))).
  Proof.
    intros d u us tail HT HU. pose proof (concat_nonnil _ _ _ _ HU) as Hd. pose proof HU as HU0. destruct (units_head _ _ _ _ HU) as (d' & -> & Hu & HU').
    pose proof (U0 _ _ Hu) as Hl. pose proof (lk0_stand u us) as Hl'. pose proof (first_unit_nonnil _ _ Hu) as Nu.
    assert (Wu : length u <> 0) by (destruct u; [congruence|discriminate]). pose proof (utf8_len (character u)) as Wx. pose proof (stand_nonnil u us) as Hd'.
    assert (Lu : length u <= length (u ++ d')) by (rewrite app_length; lia).
    assert (Lx : length (utf8 (character u)) <= length (stand (u :: us))) by (cbn [map]; rewrite encode_cons, app_length; lia).
    pose proof (FU _ _ _ Hl Wu Lu) as F1. pose proof (FU _ _ _ Hl' Wx Lx) as F2.
    rewrite <- (SP (u ++ d')), <- (SP (stand (u :: us))). unfold esplit. rewrite (is_nil_false _ Hd), (is_nil_false _ Hd'), Hl, Hl'. cbn [bind].
    destruct (Nat.eqb_spec (length u) 0) as [|_]; [contradiction|]. destruct (Nat.eqb_spec (length (utf8 (character u))) 0) as [|_]; [contradiction|].
    rewrite !slice_from_ok by assumption. cbn [bind].
    assert (Sx : skipn (length u) (u ++ d') = d') by (rewrite skipn_app, skipn_all, Nat.sub_diag; reflexivity).
    assert (Sy : skipn (length (utf8 (character u))) (stand (u :: us)) = stand us) by (cbn [map]; rewrite encode_cons, skipn_app, skipn_all, Nat.sub_diag; reflexivity).
    rewrite Sx in *. rewrite Sy in *. destruct (sim_loop _ _ _ _ _ _ HT HU' F1 F2) as (us1 & us2 & Eus & H1 & H2). rewrite H1, H2. cbn [bind].
    exists us1, us2. split; [exact Eus|].
    assert (Ld : u ++ d' = (concat (u :: us1) ++ end_of us2 tail) ++ (match us2 with [] => [] | _ => concat us2 ++ tail end)).
    { rewrite (units_concat _ _ _ HU'), Eus, concat_app. cbn [concat]. destruct us2; cbn [end_of concat]; rewrite ?app_nil_r, <- ?app_assoc; reflexivity. }
    assert (Ls : stand (u :: us) = stand (u :: us1) ++ stand us2) by (rewrite Eus; cbn [map]; rewrite map_app, !encode_cons, encode_app, app_assoc; reflexivity).
    split.
    - replace (length u + _) with (length (concat (u :: us1) ++ end_of us2 tail)) by (cbn [concat]; rewrite !app_length; lia).
      rewrite Ld. set (z := concat (u :: us1) ++ end_of us2 tail). set (q := match us2 with [] => _ | _ => _ end). unfold slice_to. rewrite app_length.
      replace (length z + length q <? length z) with false by (symmetry; apply Nat.ltb_ge; lia). cbn [bind]. rewrite firstn_app, firstn_all, Nat.sub_diag. cbn [firstn]. rewrite app_nil_r. reflexivity.
    - replace (length (utf8 (character u)) + _) with (length (stand (u :: us1))) by (cbn [map]; rewrite encode_cons, app_length; lia).
      rewrite Ls. unfold slice_to. rewrite app_length.
      replace (_ <? _) with false by (symmetry; apply Nat.ltb_ge; lia). cbn [bind]. rewrite firstn_app, firstn_all, Nat.sub_diag. cbn [firstn]. rewrite app_nil_r. reflexivity.
  Qed.

  Lemma sim_chop : forall n m d us tail, T tail -> units d us tail -> length d < n -> length (stand us) < m ->
    exists segs : list (list bytes), concat segs = us /\ Forall (fun s => s <> []) segs
      /\ chop f n d = Ok (with_tail (map (@concat N) segs) tail) /\ chop f m (stand us) = Ok (map (fun s => stand s) segs).
  Proof.
    induction n as [|n IH]; intros m d us tail HT HU Hn Hm; [lia|]. destruct m as [|m]; [lia|]. destruct us as [|u us].
    { destruct (units_nil _ _ HU) as (-> & Fn). exists []. split; [reflexivity|]. split; [constructor|]. split; [|reflexivity].
      destruct tail as [|c tail]; [reflexivity|]. destruct (N0 (c :: tail) ltac:(discriminate) Fn) as (v & Hl). cbn [chop is_nil map with_tail].
      rewrite <- SP. unfold esplit. cbn [is_nil]. rewrite Hl. cbn [bind Nat.eqb e_done so_token so_advance]. rewrite Nat2Z.id, skipn_all.
      destruct n; [cbn [length] in Hn; lia|]. reflexivity. }
    pose proof (concat_nonnil _ _ _ _ HU) as Hd. pose proof (stand_nonnil u us) as Hd'.
    destruct (sim_split d u us tail HT HU) as (us1 & us2 & Eus & H1 & H2). cbn [chop]. rewrite (is_nil_false _ Hd), (is_nil_false _ Hd'), H1, H2.
    cbn [bind e_done so_token so_advance]. rewrite !Nat2Z.id.
    assert (HU2 : units d ((u :: us1) ++ us2) tail) by (cbn [app]; rewrite <- Eus; exact HU). destruct (units_drop _ _ _ _ HU2) as (HU3 & Ed).
    assert (Nu : concat (u :: us1) <> []). { destruct (units_head _ _ _ _ HU) as (d' & _ & Hu & _). apply first_unit_nonnil in Hu. cbn [concat]. destruct u; [congruence|discriminate]. }
    assert (Sy : skipn (length (stand (u :: us1))) (stand (u :: us)) = stand us2).
    { rewrite Eus. change (u :: us1 ++ us2) with ((u :: us1) ++ us2). rewrite (map_app character (u :: us1)). apply skipn_encode. }
    rewrite Sy. assert (Lm : length (stand us2) < m).
    { rewrite Eus in Hm. cbn [map] in Hm. rewrite map_app, encode_cons, encode_app, !app_length in Hm. pose proof (utf8_len (character u)). lia. }
    destruct us2 as [|u2 us2].
    - cbn [end_of]. rewrite Ed. cbn [concat] in *. rewrite app_nil_r in *. cbn [app]. rewrite skipn_all. cbn [map] in *. unfold encode at 1. cbn [concat map].
      destruct m; [cbn in Lm; lia|]. destruct n. { rewrite Ed, !app_length in Hn. destruct (concat us1), u; cbn [length app] in *; try congruence; lia. }
      exists [u :: us]. rewrite Eus. cbn [concat]. rewrite !app_nil_r. split; [reflexivity|]. split; [constructor; [discriminate|constructor]|].
      cbn [chop is_nil bind map with_tail concat]. split; reflexivity.
    - cbn [end_of]. rewrite !app_nil_r. rewrite Ed. rewrite skipn_app, skipn_all, Nat.sub_diag. cbn [skipn app].
      assert (Ln : length (concat (u2 :: us2) ++ tail) < n). { rewrite Ed, !app_length in Hn. rewrite app_length. destruct (concat (u :: us1)); [congruence|cbn [length] in Hn; lia]. }
      destruct (IH m _ _ tail HT HU3 Ln Lm) as (segs & Ec & Ff & C1 & C2). rewrite C1, C2. cbn [bind].
      exists ((u :: us1) :: segs). split; [cbn [concat]; rewrite Ec, Eus; reflexivity|]. split; [constructor; [discriminate|exact Ff]|].
      split; [|reflexivity]. destruct segs as [|s segs]; [discriminate|]. reflexivity.
  Qed.
End Sim.
