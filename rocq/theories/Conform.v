(** From a step-by-step agreement between the rules as programmed and a boundary specification to equality of
    tokens and segments, for any instance of the common loop. *)
From Verif Require Import Base ListFacts Trie Engine EngineMore SpecUtf8 SpecIter SpecRules UcdFacts.

Lemma encode_app : forall a b, encode (a ++ b) = encode a ++ encode b.
Proof. intros. unfold encode. rewrite map_app, concat_app. reflexivity. Qed.
Lemma encode_cons : forall x a, encode (x :: a) = utf8 x ++ encode a.
Proof. reflexivity. Qed.
Lemma encode_nil_inv : forall a, encode a = [] -> a = [].
Proof. intros [|x a] H; [reflexivity|]. rewrite encode_cons in H. destruct (utf8_nonnil x) as (c & s & E). rewrite E in H. discriminate. Qed.
Lemma utf8_len : forall x, length (utf8 x) <> 0.
Proof. intros x. destruct (utf8_nonnil x) as (c & s & ->). discriminate. Qed.
Lemma skipn_encode : forall a1 a2, skipn (length (encode a1)) (encode (a1 ++ a2)) = encode a2.
Proof. intros. rewrite encode_app, skipn_app, skipn_all, Nat.sub_diag. reflexivity. Qed.
Lemma firstn_encode : forall a1 a2, firstn (length (encode a1)) (encode (a1 ++ a2)) = encode a1.
Proof. intros. rewrite encode_app, firstn_app, firstn_all, Nat.sub_diag. simpl. apply app_nil_r. Qed.

(** A piece [p] is cut off exactly at a boundary of [segs]. *)
Definition cut_at (segs : list text) (p : text) : Prop := exists s1 s2, segs = s1 ++ s2 /\ concat s1 = p.

Section Chop.
  Variable f : splitfun.
  Variable D : text -> text -> op -> Prop.
  (** At a boundary, the split function cuts off the piece up to the next one. *)
  Hypothesis SPLIT : forall b x a, scalars (b ++ x :: a) -> (b = [] \/ D b (x :: a) Break) ->
    exists s a2, x :: a = s ++ a2 /\ s <> [] /\ f (encode (x :: a)) true = Ok (e_done (length (encode s)) (encode s))
      /\ (forall p q, s = p ++ q -> p <> [] -> q <> [] -> D (b ++ p) (q ++ a2) Join) /\ (a2 = [] \/ D (b ++ s) a2 Break).

  (** Chopping from a boundary on. *)
  Lemma conform_chop : forall n b a, scalars (b ++ a) -> length (encode a) < n -> (a = [] \/ b = [] \/ D b a Break) ->
    exists segs, chop f n (encode a) = Ok (map encode segs) /\ concat segs = a /\ Forall (fun s => s <> []) segs
      /\ forall p q, p <> [] -> q <> [] -> a = p ++ q ->
           (cut_at segs p /\ D (b ++ p) q Break) \/ (~ cut_at segs p /\ D (b ++ p) q Join).
  Proof.
    induction n as [|n IH]; intros b a Hs Hn Hb; [lia|].
    destruct a as [|x a].
    { exists []. repeat split; auto. intros p q Hp Hq Hpq. symmetry in Hpq. apply app_eq_nil in Hpq. tauto. }
    destruct (SPLIT b x a Hs) as (s & a2 & Ea & Hne & Hf & HJ & HB); [destruct Hb as [Hb|Hb]; [discriminate|exact Hb]|].
    assert (Hd : encode (x :: a) <> []) by (intros Hx; apply encode_nil_inv in Hx; discriminate).
    cbn [chop]. rewrite (is_nil_false _ Hd), Hf. cbn [bind e_done so_token so_advance]. rewrite Nat2Z.id.
    rewrite Ea in *. rewrite skipn_encode.
    assert (Hlen : length (encode s) <> 0).
    { destruct s as [|y s]; [congruence|]. rewrite encode_cons, app_length. pose proof (utf8_len y). lia. }
    destruct (IH (b ++ s) a2) as (segs & Hc & Hcc & Hfne & Hpos).
    { rewrite <- app_assoc. exact Hs. } { rewrite encode_app, app_length in Hn. lia. }
    { destruct HB as [->|HB]; auto. }
    rewrite Hc. cbn [bind]. exists (s :: segs). split; [reflexivity|]. split; [cbn [concat]; rewrite Hcc; reflexivity|].
    split; [constructor; auto|]. intros p q Hp Hq Hpq.
    destruct (Nat.lt_ge_cases (length p) (length s)) as [Hlt|Hge].
    - right. assert (Hsp : s = p ++ skipn (length p) s).
      { apply (f_equal (firstn (length p))) in Hpq. rewrite firstn_app in Hpq. replace (length p - length s) with 0 in Hpq by lia.
        cbn [firstn] in Hpq. rewrite app_nil_r in Hpq. rewrite firstn_app, firstn_all, Nat.sub_diag in Hpq. cbn [firstn] in Hpq.
        rewrite app_nil_r in Hpq. rewrite <- Hpq at 1. symmetry. apply firstn_skipn. }
      set (q1 := skipn (length p) s) in *. rewrite Hsp, <- app_assoc in Hpq. apply app_inv_head in Hpq.
      split.
      + intros (s1 & s2 & E1 & E2). destruct s1 as [|s0 s1]; [cbn in E2; congruence|]. injection E1 as <- _.
        cbn [concat] in E2. apply (f_equal (@length N)) in E2. rewrite app_length in E2. lia.
      + rewrite <- Hpq. apply HJ; auto. intros Hx. rewrite Hx, app_nil_r in Hsp. subst p. lia.
    - assert (Hsp : p = s ++ skipn (length s) p).
      { apply (f_equal (firstn (length s))) in Hpq. rewrite firstn_app, firstn_all, Nat.sub_diag in Hpq. cbn [firstn] in Hpq.
        rewrite app_nil_r in Hpq. rewrite firstn_app in Hpq. replace (length s - length p) with 0 in Hpq by lia.
        cbn [firstn] in Hpq. rewrite app_nil_r in Hpq. rewrite Hpq at 1. symmetry. apply firstn_skipn. }
      set (p1 := skipn (length s) p) in *. rewrite Hsp, <- app_assoc in Hpq. apply app_inv_head in Hpq.
      destruct p1 as [|y p1'] eqn:Ep1.
      + left. cbn [app] in Hpq. rewrite app_nil_r in Hsp. rewrite Hsp. split.
        * exists [s], segs. split; [reflexivity|]. cbn. apply app_nil_r.
        * destruct HB as [HB|HB]; [congruence|]. rewrite <- Hpq. exact HB.
      + rewrite Hsp, app_assoc. destruct (Hpos (y :: p1') q ltac:(discriminate) Hq Hpq) as [((s1 & s2 & E1 & E2) & HD)|(Hnc & HD)].
        * left. split; [|exact HD]. exists (s :: s1), s2. split; [rewrite E1; reflexivity|]. cbn [concat]. rewrite E2. reflexivity.
        * right. split; [|exact HD]. intros (s1 & s2 & E1 & E2). apply Hnc. destruct s1 as [|s0 s1].
          { cbn [concat] in E2. destruct s; [congruence|discriminate]. }
          injection E1 as <- E1. cbn [concat] in E2. apply app_inv_head in E2. exists s1, s2. auto.
  Qed.

End Chop.

Section Conform.
  Variable E : eng.
  Variable mu : e_St E -> bytes -> nat.
  Hypothesis LK0 : lk_ok (e_lk0 E).
  Hypothesis LK : lk_ok (e_lk E).
  Hypothesis RU : rules_ok E mu.
  Variable fuel : bytes -> nat.
  Hypothesis FU : forall data v w, e_lk0 E data = Ok (v, w) -> w <> 0 -> w <= length data ->
    mu (e_init E v) (skipn w data) < fuel data.
  Variable f : splitfun.
  Hypothesis SP : forall data b, esplit E fuel data b = f data b.

  (** Properties of single characters. *)
  Variables P0 P : N -> N.
  Hypothesis HP0 : forall x rest, scalar x -> e_lk0 E (utf8 x ++ rest) = Ok (P0 x, length (utf8 x)).
  Hypothesis HP : forall x rest, scalar x -> e_lk E (utf8 x ++ rest) = Ok (P x, length (utf8 x)).

  Variable D : text -> text -> op -> Prop.
  Variable Sim : e_St E -> text -> text -> Prop.
  Hypothesis INIT : forall b x a, scalars (b ++ x :: a) -> (b = [] \/ D b (x :: a) Break) -> Sim (e_init E (P0 x)) (b ++ [x]) a.
  Hypothesis STEP : forall st b x a, scalars (b ++ x :: a) -> Sim st b (x :: a) ->
    exists dec, e_rules E st (P x) (encode (x :: a)) (length (utf8 x)) true = Ok dec
      /\ match dec with
         | EBreak => D b (x :: a) Break
         | EJoin adv st' => exists a1 a2, x :: a = a1 ++ a2 /\ adv = length (encode a1)
             /\ (forall p q, a1 = p ++ q -> q <> [] -> D (b ++ p) (q ++ a2) Join) /\ Sim st' (b ++ a1) a2
         | _ => False
         end.

  Lemma conform_loop : forall n st b a, scalars (b ++ a) -> mu st (encode a) < n -> Sim st b a ->
    exists a1 a2, a = a1 ++ a2 /\ eloop E n (encode a) true st = Ok (Some (length (encode a1)))
      /\ (forall p q, a1 = p ++ q -> q <> [] -> D (b ++ p) (q ++ a2) Join) /\ (a2 = [] \/ D (b ++ a1) a2 Break).
  Proof.
    induction n as [|n IH]; intros st b a Hs Hm HS; [lia|].
    destruct a as [|x a].
    { exists [], []. repeat split; auto. intros p q Hpq Hq. symmetry in Hpq. apply app_eq_nil in Hpq. tauto. }
    assert (Hx : scalar x). { apply Forall_app in Hs. destruct Hs as [_ Hs]. exact (Forall_inv Hs). }
    pose proof (HP x (encode a) Hx) as Hl. rewrite <- encode_cons in Hl.
    assert (Hd : encode (x :: a) <> []) by (intros Hn; apply encode_nil_inv in Hn; discriminate).
    cbn [eloop]. rewrite (is_nil_false _ Hd), Hl. cbn [bind].
    destruct (Nat.eqb (length (utf8 x)) 0) eqn:E0; [apply Nat.eqb_eq in E0; destruct (utf8_len x E0)|].
    destruct (STEP st b x a Hs HS) as (dec & Hr & Hdec).
    destruct (RU st (P x) (encode (x :: a)) (length (utf8 x)) Hd Hl (utf8_len x)) as (T & _).
    destruct (T true) as (dec' & Hr' & Hj & _). rewrite Hr in Hr'. injection Hr' as <-. rewrite Hr. cbn [bind].
    destruct dec as [adv st'| | |]; try contradiction.
    - destruct Hdec as (a1 & a2 & Ea & -> & HJ & HS'). destruct (Hj _ _ eq_refl) as (Hle & Hmu).
      rewrite slice_from_ok by exact Hle. cbn [bind]. rewrite Ea in *. rewrite skipn_encode in *.
      destruct (IH st' (b ++ a1) a2) as (c1 & c2 & Ec & He & HJ2 & HB); [rewrite <- app_assoc; exact Hs | lia | exact HS'|].
      rewrite He. cbn [bind option_map]. exists (a1 ++ c1), c2. split; [rewrite Ec, app_assoc; reflexivity|].
      split; [rewrite encode_app, app_length; reflexivity|]. split.
      + intros p q Hpq Hq. destruct (Nat.lt_ge_cases (length p) (length a1)) as [Hlt|Hge].
        * assert (Hp : a1 = p ++ firstn (length a1 - length p) q).
          { apply (f_equal (firstn (length a1))) in Hpq. rewrite firstn_app, firstn_all, Nat.sub_diag in Hpq.
            cbn [firstn] in Hpq. rewrite app_nil_r in Hpq. rewrite firstn_app in Hpq.
            rewrite (firstn_all2 p) in Hpq by lia. exact Hpq. }
          set (q1 := firstn (length a1 - length p) q) in *.
          assert (Hq1 : q1 <> []). { intros Hn. rewrite Hn, app_nil_r in Hp. subst p. lia. }
          assert (Hq2 : q = q1 ++ c1). { rewrite Hp, <- app_assoc in Hpq. apply app_inv_head in Hpq. congruence. }
          rewrite Hq2, <- app_assoc, <- Ec. apply HJ; auto.
        * assert (Hp : p = a1 ++ skipn (length a1) p).
          { apply (f_equal (firstn (length a1))) in Hpq. rewrite firstn_app, firstn_all, Nat.sub_diag in Hpq.
            cbn [firstn] in Hpq. rewrite app_nil_r in Hpq. rewrite firstn_app in Hpq.
            replace (length a1 - length p) with 0 in Hpq by lia. cbn [firstn] in Hpq. rewrite app_nil_r in Hpq.
            rewrite Hpq at 1. symmetry. apply firstn_skipn. }
          set (p1 := skipn (length a1) p) in *. rewrite Hp, <- app_assoc in Hpq. apply app_inv_head in Hpq.
          rewrite Hp, app_assoc. apply HJ2; auto.
      + rewrite app_assoc. exact HB.
    - exists [], (x :: a). rewrite app_nil_r. split; [reflexivity|]. split; [reflexivity|]. split; [|auto].
      intros p q Hpq Hq. symmetry in Hpq. apply app_eq_nil in Hpq. tauto.
  Qed.

  Lemma conform_split : forall b x a, scalars (b ++ x :: a) -> (b = [] \/ D b (x :: a) Break) ->
    exists s a2, x :: a = s ++ a2 /\ s <> [] /\ f (encode (x :: a)) true = Ok (e_done (length (encode s)) (encode s))
      /\ (forall p q, s = p ++ q -> p <> [] -> q <> [] -> D (b ++ p) (q ++ a2) Join) /\ (a2 = [] \/ D (b ++ s) a2 Break).
  Proof.
    intros b x a Hs Hb.
    assert (Hx : scalar x). { apply Forall_app in Hs. destruct Hs as [_ Hs]. exact (Forall_inv Hs). }
    pose proof (HP0 x (encode a) Hx) as Hl. rewrite <- encode_cons in Hl.
    assert (Hd : encode (x :: a) <> []) by (intros Hn; apply encode_nil_inv in Hn; discriminate).
    rewrite <- SP. unfold esplit. rewrite (is_nil_false _ Hd), Hl. cbn [bind].
    destruct (Nat.eqb (length (utf8 x)) 0) eqn:E0; [apply Nat.eqb_eq in E0; destruct (utf8_len x E0)|].
    assert (Hle : length (utf8 x) <= length (encode (x :: a))) by (rewrite encode_cons, app_length; lia).
    rewrite slice_from_ok by exact Hle. cbn [bind].
    assert (Hsk : skipn (length (utf8 x)) (encode (x :: a)) = encode a).
    { rewrite encode_cons, skipn_app, skipn_all, Nat.sub_diag. reflexivity. }
    pose proof (FU _ _ _ Hl (utf8_len x) Hle) as HF. rewrite Hsk in *.
    destruct (conform_loop (fuel (encode (x :: a))) _ (b ++ [x]) a ltac:(rewrite <- app_assoc; exact Hs) HF (INIT b x a Hs Hb))
      as (a1 & a2 & Ea & He & HJ & HB).
    rewrite He. cbn [bind]. exists (x :: a1), a2. split; [rewrite Ea; reflexivity|]. split; [discriminate|].
    assert (Hlen : length (utf8 x) + length (encode a1) = length (encode (x :: a1))) by (rewrite encode_cons, app_length; reflexivity).
    rewrite Hlen. split.
    { rewrite slice_to_ok. 2:{ rewrite Ea. change (x :: a1 ++ a2) with ((x :: a1) ++ a2). rewrite (encode_app (x :: a1) a2), app_length. lia. }
      cbn [bind]. rewrite Ea. change (x :: a1 ++ a2) with ((x :: a1) ++ a2). rewrite firstn_encode. reflexivity. }
    split.
    - intros p q Hpq Hp Hq. destruct p as [|y p]; [congruence|]. injection Hpq as <- Hpq.
      specialize (HJ p q Hpq Hq). rewrite <- app_assoc in HJ. exact HJ.
    - rewrite <- app_assoc in HB. exact HB.
  Qed.

  Hypothesis DF : forall b a, D b a Break -> D b a Join -> False.

  Theorem conform : forall cps, scalars cps -> exists segs,
    chop f (S (length (encode cps))) (encode cps) = Ok (map encode segs) /\ segmentation D cps segs.
  Proof.
    intros cps Hs. destruct (conform_chop f D conform_split (S (length (encode cps))) [] cps Hs ltac:(lia) ltac:(auto)) as (segs & Hc & Hcc & Hne & Hpos).
    exists segs. split; [exact Hc|]. split; [exact Hcc|]. split; [exact Hne|].
    intros b a Hb Ha E0. destruct (Hpos b a Hb Ha E0) as [(H1 & H2)|(H1 & H2)]; cbn [app] in H2; split; intros H; auto.
    - contradiction.
    - destruct (DF _ _ H H2).
  Qed.
End Conform.
