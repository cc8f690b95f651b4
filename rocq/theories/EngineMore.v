(** More about the common loop: related states give equal results, fuel does not matter, and a run of characters
    that always join can be skipped. *)
From Verif Require Import Base ListFacts Trie Engine.

Section More.
  Variable E : eng.
  Variable mu : e_St E -> bytes -> nat.
  Hypothesis LK0 : lk_ok (e_lk0 E).
  Hypothesis LK : lk_ok (e_lk E).
  Hypothesis RU : rules_ok E mu.

  Lemma eloop_fuel : forall f1 f2 d b st, mu st d < f1 -> mu st d < f2 -> eloop E f1 d b st = eloop E f2 d b st.
  Proof.
    induction f1 as [|f1 IH]; intros f2 d b st H1 H2; [lia|]. destruct f2 as [|f2]; [lia|].
    destruct d as [|c d0]; [reflexivity|]. set (d := c :: d0) in *. assert (Hd : d <> []) by discriminate.
    cbn [eloop]. change (is_nil d) with false. cbv iota.
    destruct (LK d Hd) as (v & w & Hl & Hw & _). rewrite Hl. cbn [bind].
    destruct (Nat.eqb w 0) eqn:E0; [reflexivity|]. apply Nat.eqb_neq in E0.
    destruct (RU st v d w Hd Hl E0) as (T & _). destruct (T b) as (dec & Hr & Hj & _). rewrite Hr. cbn [bind].
    destruct dec as [adv st'| | |]; try reflexivity. destruct (Hj _ _ eq_refl) as (Ha & Hm).
    rewrite slice_from_ok by lia. cbn [bind]. rewrite (IH f2); [reflexivity| |]; lia.
  Qed.

  (** A simulation between states. *)
  Variable R : e_St E -> e_St E -> Prop.
  Definition dec_rel (x y : res (edec (e_St E))) : Prop :=
    match x, y with
    | Ok (EJoin a s1), Ok (EJoin b s2) => a = b /\ R s1 s2
    | Ok EBreak, Ok EBreak => True
    | Ok EEnd, Ok EEnd => True
    | Ok EMore, Ok EMore => True
    | _, _ => False
    end.
  Hypothesis SIM : forall st1 st2 v d w b, R st1 st2 -> d <> [] -> e_lk E d = Ok (v, w) -> w <> 0 ->
    dec_rel (e_rules E st1 v d w b) (e_rules E st2 v d w b).

  Lemma eloop_rel : forall fuel d b st1 st2, R st1 st2 -> eloop E fuel d b st1 = eloop E fuel d b st2.
  Proof.
    induction fuel as [|fuel IH]; intros d b st1 st2 HR; [reflexivity|].
    destruct d as [|c d0]; [reflexivity|]. set (d := c :: d0) in *. assert (Hd : d <> []) by discriminate.
    cbn [eloop]. change (is_nil d) with false. cbv iota.
    destruct (LK d Hd) as (v & w & Hl & Hw & _). rewrite Hl. cbn [bind].
    destruct (Nat.eqb w 0) eqn:E0; [reflexivity|]. apply Nat.eqb_neq in E0.
    pose proof (SIM st1 st2 v d w b HR Hd Hl E0) as HS. unfold dec_rel in HS.
    destruct (e_rules E st1 v d w b) as [[a1 s1| | |]| |], (e_rules E st2 v d w b) as [[a2 s2| | |]| |];
      try contradiction; try reflexivity.
    destruct HS as [-> HS]. cbn [bind]. destruct (slice_from d a2) as [d'| |]; try reflexivity. cbn [bind].
    rewrite (IH d' b s1 s2 HS). reflexivity.
  Qed.

  Variable fuel : bytes -> nat.
  Hypothesis FU : forall data v w, e_lk0 E data = Ok (v, w) -> w <> 0 -> w <= length data ->
    mu (e_init E v) (skipn w data) < fuel data.

  (** Skipping. *)
  Variable inrun : N -> bool.
  Variable Vr : N -> Prop.
  Hypothesis RUN0 : forall b s, inrun b = true -> exists v, e_lk0 E (b :: s) = Ok (v, 1) /\ e_lk E (b :: s) = Ok (v, 1) /\ Vr v.
  Hypothesis RUNJ : forall v v' b s, Vr v -> Vr v' -> exists st',
    e_rules E (e_init E v) v' (b :: s) 1 true = Ok (EJoin 1 st') /\ R st' (e_init E v').

  Lemma skip_step : forall c b s n, inrun c = true -> inrun b = true ->
    esplit E fuel (b :: s) true = Ok (e_done n (firstn n (b :: s))) ->
    esplit E fuel (c :: b :: s) true = Ok (e_done (S n) (firstn (S n) (c :: b :: s))).
  Proof.
    intros c b s n Hc Hb H. unfold esplit in H |- *. cbn [is_nil] in H |- *.
    destruct (RUN0 c (b :: s) Hc) as (vc & Hc0 & _ & Vc). destruct (RUN0 b s Hb) as (vb & Hb0 & Hb1 & Vb).
    rewrite Hb0 in H. rewrite Hc0. cbn [bind Nat.eqb] in H |- *.
    rewrite slice_from_ok in H by (simpl; lia). rewrite slice_from_ok by (simpl; lia). cbn [bind skipn] in H |- *.
    pose proof (FU _ _ _ Hb0 ltac:(lia) ltac:(simpl; lia)) as Fb. cbn [skipn] in Fb.
    pose proof (FU _ _ _ Hc0 ltac:(lia) ltac:(simpl; lia)) as Fc. cbn [skipn] in Fc.
    destruct (eloop_total E mu LK RU _ _ _ Fb) as ((m & Hm & Hle) & _). rewrite Hm in H. cbn [bind] in H.
    rewrite slice_to_ok in H by (simpl; lia). cbn [bind] in H. unfold e_done in H. injection H as Hn _.
    assert (n = S m) by lia. subst n.
    destruct (RUNJ vc vb b s Vc Vb) as (st' & Hr & HR).
    assert (HK : exists K, mu (e_init E vc) (b :: s) < K /\ mu (e_init E vb) s < K)
      by (exists (S (mu (e_init E vc) (b :: s) + mu (e_init E vb) s)); lia).
    destruct HK as (K & HK1 & HK2).
    rewrite (eloop_fuel _ (S K) _ _ _ Fc) by lia.
    cbn [eloop is_nil]. rewrite Hb1. cbn [bind Nat.eqb]. rewrite Hr. cbn [bind].
    rewrite slice_from_ok by (simpl; lia). cbn [bind skipn].
    rewrite (eloop_rel _ _ _ _ _ HR).
    rewrite (eloop_fuel _ (fuel (b :: s)) s true (e_init E vb)) by lia.
    rewrite Hm. cbn [bind option_map]. rewrite slice_to_ok by (simpl; lia). reflexivity.
  Qed.

  Lemma skip_one : forall c, inrun c = true -> esplit E fuel [c] true = Ok (e_done 1 [c]).
  Proof.
    intros c Hc. unfold esplit. cbn [is_nil]. destruct (RUN0 c [] Hc) as (v & H0 & _ & _). rewrite H0. cbn [bind Nat.eqb].
    rewrite slice_from_ok by (simpl; lia). cbn [skipn bind].
    pose proof (FU _ _ _ H0 ltac:(lia) ltac:(simpl; lia)) as F. destruct (fuel [c]) as [|k]; [lia|]. reflexivity.
  Qed.

  (** k in-run characters followed by one more in-run character. *)
  Lemma skip_run : forall k d n, k < length d -> Forall (fun b => inrun b = true) (firstn (S k) d) ->
    esplit E fuel (skipn k d) true = Ok (e_done n (firstn n (skipn k d))) ->
    esplit E fuel d true = Ok (e_done (k + n) (firstn (k + n) d)).
  Proof.
    induction k as [|k IH]; intros d n Hk HF H; [exact H|].
    destruct d as [|c [|b s]]; [simpl in Hk; lia|simpl in Hk; lia|].
    cbn [firstn] in HF. inversion HF as [|x y Hc HF' ]; subst. pose proof (Forall_inv HF') as Hb.
    cbn [Nat.add]. apply skip_step; auto. apply IH; auto; simpl in *; lia.
  Qed.
  Lemma skip_all : forall d, d <> [] -> Forall (fun b => inrun b = true) d ->
    esplit E fuel d true = Ok (e_done (length d) d).
  Proof.
    intros d Hd HF. pose proof (skip_run (length d - 1) d 1) as H.
    assert (Hl : 0 < length d) by (destruct d; [congruence|simpl; lia]).
    replace (S (length d - 1)) with (length d) in H by lia. replace (length d - 1 + 1) with (length d) in H by lia.
    rewrite firstn_all in H. apply H; auto; [lia|].
    assert (Hs : length (skipn (length d - 1) d) = 1) by (rewrite skipn_length; lia).
    destruct (skipn (length d - 1) d) as [|c [|? ?]] eqn:Es; try (simpl in Hs; lia).
    cbn [firstn]. apply skip_one. rewrite Forall_forall in HF. apply HF.
    rewrite <- (firstn_skipn (length d - 1) d), Es. apply in_or_app. right. left. reflexivity.
  Qed.
End More.
