(** Facts about the trie lookup that hold for every byte string, from a finite check of the tables. *)
From Verif Require Import Base Trie.
Local Open Scope N_scope.

(** The 64 continuation bytes 0x80 .. 0xBF. *)
Definition upto (lo : N) (n : nat) : list N := map (fun k => lo + N.of_nat k) (seq 0 n).
Definition conts : list N := upto 0x80 64.

Lemma in_upto : forall lo n x, lo <= x < lo + N.of_nat n -> In x (upto lo n).
Proof.
  intros lo n x H. unfold upto. apply in_map_iff. exists (N.to_nat (x - lo)). split; [lia|].
  apply in_seq. lia.
Qed.

Lemma notCont_false : forall c, notCont c = false -> In c conts.
Proof.
  intros c H. unfold notCont in H. apply orb_false_iff in H. destruct H as [H1 H2].
  apply N.ltb_ge in H1. apply N.leb_gt in H2. apply in_upto. simpl. lia.
Qed.

Section Facts.
  Variables values index : arr.
  Variable V : list N.

  Definition inV (v : N) : bool := existsb (N.eqb v) V.
  Definition okValue (i : N) : bool :=
    forallb (fun c => match lookupValue values i c with Ok v => inV v | _ => false end) conts.
  Definition okIndex (k : N -> bool) (i : N) : bool :=
    forallb (fun c => match arr_get index (u32 (u32 (N.shiftl i 6) + c)) with Ok i' => k i' | _ => false end) conts.
  Definition okRoot (k : N -> bool) (c0 : N) : bool :=
    match arr_get index c0 with Ok i => k i | _ => false end.

  Definition tables_ok : bool :=
    inV 0
    && forallb (fun c => match arr_get values c with Ok v => inV v | _ => false end) (upto 0 0x80)
    && forallb (okRoot okValue) (upto 0xC2 30)
    && forallb (okRoot (okIndex okValue)) (upto 0xE0 16)
    && forallb (okRoot (okIndex (okIndex okValue))) (upto 0xF0 8).

  Hypothesis OK : tables_ok = true.

  Lemma inV_In : forall v, inV v = true -> In v V.
  Proof.
    intros v H. apply existsb_exists in H. destruct H as (x & Hx & He). apply N.eqb_eq in He. subst. exact Hx.
  Qed.

  Lemma zero_in_V : In 0 V.
  Proof.
    pose proof OK as H. unfold tables_ok in H. do 4 (apply andb_prop in H; destruct H as [H _]).
    apply inV_In. exact H.
  Qed.

  (** Number of bytes the lookup wants to see for a lead byte. *)
  Definition need (c0 : N) : nat :=
    if c0 <? 0xC2 then 1%nat else if c0 <? 0xE0 then 2%nat else if c0 <? 0xF0 then 3%nat
    else if c0 <? 0xF8 then 4%nat else 1%nat.

  Lemma okValue_get : forall i c, okValue i = true -> In c conts ->
    exists v, lookupValue values i c = Ok v /\ In v V.
  Proof.
    intros i c H Hc. unfold okValue in H. rewrite forallb_forall in H. specialize (H c Hc).
    destruct (lookupValue values i c) as [v| |]; try discriminate. exists v. split; auto using inV_In.
  Qed.
  Lemma okIndex_get : forall k i c, okIndex k i = true -> In c conts ->
    exists i', arr_get index (u32 (u32 (N.shiftl i 6) + c)) = Ok i' /\ k i' = true.
  Proof.
    intros k i c H Hc. unfold okIndex in H. rewrite forallb_forall in H. specialize (H c Hc).
    destruct (arr_get index _) as [v| |]; try discriminate. exists v. auto.
  Qed.
  Lemma okRoot_get : forall k c0 lo n, forallb (okRoot k) (upto lo n) = true -> lo <= c0 < lo + N.of_nat n ->
    exists i, arr_get index c0 = Ok i /\ k i = true.
  Proof.
    intros k c0 lo n H Hc. rewrite forallb_forall in H. specialize (H c0 (in_upto _ _ _ Hc)).
    unfold okRoot in H. destruct (arr_get index c0) as [v| |]; try discriminate. exists v. auto.
  Qed.

  Lemma tables_ok_parts :
    (forall c, c < 0x80 -> exists v, arr_get values c = Ok v /\ In v V)
    /\ (forall c0, 0xC2 <= c0 < 0xE0 -> exists i, arr_get index c0 = Ok i /\ okValue i = true)
    /\ (forall c0, 0xE0 <= c0 < 0xF0 -> exists i, arr_get index c0 = Ok i /\ okIndex okValue i = true)
    /\ (forall c0, 0xF0 <= c0 < 0xF8 -> exists i, arr_get index c0 = Ok i /\ okIndex (okIndex okValue) i = true).
  Proof.
    pose proof OK as OK0. unfold tables_ok in OK0.
    apply andb_prop in OK0; destruct OK0 as [OK1 H4].
    apply andb_prop in OK1; destruct OK1 as [OK2 H3].
    apply andb_prop in OK2; destruct OK2 as [OK3 H2].
    apply andb_prop in OK3; destruct OK3 as [_ H1].
    split; [|split; [|split]]; intros c Hc.
    - rewrite forallb_forall in H1. assert (In c (upto 0 0x80)) by (apply in_upto; simpl; lia).
      specialize (H1 c H). destruct (arr_get values c) as [v| |]; try discriminate. exists v. auto using inV_In.
    - eapply okRoot_get; [exact H2 | simpl; lia].
    - eapply okRoot_get; [exact H3 | simpl; lia].
    - eapply okRoot_get; [exact H4 | simpl; lia].
  Qed.

  (** Everything we use about one lookup. *)
  Lemma lookup_spec : forall c0 s,
    exists v w, lookup values index (c0 :: s) = Ok (v, w) /\ In v V
      /\ (w <= need c0)%nat /\ (w <= length (c0 :: s))%nat
      /\ (w = 0%nat -> v = 0 /\ (length (c0 :: s) < need c0)%nat)
      /\ ((length (c0 :: s) < need c0)%nat -> w = 0%nat)
      /\ (v <> 0 -> w = need c0)
      /\ (w <> 0%nat -> forall t, lookup values index ((c0 :: s) ++ t) = Ok (v, w)).
  Proof.
    intros c0 s. destruct tables_ok_parts as (T1 & T2 & T3 & T4). pose proof zero_in_V as Z.
    unfold lookup, need, byte_at. cbn [nth_error bind].
    destruct (c0 <? 0x80) eqn:E1.
    { apply N.ltb_lt in E1. destruct (T1 c0 E1) as (v & Hv & HV).
      assert (Hlt : c0 <? 0xC2 = true) by (apply N.ltb_lt; lia). rewrite Hlt.
      exists v, 1%nat. rewrite Hv. cbn [bind]. simpl length.
      repeat split; try lia; auto. intros. cbn [app nth_error bind]. rewrite (proj2 (N.ltb_lt _ _) E1), Hv. reflexivity. }
    destruct (c0 <? 0xC2) eqn:E2.
    { exists 0, 1%nat. simpl length. repeat split; try lia; auto.
      intros. cbn [app nth_error bind]. rewrite E1, E2. reflexivity. }
    apply N.ltb_ge in E1, E2.
    destruct (c0 <? 0xE0) eqn:E3.
    { pose proof (proj1 (N.ltb_lt _ _) E3) as L3.
      destruct (T2 c0 ltac:(lia)) as (i & Hi & Hk).
      destruct s as [|c1 s].
      { simpl. exists 0, 0%nat. repeat split; try lia; auto. }
      change (length (c0 :: c1 :: s) <? 2)%nat with false. cbv iota. rewrite Hi. cbn [bind nth_error].
      destruct (notCont c1) eqn:N1.
      { exists 0, 1%nat. simpl length. repeat split; try lia; auto.
        intros. cbn [app nth_error bind].
        rewrite (proj2 (N.ltb_ge c0 0x80) E1), (proj2 (N.ltb_ge c0 0xC2) E2), E3.
        change (length (c0 :: c1 :: s ++ t) <? 2)%nat with false. cbv iota. rewrite Hi. cbn [bind]. rewrite N1. reflexivity. }
      destruct (okValue_get i c1 Hk (notCont_false _ N1)) as (v & Hv & HV).
      exists v, 2%nat. rewrite Hv. cbn [bind]. simpl length. repeat split; try lia; auto.
      intros. cbn [app nth_error bind].
      rewrite (proj2 (N.ltb_ge c0 0x80) E1), (proj2 (N.ltb_ge c0 0xC2) E2), E3.
      change (length (c0 :: c1 :: s ++ t) <? 2)%nat with false. cbv iota. rewrite Hi. cbn [bind]. rewrite N1, Hv. reflexivity. }
    apply N.ltb_ge in E3.
    destruct (c0 <? 0xF0) eqn:E4.
    { pose proof (proj1 (N.ltb_lt _ _) E4) as L4.
      destruct (T3 c0 ltac:(lia)) as (i & Hi & Hk).
      destruct s as [|c1 [|c2 s]].
      1,2: simpl; exists 0, 0%nat; repeat split; try lia; auto.
      change (length (c0 :: c1 :: c2 :: s) <? 3)%nat with false. cbv iota. rewrite Hi. cbn [bind nth_error].
      destruct (notCont c1) eqn:N1.
      { exists 0, 1%nat. simpl length. repeat split; try lia; auto.
        intros. cbn [app nth_error bind].
        rewrite (proj2 (N.ltb_ge c0 0x80) E1), (proj2 (N.ltb_ge c0 0xC2) E2), (proj2 (N.ltb_ge c0 0xE0) E3), E4.
        change (length (c0 :: c1 :: c2 :: s ++ t) <? 3)%nat with false. cbv iota. rewrite Hi. cbn [bind]. rewrite N1. reflexivity. }
      destruct (okIndex_get _ i c1 Hk (notCont_false _ N1)) as (i2 & Hi2 & Hk2).
      rewrite Hi2. cbn [bind].
      destruct (notCont c2) eqn:N2.
      { exists 0, 2%nat. simpl length. repeat split; try lia; auto.
        intros. cbn [app nth_error bind].
        rewrite (proj2 (N.ltb_ge c0 0x80) E1), (proj2 (N.ltb_ge c0 0xC2) E2), (proj2 (N.ltb_ge c0 0xE0) E3), E4.
        change (length (c0 :: c1 :: c2 :: s ++ t) <? 3)%nat with false. cbv iota. rewrite Hi. cbn [bind].
        rewrite N1, Hi2. cbn [bind]. rewrite N2. reflexivity. }
      destruct (okValue_get i2 c2 Hk2 (notCont_false _ N2)) as (v & Hv & HV).
      exists v, 3%nat. rewrite Hv. cbn [bind]. simpl length. repeat split; try lia; auto.
      intros. cbn [app nth_error bind].
      rewrite (proj2 (N.ltb_ge c0 0x80) E1), (proj2 (N.ltb_ge c0 0xC2) E2), (proj2 (N.ltb_ge c0 0xE0) E3), E4.
      change (length (c0 :: c1 :: c2 :: s ++ t) <? 3)%nat with false. cbv iota. rewrite Hi. cbn [bind].
      rewrite N1, Hi2. cbn [bind]. rewrite N2, Hv. reflexivity. }
    apply N.ltb_ge in E4.
    destruct (c0 <? 0xF8) eqn:E5.
    { pose proof (proj1 (N.ltb_lt _ _) E5) as L5.
      destruct (T4 c0 ltac:(lia)) as (i & Hi & Hk).
      destruct s as [|c1 [|c2 [|c3 s]]].
      1,2,3: simpl; exists 0, 0%nat; repeat split; try lia; auto.
      change (length (c0 :: c1 :: c2 :: c3 :: s) <? 4)%nat with false. cbv iota. rewrite Hi. cbn [bind nth_error].
      destruct (notCont c1) eqn:N1.
      { exists 0, 1%nat. simpl length. repeat split; try lia; auto.
        intros. cbn [app nth_error bind].
        rewrite (proj2 (N.ltb_ge c0 0x80) E1), (proj2 (N.ltb_ge c0 0xC2) E2), (proj2 (N.ltb_ge c0 0xE0) E3),
          (proj2 (N.ltb_ge c0 0xF0) E4), E5.
        change (length (c0 :: c1 :: c2 :: c3 :: s ++ t) <? 4)%nat with false. cbv iota. rewrite Hi. cbn [bind].
        rewrite N1. reflexivity. }
      destruct (okIndex_get _ i c1 Hk (notCont_false _ N1)) as (i2 & Hi2 & Hk2).
      rewrite Hi2. cbn [bind].
      destruct (notCont c2) eqn:N2.
      { exists 0, 2%nat. simpl length. repeat split; try lia; auto.
        intros. cbn [app nth_error bind].
        rewrite (proj2 (N.ltb_ge c0 0x80) E1), (proj2 (N.ltb_ge c0 0xC2) E2), (proj2 (N.ltb_ge c0 0xE0) E3),
          (proj2 (N.ltb_ge c0 0xF0) E4), E5.
        change (length (c0 :: c1 :: c2 :: c3 :: s ++ t) <? 4)%nat with false. cbv iota. rewrite Hi. cbn [bind].
        rewrite N1, Hi2. cbn [bind]. rewrite N2. reflexivity. }
      destruct (okIndex_get _ i2 c2 Hk2 (notCont_false _ N2)) as (i3 & Hi3 & Hk3).
      rewrite Hi3. cbn [bind].
      destruct (notCont c3) eqn:N3.
      { exists 0, 3%nat. simpl length. repeat split; try lia; auto.
        intros. cbn [app nth_error bind].
        rewrite (proj2 (N.ltb_ge c0 0x80) E1), (proj2 (N.ltb_ge c0 0xC2) E2), (proj2 (N.ltb_ge c0 0xE0) E3),
          (proj2 (N.ltb_ge c0 0xF0) E4), E5.
        change (length (c0 :: c1 :: c2 :: c3 :: s ++ t) <? 4)%nat with false. cbv iota. rewrite Hi. cbn [bind].
        rewrite N1, Hi2. cbn [bind]. rewrite N2, Hi3. cbn [bind]. rewrite N3. reflexivity. }
      destruct (okValue_get i3 c3 Hk3 (notCont_false _ N3)) as (v & Hv & HV).
      exists v, 4%nat. rewrite Hv. cbn [bind]. simpl length. repeat split; try lia; auto.
      intros. cbn [app nth_error bind].
      rewrite (proj2 (N.ltb_ge c0 0x80) E1), (proj2 (N.ltb_ge c0 0xC2) E2), (proj2 (N.ltb_ge c0 0xE0) E3),
        (proj2 (N.ltb_ge c0 0xF0) E4), E5.
      change (length (c0 :: c1 :: c2 :: c3 :: s ++ t) <? 4)%nat with false. cbv iota. rewrite Hi. cbn [bind].
      rewrite N1, Hi2. cbn [bind]. rewrite N2, Hi3. cbn [bind]. rewrite N3, Hv. reflexivity. }
    apply N.ltb_ge in E5.
    exists 0, 1%nat. simpl length. repeat split; try lia; auto.
    intros. cbn [app nth_error bind].
    rewrite (proj2 (N.ltb_ge c0 0x80) E1), (proj2 (N.ltb_ge c0 0xC2) E2), (proj2 (N.ltb_ge c0 0xE0) E3),
      (proj2 (N.ltb_ge c0 0xF0) E4), (proj2 (N.ltb_ge c0 0xF8) E5). reflexivity.
  Qed.
End Facts.

(** ** A cheaper check
    The same finite check, but each block of values is visited once. *)
Section Fast.
  Variables values index : arr.
  Variable V : list N.
  Variable nblk : nat.                         (* number of value blocks that can be named *)

  Definition small (i : N) : bool := i <? N.of_nat nblk.
  Fixpoint all_ok (l : list (res N)) : option (list N) :=
    match l with
    | [] => Some []
    | Ok x :: r => match all_ok r with Some xs => Some (x :: xs) | None => None end
    | _ :: _ => None
    end.
  Fixpoint dedup (l : list N) : list N :=
    match l with [] => [] | x :: r => let d := dedup r in if existsb (N.eqb x) d then d else x :: d end.
  Definition kids (c0 : N) : list (res N) :=
    match arr_get index c0 with
    | Ok i => map (fun c => arr_get index (u32 (u32 (N.shiftl i 6) + c))) conts
    | _ => [Panic]
    end.
  Definition tables_fast : bool :=
    inV V 0
    && forallb (fun c => match arr_get values c with Ok v => inV V v | _ => false end) (upto 0 0x80)
    && forallb (okValue values V) (upto 0 nblk)
    && forallb (okRoot index small) (upto 0xC2 30)
    && forallb (okRoot index (okIndex index small)) (upto 0xE0 16)
    && match all_ok (flat_map kids (upto 0xF0 8)) with
       | Some l => forallb (okIndex index small) (dedup l)
       | None => false
       end.

  Lemma all_ok_in : forall l xs, all_ok l = Some xs -> forall r, In r l -> exists x, r = Ok x /\ In x xs.
  Proof.
    induction l as [|a l IH]; intros xs H r Hr; [destruct Hr|]. cbn [all_ok] in H. destruct a as [x| |]; try discriminate.
    destruct (all_ok l) as [ys|] eqn:E; [|discriminate]. injection H as <-. destruct Hr as [<-|Hr].
    - exists x. split; [reflexivity|left; reflexivity].
    - destruct (IH ys eq_refl r Hr) as (z & H1 & H2). exists z. split; [exact H1|right; exact H2].
  Qed.
  Lemma dedup_in : forall l x, In x l -> In x (dedup l).
  Proof.
    induction l as [|y l IH]; intros x H; [exact H|]. cbn [dedup]. destruct (existsb (N.eqb y) (dedup l)) eqn:E.
    - destruct H as [<-|H]; [|auto]. apply existsb_exists in E. destruct E as (z & Hz & He). apply N.eqb_eq in He. subst. exact Hz.
    - destruct H as [<-|H]; [left; reflexivity|right; auto].
  Qed.
  Lemma forallb_mono : forall A (f g : A -> bool) l, (forall x, In x l -> f x = true -> g x = true) -> forallb f l = true -> forallb g l = true.
  Proof. intros A f g l H. rewrite !forallb_forall. intros HF x Hx. apply H; auto. Qed.

  Lemma tables_fast_ok : tables_fast = true -> tables_ok values index V = true.
  Proof.
    unfold tables_fast, tables_ok. intros H. do 5 (apply andb_prop in H; let H2 := fresh "B" in destruct H as [H H2]).
    rewrite H, B3. cbn [andb]. rename B into BF. rename B0 into BE. rename B1 into BC.
    assert (HS : forall i, small i = true -> okValue values V i = true).
    { intros i Hi. unfold small in Hi. apply N.ltb_lt in Hi. rewrite forallb_forall in B2. apply B2. apply in_upto. lia. }
    assert (HI : forall i, okIndex index small i = true -> okIndex index (okValue values V) i = true).
    { intros i. unfold okIndex. apply forallb_mono. intros c _. destruct (arr_get index _); auto. }
    assert (HC : forallb (okRoot index (okValue values V)) (upto 0xC2 30) = true).
    { revert BC. apply forallb_mono. intros c _. unfold okRoot. destruct (arr_get index c); auto. }
    assert (HE : forallb (okRoot index (okIndex index (okValue values V))) (upto 0xE0 16) = true).
    { revert BE. apply forallb_mono. intros c _. unfold okRoot. destruct (arr_get index c); auto. }
    rewrite HC, HE. cbn [andb].
    destruct (all_ok _) as [l|] eqn:EL; [|discriminate]. rewrite forallb_forall in BF.
    apply forallb_forall. intros c0 Hc0. unfold okRoot. pose proof (all_ok_in _ _ EL) as HK.
    assert (HK0 : forall r, In r (kids c0) -> exists x, r = Ok x /\ In x l) by (intros r Hr; apply HK; apply in_flat_map; eauto).
    unfold kids in HK0. destruct (arr_get index c0) as [i| |].
    - unfold okIndex at 1. apply forallb_forall. intros c Hc.
      destruct (HK0 (arr_get index (u32 (u32 (N.shiftl i 6) + c)))) as (x & -> & Hx); [apply in_map_iff; eauto|].
      apply HI. apply BF. apply dedup_in. exact Hx.
    - destruct (HK0 Panic (or_introl eq_refl)) as (x & Hx & _). discriminate.
    - destruct (HK0 Panic (or_introl eq_refl)) as (x & Hx & _). discriminate.
  Qed.
End Fast.
