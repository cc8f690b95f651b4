(** A lookup that finds a property has read a character: nothing else has properties in the tables. *)
From Verif Require Import Base Trie LookupFacts TableFacts SpecUtf8.
From Verif Require TableGraphemes TableWords TableSentences TablePhrases.
Local Open Scope N_scope.

Definition zb0 (values : arr) (i : N) : bool := forallb (fun c => match lookupValue values i c with Ok v => v =? 0 | _ => false end) conts.
Definition zb (values : arr) (i : N) : bool := (i =? 0) || zb0 values i.
Definition ix (index : arr) (i c : N) : N := match arr_get index (u32 (u32 (N.shiftl i 6) + c)) with Ok v => v | _ => 0 end.
Definition st (index : arr) (c : N) : N := match arr_get index c with Ok v => v | _ => 0 end.
(** Overlong forms, surrogates and what is above U+10FFFF lead to blocks of zeros. *)
Definition only_ok (values index : arr) : bool :=
  zb0 values 0
  && forallb (fun c => zb values (ix index (st index 0xE0) c)) (upto 0x80 32)
  && forallb (fun c => zb values (ix index (st index 0xED) c)) (upto 0xA0 32)
  && forallb (fun c => forallb (fun c2 => zb values (ix index (ix index (st index 0xF0) c) c2)) conts) (upto 0x80 16)
  && forallb (fun c => forallb (fun c2 => zb values (ix index (ix index (st index 0xF4) c) c2)) conts) (upto 0x90 48)
  && forallb (fun c0 => forallb (fun c1 => forallb (fun c2 => zb values (ix index (ix index (st index c0) c1) c2)) conts) conts) [0xF5; 0xF6; 0xF7].

Lemma cont_range : forall c, notCont c = false -> 0x80 <= c <= 0xBF.
Proof. intros c H. unfold notCont in H. apply orb_false_iff in H. destruct H as [H1 H2]. apply N.ltb_ge in H1. apply N.leb_gt in H2. lia. Qed.

Lemma divmod : forall q r n, n <> 0 -> r < n -> (q * n + r) / n = q /\ (q * n + r) mod n = r.
Proof. intros q r n Hn Hr. rewrite N.div_add_l, N.div_small by lia. rewrite (N.add_comm (q * n)), N.mod_add, N.mod_small by lia. lia. Qed.
Lemma utf8_2 : forall a b, 0xC2 <= a < 0xE0 -> 0x80 <= b <= 0xBF -> exists cp, scalar cp /\ utf8 cp = [a; b].
Proof.
  intros a b Ha Hb. exists ((a - 0xC0) * 0x40 + (b - 0x80)). split; [unfold scalar; lia|]. unfold utf8.
  replace (_ <? 0x80) with false by (symmetry; apply N.ltb_ge; lia). replace (_ <? 0x800) with true by (symmetry; apply N.ltb_lt; lia).
  destruct (divmod (a - 0xC0) (b - 0x80) 0x40) as [-> ->]; [lia|lia|]. f_equal; [lia|f_equal; lia].
Qed.
Lemma utf8_3 : forall a b c, 0xE0 <= a < 0xF0 -> 0x80 <= b <= 0xBF -> 0x80 <= c <= 0xBF -> (a = 0xE0 -> 0xA0 <= b) -> (a = 0xED -> b < 0xA0) -> exists cp, scalar cp /\ utf8 cp = [a; b; c].
Proof.
  intros a b c Ha Hb Hc H1 H2. set (x := (a - 0xE0) * 0x40 + (b - 0x80)). set (cp := x * 0x40 + (c - 0x80)). exists cp.
  assert (HX : x < 0x360 \/ 0x380 <= x). { unfold x. destruct (N.eq_dec a 0xED) as [E|E]; [specialize (H2 E); lia|]. lia. }
  assert (HL : 0x20 <= x). { unfold x. destruct (N.eq_dec a 0xE0) as [E|E]; [specialize (H1 E); lia|]. lia. }
  assert (HU : x < 0x400) by (unfold x; lia).
  destruct (divmod x (c - 0x80) 0x40) as [D1 M1]; [lia|lia|]. fold cp in D1, M1. destruct (divmod (a - 0xE0) (b - 0x80) 0x40) as [D2 M2]; [lia|lia|]. fold x in D2, M2.
  assert (D3 : cp / 0x1000 = a - 0xE0). { change 0x1000 with (0x40 * 0x40). rewrite <- N.div_div by lia. rewrite D1. exact D2. }
  split; [unfold scalar, cp; lia|]. unfold utf8.
  replace (cp <? 0x80) with false by (symmetry; apply N.ltb_ge; unfold cp; lia). replace (cp <? 0x800) with false by (symmetry; apply N.ltb_ge; unfold cp; lia).
  replace (cp <? 0x10000) with true by (symmetry; apply N.ltb_lt; unfold cp; lia). rewrite D3, D1, M1, M2. f_equal; [lia|]. f_equal; [lia|]. f_equal. lia.
Qed.
Lemma utf8_4 : forall a b c e, 0xF0 <= a <= 0xF4 -> 0x80 <= b <= 0xBF -> 0x80 <= c <= 0xBF -> 0x80 <= e <= 0xBF -> (a = 0xF0 -> 0x90 <= b) -> (a = 0xF4 -> b < 0x90) -> exists cp, scalar cp /\ utf8 cp = [a; b; c; e].
Proof.
  intros a b c e Ha Hb Hc He H1 H2. set (y := (a - 0xF0) * 0x40 + (b - 0x80)). set (x := y * 0x40 + (c - 0x80)). set (cp := x * 0x40 + (e - 0x80)). exists cp.
  assert (HL : 0x10 <= y). { unfold y. destruct (N.eq_dec a 0xF0) as [E|E]; [specialize (H1 E); lia|]. lia. }
  assert (HU : y < 0x110). { unfold y. destruct (N.eq_dec a 0xF4) as [E|E]; [specialize (H2 E); lia|]. lia. }
  destruct (divmod x (e - 0x80) 0x40) as [D1 M1]; [lia|lia|]. fold cp in D1, M1. destruct (divmod y (c - 0x80) 0x40) as [D2 M2]; [lia|lia|]. fold x in D2, M2.
  destruct (divmod (a - 0xF0) (b - 0x80) 0x40) as [D3 M3]; [lia|lia|]. fold y in D3, M3.
  assert (D4 : cp / 0x1000 = y). { change 0x1000 with (0x40 * 0x40). rewrite <- N.div_div by lia. rewrite D1. exact D2. }
  assert (D5 : cp / 0x40000 = a - 0xF0). { change 0x40000 with (0x1000 * 0x40). rewrite <- N.div_div by lia. rewrite D4. exact D3. }
  split; [unfold scalar, cp, x; lia|]. unfold utf8.
  replace (cp <? 0x80) with false by (symmetry; apply N.ltb_ge; unfold cp, x; lia). replace (cp <? 0x800) with false by (symmetry; apply N.ltb_ge; unfold cp, x; lia).
  replace (cp <? 0x10000) with false by (symmetry; apply N.ltb_ge; unfold cp, x; lia). rewrite D5, D4, D1, M1, M2, M3. f_equal; [lia|]. f_equal; [lia|]. f_equal; [lia|]. f_equal. lia.
Qed.

Section Only.
  Variables values index : arr.
  Hypothesis OK : only_ok values index = true.
  Lemma zb_zero : forall i c v, zb values i = true -> notCont c = false -> lookupValue values i c = Ok v -> v = 0.
  Proof.
    intros i c v H Hc Hv. assert (Z0 : zb0 values i = true).
    { unfold zb in H. apply orb_prop in H. destruct H as [H|H]; [|exact H]. apply N.eqb_eq in H. subst i. unfold only_ok in OK. rewrite !andb_true_iff in OK. tauto. }
    unfold zb0 in Z0. rewrite forallb_forall in Z0. specialize (Z0 c (notCont_false c Hc)). rewrite Hv in Z0. apply N.eqb_eq. exact Z0.
  Qed.
  Lemma lookup_only : forall d v w, lookup values index d = Ok (v, w) -> v <> 0 -> exists cp rest, scalar cp /\ d = utf8 cp ++ rest /\ w = length (utf8 cp).
  Proof.
    assert (OK' := OK). unfold only_ok in OK'. rewrite !andb_true_iff in OK'. destruct OK' as (((((_ & B1) & B2) & B3) & B4) & B5).
    rewrite forallb_forall in B1, B2, B3, B4, B5.
    intros d v w H Hv. unfold lookup in H. destruct d as [|c0 d]; [discriminate|]. cbn [byte_at nth_error bind] in H.
    destruct (N.ltb_spec c0 0x80) as [H0|H0].
    { destruct (arr_get values c0) as [x| |]; try discriminate. cbn [bind] in H. injection H as <- <-. exists c0, d. split; [unfold scalar; lia|]. unfold utf8. rewrite (proj2 (N.ltb_lt _ _) H0). auto. }
    destruct (N.ltb_spec c0 0xC2) as [H1|H1]; [injection H as <- <-; congruence|].
    destruct (N.ltb_spec c0 0xE0) as [H2|H2].
    { destruct (_ <? 2)%nat; [injection H as <- <-; congruence|]. destruct (arr_get index c0) as [i| |]; try discriminate. cbn [bind] in H. destruct d as [|c1 d]; [discriminate|]. cbn [byte_at nth_error bind] in H.
      destruct (notCont c1) eqn:E1; [injection H as <- <-; congruence|]. destruct (lookupValue values i c1) as [x| |]; try discriminate. cbn [bind] in H. injection H as <- <-.
      destruct (utf8_2 c0 c1 ltac:(lia) (cont_range _ E1)) as (cp & S & U). exists cp, d. rewrite U. auto. }
    destruct (N.ltb_spec c0 0xF0) as [H3|H3].
    { destruct (_ <? 3)%nat; [injection H as <- <-; congruence|]. destruct (arr_get index c0) as [i| |] eqn:EI; try discriminate. cbn [bind] in H. destruct d as [|c1 d]; [discriminate|]. cbn [byte_at nth_error bind] in H.
      destruct (notCont c1) eqn:E1; [injection H as <- <-; congruence|]. destruct (arr_get index (u32 (u32 (N.shiftl i 6) + c1))) as [i2| |] eqn:EJ; try discriminate. cbn [bind] in H.
      destruct d as [|c2 d]; [discriminate|]. cbn [byte_at nth_error bind] in H.
      destruct (notCont c2) eqn:E2; [injection H as <- <-; congruence|]. destruct (lookupValue values i2 c2) as [x| |] eqn:EV; try discriminate. cbn [bind] in H. injection H as <- <-.
      pose proof (cont_range _ E1) as R1. pose proof (cont_range _ E2) as R2.
      assert (HI : ix index (st index c0) c1 = i2) by (unfold ix, st; rewrite EI, EJ; reflexivity).
      destruct (utf8_3 c0 c1 c2 ltac:(lia) R1 R2) as (cp & S & U).
      - intros ->. destruct (N.le_gt_cases 0xA0 c1) as [L|L]; [exact L|]. exfalso. apply Hv. refine (zb_zero i2 c2 x _ E2 EV). rewrite <- HI. apply B1. apply in_upto. lia.
      - intros ->. destruct (N.lt_ge_cases c1 0xA0) as [L|L]; [exact L|]. exfalso. apply Hv. refine (zb_zero i2 c2 x _ E2 EV). rewrite <- HI. apply B2. apply in_upto. lia.
      - exists cp, d. rewrite U. auto. }
    destruct (N.ltb_spec c0 0xF8) as [H4|H4]; [|injection H as <- <-; congruence].
    destruct (_ <? 4)%nat; [injection H as <- <-; congruence|]. destruct (arr_get index c0) as [i| |] eqn:EI; try discriminate. cbn [bind] in H. destruct d as [|c1 d]; [discriminate|]. cbn [byte_at nth_error bind] in H.
    destruct (notCont c1) eqn:E1; [injection H as <- <-; congruence|]. destruct (arr_get index (u32 (u32 (N.shiftl i 6) + c1))) as [i2| |] eqn:EJ; try discriminate. cbn [bind] in H.
    destruct d as [|c2 d]; [discriminate|]. cbn [byte_at nth_error bind] in H.
    destruct (notCont c2) eqn:E2; [injection H as <- <-; congruence|]. destruct (arr_get index (u32 (u32 (N.shiftl i2 6) + c2))) as [i3| |] eqn:EK; try discriminate. cbn [bind] in H.
    destruct d as [|c3 d]; [discriminate|]. cbn [byte_at nth_error bind] in H.
    destruct (notCont c3) eqn:E3; [injection H as <- <-; congruence|]. destruct (lookupValue values i3 c3) as [x| |] eqn:EV; try discriminate. cbn [bind] in H. injection H as <- <-.
    pose proof (cont_range _ E1) as R1. pose proof (cont_range _ E2) as R2. pose proof (cont_range _ E3) as R3.
    assert (HI : ix index (ix index (st index c0) c1) c2 = i3). { unfold ix at 2. unfold st. rewrite EI, EJ. unfold ix. rewrite EK. reflexivity. }
    assert (HT : c0 <= 0xF4).
    { destruct (N.le_gt_cases c0 0xF4) as [L|L]; [exact L|]. exfalso. apply Hv. refine (zb_zero i3 c3 x _ E3 EV). rewrite <- HI.
      assert (B : forall c, In c [0xF5; 0xF6; 0xF7] -> zb values (ix index (ix index (st index c) c1) c2) = true).
      { intros c Hc. specialize (B5 c Hc). rewrite forallb_forall in B5. specialize (B5 c1 (notCont_false _ E1)). rewrite forallb_forall in B5. exact (B5 c2 (notCont_false _ E2)). }
      apply B. assert (c0 = 0xF5 \/ c0 = 0xF6 \/ c0 = 0xF7) as [->|[->| ->]] by lia; cbn; auto. }
    destruct (utf8_4 c0 c1 c2 c3 ltac:(lia) R1 R2 R3) as (cp & S & U).
    - intros ->. destruct (N.le_gt_cases 0x90 c1) as [L|L]; [exact L|]. exfalso. apply Hv. refine (zb_zero i3 c3 x _ E3 EV). rewrite <- HI.
      specialize (B3 c1 ltac:(apply in_upto; lia)). rewrite forallb_forall in B3. exact (B3 c2 (notCont_false _ E2)).
    - intros ->. destruct (N.lt_ge_cases c1 0x90) as [L|L]; [exact L|]. exfalso. apply Hv. refine (zb_zero i3 c3 x _ E3 EV). rewrite <- HI.
      specialize (B4 c1 ltac:(apply in_upto; lia)). rewrite forallb_forall in B4. exact (B4 c2 (notCont_false _ E2)).
    - exists cp, d. rewrite U. auto.
  Qed.
End Only.

Lemma g_only : only_ok TableGraphemes.graphemesValues TableGraphemes.graphemesIndex = true. Proof. vm_compute. reflexivity. Qed.
Lemma w_only : only_ok TableWords.wordsValues TableWords.wordsIndex = true. Proof. vm_compute. reflexivity. Qed.
Lemma s_only : only_ok TableSentences.sentencesValues TableSentences.sentencesIndex = true. Proof. vm_compute. reflexivity. Qed.
Lemma p_only : only_ok TablePhrases.phrasesValues TablePhrases.phrasesIndex = true. Proof. vm_compute. reflexivity. Qed.
