(** words: the split function (for any Joiners) as an instance of the common loop, and its contract. *)
From Verif Require Import Base ListFacts Trie LookupFacts TableFacts Engine Lk Seek TableWords Utf8.
From Verif Require Words.
Import Words.
Local Open Scope N_scope.

Record wst := { ws_current : N; ws_lastEx : N; ws_lastLastEx : N; ws_ri : nat }.

Definition w_erules (st : wst) (current : N) (d : bytes) (w : nat) (atEOF : bool) : res (edec wst) :=
  let last := ws_current st in
  let lastLastEx := if negb (is last _Ignore) then ws_lastEx st else ws_lastLastEx st in
  let lastEx := if negb (is last _Ignore) then last else ws_lastEx st in
  after <- slice_from d w ;;
  dec <- w_rules current last lastEx lastLastEx (ws_ri st) w after atEOF ;;
  match dec with
  | WMore => Ok EMore
  | WBreak => Ok EBreak
  | WJoin adv ri' =>
    Ok (EJoin adv {| ws_current := current; ws_lastEx := lastEx; ws_lastLastEx := lastLastEx; ws_ri := ri' |})
  end.

Definition lkL (j : option Joiners) (d : bytes) : res (N * nat) :=
  ' (v, w) <- words_lookup d ;; Ok (if Nat.eqb w 0 then v else leadingBits j d v, w).
Definition lkM (j : option Joiners) (d : bytes) : res (N * nat) :=
  ' (v, w) <- words_lookup d ;; Ok (if Nat.eqb w 0 then v else middleBits j d v, w).

Definition WE (j : option Joiners) : eng := {|
  e_St := wst;
  e_lk0 := lkL j;
  e_lk := lkM j;
  e_init := fun v => {| ws_current := v; ws_lastEx := 0; ws_lastLastEx := 0; ws_ri := 0 |};
  e_rules := w_erules
|}.

Lemma decode_stable : forall d v w t, words_lookup d = Ok (v, w) -> w <> 0%nat ->
  fst (DecodeRune (d ++ t)) = fst (DecodeRune d).
Proof.
  intros d v w t Hl Hw. destruct d as [|c0 s]; [discriminate|].
  destruct (lookup_spec _ _ _ w_tables_ok c0 s) as (v' & w' & Hl' & _ & _ & _ & _ & Hn & _).
  change (lookup _ _ (c0 :: s)) with (words_lookup (c0 :: s)) in Hl'. rewrite Hl in Hl'. injection Hl' as <- <-.
  assert (HL : (need c0 <= length (c0 :: s))%nat).
  { destruct (Nat.lt_ge_cases (length (c0 :: s)) (need c0)) as [H|H]; [apply Hn in H; congruence|exact H]. }
  unfold need in HL. unfold DecodeRune. cbn [app].
  destruct (c0 <? 0x80) eqn:E1; [reflexivity|]. apply N.ltb_ge in E1.
  unfold between.
  destruct ((0xC2 <=? c0) && (c0 <=? 0xDF)) eqn:E2.
  { apply andb_prop in E2. destruct E2 as [A B]. apply N.leb_le in A, B.
    rewrite (proj2 (N.ltb_ge c0 0xC2)) in HL by lia. rewrite (proj2 (N.ltb_lt c0 0xE0)) in HL by lia.
    destruct s as [|c1 s]; [simpl in HL; lia|]. cbn [app]. destruct (isCont c1); reflexivity. }
  destruct ((0xE0 <=? c0) && (c0 <=? 0xEF)) eqn:E3.
  { apply andb_prop in E3. destruct E3 as [A B]. apply N.leb_le in A, B.
    rewrite (proj2 (N.ltb_ge c0 0xC2)) in HL by lia. rewrite (proj2 (N.ltb_ge c0 0xE0)) in HL by lia.
    rewrite (proj2 (N.ltb_lt c0 0xF0)) in HL by lia.
    destruct s as [|c1 [|c2 s]]; [simpl in HL; lia|simpl in HL; lia|]. cbn [app].
    destruct (accept2 c0 c1 && isCont c2); reflexivity. }
  destruct ((0xF0 <=? c0) && (c0 <=? 0xF4)) eqn:E4; [|reflexivity].
  apply andb_prop in E4. destruct E4 as [A B]. apply N.leb_le in A, B.
  rewrite (proj2 (N.ltb_ge c0 0xC2)) in HL by lia. rewrite (proj2 (N.ltb_ge c0 0xE0)) in HL by lia.
  rewrite (proj2 (N.ltb_ge c0 0xF0)) in HL by lia. rewrite (proj2 (N.ltb_lt c0 0xF8)) in HL by lia.
  destruct s as [|c1 [|c2 [|c3 s]]]; try (simpl in HL; lia). cbn [app].
  destruct (accept2 c0 c1 && isCont c2 && isCont c3); reflexivity.
Qed.

Lemma lkL_ok : forall j, lk_ok (lkL j).
Proof.
  intros j d Hd. destruct (w_lk d Hd) as (v & w & Hl & Hw & Hs). unfold lkL. rewrite Hl. cbn [bind].
  eexists _, w. split; [reflexivity|]. split; [exact Hw|]. intros H0 t. rewrite (Hs H0 t). cbn [bind].
  rewrite (proj2 (Nat.eqb_neq w 0) H0). unfold leadingBits. destruct j as [jj|]; [|reflexivity].
  rewrite (decode_stable d v w t Hl H0). reflexivity.
Qed.
Lemma lkM_ok : forall j, lk_ok (lkM j).
Proof.
  intros j d Hd. destruct (w_lk d Hd) as (v & w & Hl & Hw & Hs). unfold lkM. rewrite Hl. cbn [bind].
  eexists _, w. split; [reflexivity|]. split; [exact Hw|]. intros H0 t. rewrite (Hs H0 t). cbn [bind].
  rewrite (proj2 (Nat.eqb_neq w 0) H0). unfold middleBits. destruct j as [jj|]; [|reflexivity].
  rewrite (decode_stable d v w t Hl H0). reflexivity.
Qed.

Lemma subsequent_gsub : forall props d b, subsequent props d b = gsubsequent words_lookup _Ignore props d b.
Proof. reflexivity. Qed.

(** The rules: total, and unchanged when data is appended. *)
Definition w_good (b : bool) (w : nat) (len : nat) (x : res wdecision) : Prop :=
  exists dec, x = Ok dec
    /\ (forall adv ri', dec = WJoin adv ri' -> (w <= adv <= w + len)%nat)
    /\ (dec = WMore -> b = false).
Definition w_stable (x y : res wdecision) : Prop := forall dec, x = Ok dec -> dec <> WMore -> y = Ok dec.

Lemma w_good_join : forall b w len ri, w_good b w len (Ok (WJoin w ri)).
Proof. intros. eexists; split; [reflexivity|]. split; [|discriminate]. intros adv ri' H. injection H as <- <-. lia. Qed.
Lemma w_good_break : forall b w len, w_good b w len (Ok WBreak).
Proof. intros. eexists; split; [reflexivity|]. split; discriminate. Qed.
Lemma w_good_lookahead : forall cond props after b w ri next,
  w_good b w (length after) next -> w_good b w (length after) (lookahead cond props after b w ri next).
Proof.
  intros. unfold lookahead. destruct cond; [|exact H]. rewrite subsequent_gsub.
  destruct (gsubsequent_total words_lookup _Ignore props w_lk after b) as (r & m & Hr & H1 & H2 & H3).
  rewrite Hr. cbn [bind]. destruct m.
  - eexists; split; [reflexivity|]. split; [discriminate|]. destruct b; [|auto]. specialize (H1 eq_refl). discriminate.
  - destruct r as [a|]; [|exact H]. eexists; split; [reflexivity|]. split; [|discriminate].
    intros adv ri' He. injection He as <- <-. specialize (H3 _ eq_refl). lia.
Qed.
Lemma w_stable_refl : forall x, w_stable x x.
Proof. intros x dec H _. exact H. Qed.
Lemma w_stable_lookahead : forall cond props after t b w ri n1 n2, w_stable n1 n2 ->
  w_stable (lookahead cond props after false w ri n1) (lookahead cond props (after ++ t) b w ri n2).
Proof.
  intros. unfold lookahead. destruct cond; [|exact H]. rewrite (subsequent_gsub props after false), (subsequent_gsub props (after ++ t) b).
  destruct (gsubsequent_total words_lookup _Ignore props w_lk after false) as (r & m & Hr & H1 & H2 & H3).
  rewrite Hr. cbn [bind]. destruct m.
  - intros dec He Hn. congruence.
  - rewrite (gsubsequent_stable _ _ _ w_lk _ _ Hr t b). cbn [bind]. destruct r; [apply w_stable_refl | exact H].
Qed.


Lemma w_rules_good : forall current last lastEx lastLastEx ri w after b,
  w_good b w (length after) (w_rules current last lastEx lastLastEx ri w after b).
Proof.
  intros. unfold w_rules.
  repeat (first [ apply w_good_join | apply w_good_break | apply w_good_lookahead
    | match goal with |- w_good _ _ _ (if ?c then _ else _) => destruct c end ]).
Qed.

Lemma w_rules_stable : forall current last lastEx lastLastEx ri w after t b,
  w_stable (w_rules current last lastEx lastLastEx ri w after false)
           (w_rules current last lastEx lastLastEx ri w (after ++ t) b).
Proof.
  intros. unfold w_rules.
  repeat (first [ apply w_stable_refl | apply w_stable_lookahead
    | match goal with |- w_stable (if ?c then _ else _) _ => destruct c end ]).
Qed.

Definition to_w (pos : nat) (st : wst) : wstate :=
  {| w_pos := pos; w_current := ws_current st; w_lastEx := ws_lastEx st; w_lastLastEx := ws_lastLastEx st; w_ri := ws_ri st |}.

Lemma w_loop_engine : forall j fuel data atEOF pos st, (pos <= length data)%nat ->
  w_loop fuel j data atEOF (to_w pos st)
  = (r <- eloop (WE j) fuel (skipn pos data) atEOF st ;; Ok (option_map (fun n => (pos + n)%nat) r)).
Proof.
  intros j. induction fuel as [|fuel IH]; intros data atEOF pos st Hp; [reflexivity|].
  unfold to_w; cbn [w_loop eloop w_pos w_current w_lastEx w_lastLastEx w_ri].
  destruct (Nat.eqb pos (length data)) eqn:E.
  { apply Nat.eqb_eq in E. rewrite skipn_all2 by lia. cbn [is_nil].
    destruct atEOF; cbn [negb bind option_map]; [rewrite Nat.add_0_r|]; reflexivity. }
  apply Nat.eqb_neq in E. rewrite (is_nil_false (skipn pos data)) by (apply skipn_nonnil; lia).
  rewrite slice_from_ok by lia. cbn [bind].
  change (e_lk (WE j)) with (lkM j). unfold lkM.
  destruct (w_lk (skipn pos data)) as (v & w & Hl & Hw & _). { apply skipn_nonnil; lia. }
  rewrite Hl. cbn [bind]. destruct (Nat.eqb w 0) eqn:E0.
  { destruct atEOF; cbn [bind option_map]; [|reflexivity]. rewrite skipn_length. do 2 f_equal. lia. }
  rewrite skipn_length in Hw. apply Nat.eqb_neq in E0.
  change (e_rules (WE j)) with w_erules. unfold w_erules. cbv zeta.
  rewrite (slice_from_ok (skipn pos data) w) by (rewrite skipn_length; lia).
  rewrite slice_from_ok by lia. cbn [bind].
  rewrite skipn_skipn. replace (w + pos)%nat with (pos + w)%nat by lia.
  destruct (w_rules_good (middleBits j (skipn pos data) v) (ws_current st)
     (if negb (is (ws_current st) _Ignore) then ws_current st else ws_lastEx st)
     (if negb (is (ws_current st) _Ignore) then ws_lastEx st else ws_lastLastEx st)
     (ws_ri st) w (skipn (pos + w) data) atEOF) as (dec & Hr & Hj & _). rewrite Hr. cbn [bind].
  destruct dec as [adv ri'| |].
  2:{ cbn [bind option_map]. rewrite Nat.add_0_r. reflexivity. }
  2:{ reflexivity. }
  specialize (Hj _ _ eq_refl). rewrite skipn_length in Hj.
  cbn [bind]. rewrite slice_from_ok by (rewrite skipn_length; lia). cbn [bind].
  rewrite skipn_skipn. replace (adv + pos)%nat with (pos + adv)%nat by lia.
  specialize (IH data atEOF (pos + adv)%nat
    {| ws_current := middleBits j (skipn pos data) v;
       ws_lastEx := if negb (is (ws_current st) _Ignore) then ws_current st else ws_lastEx st;
       ws_lastLastEx := if negb (is (ws_current st) _Ignore) then ws_lastEx st else ws_lastLastEx st;
       ws_ri := ri' |} ltac:(lia)).
  unfold to_w in IH; cbn [ws_current ws_lastEx ws_lastLastEx ws_ri] in IH. rewrite IH.
  destruct (eloop (WE j) fuel (skipn (pos + adv) data) atEOF _) as [[n|]| |]; cbn [bind option_map]; try reflexivity.
  rewrite Nat.add_assoc. reflexivity.
Qed.

Definition w_fuel (data : bytes) : nat := S (length data).

Lemma w_split_engine : forall j data atEOF, esplit (WE j) w_fuel data atEOF = joinersSplitFunc j data atEOF.
Proof.
  intros j data atEOF. unfold esplit, joinersSplitFunc. destruct data as [|c d0]; [reflexivity|].
  set (data := c :: d0). change (is_nil data) with false. cbv iota.
  rewrite slice_from_ok by lia. change (skipn 0 data) with data. cbn [bind].
  change (e_lk0 (WE j)) with (lkL j). unfold lkL.
  destruct (w_lk data ltac:(discriminate)) as (v & w & Hl & Hw & _). rewrite Hl. cbn [bind].
  destruct (Nat.eqb w 0) eqn:E0.
  { rewrite slice_to_ok by lia. rewrite firstn_all. cbn [bind]. destruct atEOF; reflexivity. }
  rewrite slice_from_ok by lia. cbn [bind].
  pose proof (w_loop_engine j (S (length data)) data atEOF w (e_init (WE j) (leadingBits j data v)) Hw) as H.
  change (to_w w (e_init (WE j) (leadingBits j data v))) with
    {| w_pos := w; w_current := leadingBits j data v; w_lastEx := 0; w_lastLastEx := 0; w_ri := 0 |} in H.
  rewrite H.
  unfold w_fuel. destruct (eloop (WE j) _ (skipn w data) atEOF _) as [[n|]| |]; reflexivity.
Qed.

Definition w_mu (st : wst) (d : bytes) : nat := length d.

Lemma lkM_le : forall j d v w, d <> [] -> lkM j d = Ok (v, w) -> (w <= length d)%nat.
Proof. intros j d v w Hd H. destruct (lkM_ok j d Hd) as (v' & w' & H' & Hw & _). rewrite H in H'. injection H' as <- <-. exact Hw. Qed.

Lemma w_rules_ok : forall j, rules_ok (WE j) w_mu.
Proof.
  intros j st v d w Hd Hl Hw. change (e_lk (WE j)) with (lkM j) in Hl.
  pose proof (lkM_le _ _ _ _ Hd Hl) as Hle.
  change (e_rules (WE j)) with w_erules. unfold w_erules. cbv zeta. split.
  - intros atEOF. rewrite slice_from_ok by lia. cbn [bind].
    match goal with |- context [w_rules ?a ?b ?c ?d ?e ?f ?g ?h] =>
      destruct (w_rules_good a b c d e f g h) as (dec & Hr & Hj & Hm) end.
    rewrite Hr. cbn [bind]. rewrite skipn_length in Hj. destruct dec as [adv ri'| |].
    + eexists; split; [reflexivity|]. split; [|split; discriminate].
      intros adv' st' He. injection He as <- <-. specialize (Hj _ _ eq_refl). unfold w_mu. rewrite skipn_length. lia.
    + eexists; split; [reflexivity|]. repeat split; discriminate.
    + eexists; split; [reflexivity|]. repeat split; try discriminate. auto.
  - intros dec H Hne t b. rewrite slice_from_ok in H by lia. rewrite slice_from_ok by (rewrite app_length; lia).
    cbn [bind] in H |- *. rewrite skipn_app_le by lia.
    match type of H with context [w_rules ?a ?b ?c ?d ?e ?f ?g ?h] =>
      destruct (w_rules_good a b c d e f g h) as (dec' & Hr & _ & _);
      pose proof (w_rules_stable a b c d e f g t) as Hs end.
    rewrite Hr in H. cbn [bind] in H. rewrite (Hs b dec' Hr).
    + cbn [bind]. exact H.
    + intros ->. cbn in H. injection H as <-. apply Hne. reflexivity.
Qed.

Theorem w_split_ok : forall j, split_ok (joinersSplitFunc j).
Proof.
  intros j. eapply split_ok_ext; [apply w_split_engine|].
  apply (esplit_ok (WE j) w_mu w_fuel (lkL_ok j) (lkM_ok j) (w_rules_ok j)).
  intros data v w _ Hw Hle. unfold w_mu, w_fuel. rewrite skipn_length. lia.
Qed.
