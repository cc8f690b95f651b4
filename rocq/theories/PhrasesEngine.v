(** phrases: the split function as an instance of the common loop, and its contract. *)
From Verif Require Import Base ListFacts Trie Engine Lk Seek TablePhrases.
From Verif Require Phrases.
Import Phrases.
Local Open Scope N_scope.

Record pst := { ps_current : N; ps_lastEx : N; ps_lastLastEx : N; ps_ri : nat }.

Definition p_erules (st : pst) (current : N) (d : bytes) (w : nat) (atEOF : bool) : res (edec pst) :=
  let last := ps_current st in
  let lastLastEx := if negb (is last _Ignore) then ps_lastEx st else ps_lastLastEx st in
  let lastEx := if negb (is last _Ignore) then last else ps_lastEx st in
  after <- slice_from d w ;;
  dec <- p_rules current last lastEx lastLastEx (ps_ri st) w after atEOF ;;
  match dec with
  | PMore => Ok EMore
  | PBreak => Ok EBreak
  | PJoin adv ri' =>
    Ok (EJoin adv {| ps_current := current; ps_lastEx := lastEx; ps_lastLastEx := lastLastEx; ps_ri := ri' |})
  end.

Definition PE : eng := {|
  e_St := pst;
  e_lk0 := phrases_lookup;
  e_lk := phrases_lookup;
  e_init := fun v => {| ps_current := v; ps_lastEx := 0; ps_lastLastEx := 0; ps_ri := 0 |};
  e_rules := p_erules
|}.

Lemma subsequent_gsub : forall props d b, subsequent props d b = gsubsequent phrases_lookup _Ignore props d b.
Proof. reflexivity. Qed.

(** The rules: total, and unchanged when data is appended. *)
Definition p_good (b : bool) (w : nat) (len : nat) (x : res pdecision) : Prop :=
  exists dec, x = Ok dec
    /\ (forall adv ri', dec = PJoin adv ri' -> (w <= adv <= w + len)%nat)
    /\ (dec = PMore -> b = false).
Definition p_stable (x y : res pdecision) : Prop := forall dec, x = Ok dec -> dec <> PMore -> y = Ok dec.

Lemma p_good_join : forall b w len ri, p_good b w len (Ok (PJoin w ri)).
Proof. intros. eexists; split; [reflexivity|]. split; [|discriminate]. intros adv ri' H. injection H as <- <-. lia. Qed.
Lemma p_good_break : forall b w len, p_good b w len (Ok PBreak).
Proof. intros. eexists; split; [reflexivity|]. split; discriminate. Qed.
Lemma p_good_lookahead : forall cond props after b w ri next,
  p_good b w (length after) next -> p_good b w (length after) (lookahead cond props after b w ri next).
Proof.
  intros. unfold lookahead. destruct cond; [|exact H]. rewrite subsequent_gsub.
  destruct (gsubsequent_total phrases_lookup _Ignore props p_lk after b) as (r & m & Hr & H1 & H2 & H3).
  rewrite Hr. cbn [bind]. destruct m.
  - eexists; split; [reflexivity|]. split; [discriminate|]. destruct b; [|auto]. specialize (H1 eq_refl). discriminate.
  - destruct r as [a|]; [|exact H]. eexists; split; [reflexivity|]. split; [|discriminate].
    intros adv ri' He. injection He as <- <-. specialize (H3 _ eq_refl). lia.
Qed.
Lemma p_stable_refl : forall x, p_stable x x.
Proof. intros x dec H _. exact H. Qed.
Lemma p_stable_lookahead : forall cond props after t b w ri n1 n2, p_stable n1 n2 ->
  p_stable (lookahead cond props after false w ri n1) (lookahead cond props (after ++ t) b w ri n2).
Proof.
  intros. unfold lookahead. destruct cond; [|exact H]. rewrite (subsequent_gsub props after false), (subsequent_gsub props (after ++ t) b).
  destruct (gsubsequent_total phrases_lookup _Ignore props p_lk after false) as (r & m & Hr & H1 & H2 & H3).
  rewrite Hr. cbn [bind]. destruct m.
  - intros dec He Hn. congruence.
  - rewrite (gsubsequent_stable _ _ _ p_lk _ _ Hr t b). cbn [bind]. destruct r; [apply p_stable_refl | exact H].
Qed.


Lemma p_rules_good : forall current last lastEx lastLastEx ri w after b,
  p_good b w (length after) (p_rules current last lastEx lastLastEx ri w after b).
Proof.
  intros. unfold p_rules.
  repeat (first [ apply p_good_join | apply p_good_break | apply p_good_lookahead
    | match goal with |- p_good _ _ _ (if ?c then _ else _) => destruct c end ]).
Qed.

Lemma p_rules_stable : forall current last lastEx lastLastEx ri w after t b,
  p_stable (p_rules current last lastEx lastLastEx ri w after false)
           (p_rules current last lastEx lastLastEx ri w (after ++ t) b).
Proof.
  intros. unfold p_rules.
  repeat (first [ apply p_stable_refl | apply p_stable_lookahead
    | match goal with |- p_stable (if ?c then _ else _) _ => destruct c end ]).
Qed.

Definition to_p (pos : nat) (st : pst) : pstate :=
  {| p_pos := pos; p_current := ps_current st; p_lastEx := ps_lastEx st; p_lastLastEx := ps_lastLastEx st; p_ri := ps_ri st |}.

Lemma p_loop_engine : forall fuel data atEOF pos st, (pos <= length data)%nat ->
  p_loop fuel data atEOF (to_p pos st)
  = (r <- eloop PE fuel (skipn pos data) atEOF st ;; Ok (option_map (fun n => (pos + n)%nat) r)).
Proof.
  induction fuel as [|fuel IH]; intros data atEOF pos st Hp; [reflexivity|].
  unfold to_p; cbn [p_loop eloop p_pos p_current p_lastEx p_lastLastEx p_ri].
  destruct (Nat.eqb pos (length data)) eqn:E.
  { apply Nat.eqb_eq in E. rewrite skipn_all2 by lia. cbn [is_nil].
    destruct atEOF; cbn [negb bind option_map]; [rewrite Nat.add_0_r|]; reflexivity. }
  apply Nat.eqb_neq in E. rewrite (is_nil_false (skipn pos data)) by (apply skipn_nonnil; lia).
  rewrite slice_from_ok by lia. cbn [bind].
  change (e_lk PE) with (phrases_lookup).
  destruct (p_lk (skipn pos data)) as (v & w & Hl & Hw & _). { apply skipn_nonnil; lia. }
  rewrite Hl. cbn [bind]. destruct (Nat.eqb w 0) eqn:E0.
  { destruct atEOF; cbn [bind option_map]; [|reflexivity]. rewrite skipn_length. do 2 f_equal. lia. }
  rewrite skipn_length in Hw. apply Nat.eqb_neq in E0.
  change (e_rules PE) with p_erules. unfold p_erules. cbv zeta.
  rewrite (slice_from_ok (skipn pos data) w) by (rewrite skipn_length; lia).
  rewrite slice_from_ok by lia. cbn [bind].
  rewrite skipn_skipn. replace (w + pos)%nat with (pos + w)%nat by lia.
  destruct (p_rules_good v (ps_current st)
     (if negb (is (ps_current st) _Ignore) then ps_current st else ps_lastEx st)
     (if negb (is (ps_current st) _Ignore) then ps_lastEx st else ps_lastLastEx st)
     (ps_ri st) w (skipn (pos + w) data) atEOF) as (dec & Hr & Hj & _). rewrite Hr. cbn [bind].
  destruct dec as [adv ri'| |].
  2:{ cbn [bind option_map]. rewrite Nat.add_0_r. reflexivity. }
  2:{ reflexivity. }
  specialize (Hj _ _ eq_refl). rewrite skipn_length in Hj.
  cbn [bind]. rewrite slice_from_ok by (rewrite skipn_length; lia). cbn [bind].
  rewrite skipn_skipn. replace (adv + pos)%nat with (pos + adv)%nat by lia.
  specialize (IH data atEOF (pos + adv)%nat
    {| ps_current := v;
       ps_lastEx := if negb (is (ps_current st) _Ignore) then ps_current st else ps_lastEx st;
       ps_lastLastEx := if negb (is (ps_current st) _Ignore) then ps_lastEx st else ps_lastLastEx st;
       ps_ri := ri' |} ltac:(lia)).
  unfold to_p in IH; cbn [ps_current ps_lastEx ps_lastLastEx ps_ri] in IH. rewrite IH.
  destruct (eloop PE fuel (skipn (pos + adv) data) atEOF _) as [[n|]| |]; cbn [bind option_map]; try reflexivity.
  rewrite Nat.add_assoc. reflexivity.
Qed.

Definition p_fuel (data : bytes) : nat := S (length data).

Lemma p_split_engine : forall data atEOF, esplit PE p_fuel data atEOF = splitFunc data atEOF.
Proof.
  intros data atEOF. unfold esplit, splitFunc. destruct data as [|c d0]; [reflexivity|].
  set (data := c :: d0). change (is_nil data) with false. cbv iota.
  rewrite slice_from_ok by lia. change (skipn 0 data) with data. cbn [bind].
  change (e_lk0 PE) with (phrases_lookup).
  destruct (p_lk data ltac:(discriminate)) as (v & w & Hl & Hw & _). rewrite Hl. cbn [bind].
  destruct (Nat.eqb w 0) eqn:E0.
  { rewrite slice_to_ok by lia. rewrite firstn_all. cbn [bind]. destruct atEOF; reflexivity. }
  rewrite slice_from_ok by lia. cbn [bind].
  pose proof (p_loop_engine (S (length data)) data atEOF w (e_init PE v) Hw) as H.
  change (to_p w (e_init PE v)) with
    {| p_pos := w; p_current := v; p_lastEx := 0; p_lastLastEx := 0; p_ri := 0 |} in H.
  rewrite H.
  unfold p_fuel. destruct (eloop PE _ (skipn w data) atEOF _) as [[n|]| |]; reflexivity.
Qed.

Definition p_mu (st : pst) (d : bytes) : nat := length d.

Lemma p_lk_le : forall d v w, d <> [] -> phrases_lookup d = Ok (v, w) -> (w <= length d)%nat.
Proof. intros d v w Hd H. destruct (p_lk d Hd) as (v' & w' & H' & Hw & _). rewrite H in H'. injection H' as <- <-. exact Hw. Qed.

Lemma p_rules_ok : rules_ok PE p_mu.
Proof.
  intros st v d w Hd Hl Hw. change (e_lk PE) with (phrases_lookup) in Hl.
  pose proof (p_lk_le _ _ _ Hd Hl) as Hle.
  change (e_rules PE) with p_erules. unfold p_erules. cbv zeta. split.
  - intros atEOF. rewrite slice_from_ok by lia. cbn [bind].
    match goal with |- context [p_rules ?a ?b ?c ?d ?e ?f ?g ?h] =>
      destruct (p_rules_good a b c d e f g h) as (dec & Hr & Hj & Hm) end.
    rewrite Hr. cbn [bind]. rewrite skipn_length in Hj. destruct dec as [adv ri'| |].
    + eexists; split; [reflexivity|]. split; [|split; discriminate].
      intros adv' st' He. injection He as <- <-. specialize (Hj _ _ eq_refl). unfold p_mu. rewrite skipn_length. lia.
    + eexists; split; [reflexivity|]. repeat split; discriminate.
    + eexists; split; [reflexivity|]. repeat split; try discriminate. auto.
  - intros dec H Hne t b. rewrite slice_from_ok in H by lia. rewrite slice_from_ok by (rewrite app_length; lia).
    cbn [bind] in H |- *. rewrite skipn_app_le by lia.
    match type of H with context [p_rules ?a ?b ?c ?d ?e ?f ?g ?h] =>
      destruct (p_rules_good a b c d e f g h) as (dec' & Hr & _ & _);
      pose proof (p_rules_stable a b c d e f g t) as Hs end.
    rewrite Hr in H. cbn [bind] in H. rewrite (Hs b dec' Hr).
    + cbn [bind]. exact H.
    + intros ->. cbn in H. injection H as <-. apply Hne. reflexivity.
Qed.

Theorem p_split_ok : split_ok splitFunc.
Proof.
  eapply split_ok_ext; [apply p_split_engine|].
  apply (esplit_ok PE p_mu p_fuel p_lk p_lk p_rules_ok).
  intros data v w _ Hw Hle. unfold p_mu, p_fuel. rewrite skipn_length. lia.
Qed.
