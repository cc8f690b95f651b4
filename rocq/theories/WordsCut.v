(** words: a token cut out of its text is a token. *)
From Verif Require Import Base ListFacts Trie LookupFacts TableFacts Engine EngineMore Lk Seek Trunc BitFacts TableWords WordsEngine.
From Verif Require Words.
Import Words.
Local Open Scope N_scope.

Definition NL : N := N.lor _Newline (N.lor _CR _LF).
Lemma w_cut : lk_cut (fun v => v = 0) words_lookup.
Proof. exact (lk_cut_tables _ _ _ w_tables_ok). Qed.

(** A hit of the lookahead for [v'] after [cur]; it will be joined next. *)
Definition w_hit (cur lastEx v' : N) : Prop := is cur _Ignore = false /\ is cur NL = false /\ is v' NL = false
  /\ ((is v' _AHLetter = true /\ is cur (N.lor _MidLetter _MidNumLetQ) = true /\ is lastEx _AHLetter = true)
   \/ (is v' _HebrewLetter = true /\ is cur _DoubleQuote = true /\ is lastEx _HebrewLetter = true)
   \/ (is v' _Numeric = true /\ is cur (N.lor _MidNum _MidNumLetQ) = true /\ is lastEx _Numeric = true)).

Definition w_cutP (cur lastEx : N) (w : nat) (after : bytes) (F : bytes -> res wdecision) : Prop := forall adv ri, F after = Ok (WJoin adv ri) ->
  (adv = w /\ forall m, F (firstn m after) = Ok (WJoin adv ri))
  \/ (exists a v' w', adv = (w + a)%nat /\ words_lookup (skipn a after) = Ok (v', w') /\ w' <> 0%nat /\ (a < length after)%nat /\ w_hit cur lastEx v'
      /\ forall m, (a + w' <= m)%nat -> F (firstn m after) = Ok (WJoin adv ri)).

Lemma w_cut_join : forall cur lastEx w after ri, w_cutP cur lastEx w after (fun _ => Ok (WJoin w ri)).
Proof. intros cur lastEx w after ri adv ri' H. injection H as <- <-. left. auto. Qed.
Lemma w_cut_break : forall cur lastEx w after, w_cutP cur lastEx w after (fun _ => Ok WBreak).
Proof. intros cur lastEx w after adv ri' H. discriminate. Qed.
Lemma w_cut_look : forall cur lastEx w after ri cond props next, (cond = true -> forall v', In v' wV -> is v' props = true -> w_hit cur lastEx v') ->
  w_cutP cur lastEx w after next -> w_cutP cur lastEx w after (fun x => lookahead cond props x true w ri (next x)).
Proof.
  intros cur lastEx w after ri cond props next HC HN. destruct cond; [|exact HN]. intros adv ri' H. unfold lookahead in *. rewrite subsequent_gsub in H.
  destruct (gsubsequent_total words_lookup _Ignore props w_lk after true) as (r & m & Hr & H1 & _). specialize (H1 eq_refl). subst m. rewrite Hr in H. cbn [bind] in H. destruct r as [a|].
  - injection H as <- <-. right. destruct (sub_found _ _ _ w_lk _ _ _ _ Hr) as (v' & w' & Hl & Hw & HP & _ & Ha). exists a, v', w'. split; [reflexivity|]. split; [exact Hl|]. split; [exact Hw|].
    split; [exact Ha|]. split.
    + apply HC; auto. destruct (skipn a after) as [|c s] eqn:ES; [discriminate|]. destruct (lookup_spec _ _ _ w_tables_ok c s) as (v1 & w1 & H1 & HV & _).
      change (lookup _ _ (c :: s)) with (words_lookup (c :: s)) in H1. rewrite Hl in H1. injection H1 as <- <-. exact HV.
    + intros m Hm. rewrite subsequent_gsub, (sub_cut _ _ _ w_lk w_cut _ _ _ _ _ _ m true Hr Hl Hm). reflexivity.
  - assert (HS : forall m, gsubsequent words_lookup _Ignore props (firstn m after) true = Ok (None, false)) by (intros m; apply (sub_none _ _ _ w_lk); exact Hr).
    destruct (HN adv ri' H) as [(-> & HF)|(a & v' & w' & E1 & E2 & E3 & E4 & E5 & HF)].
    + left. split; [reflexivity|]. intros m. rewrite subsequent_gsub, HS. cbn [bind]. apply HF.
    + right. exists a, v', w'. split; [exact E1|]. split; [exact E2|]. split; [exact E3|]. split; [exact E4|]. split; [exact E5|]. intros m Hm. rewrite subsequent_gsub, HS. cbn [bind]. apply HF. exact Hm.
Qed.

Lemma w_not_nl : forall p, In p [_AHLetter; _HebrewLetter; _Numeric] -> forall v', In v' wV -> is v' p = true -> is v' NL = false.
Proof.
  intros p Hp v' Hv H. assert (A : forallb (fun p => forallb (fun v => negb (is v p) || negb (is v NL)) wV) [_AHLetter; _HebrewLetter; _Numeric] = true) by (vm_compute; reflexivity).
  rewrite forallb_forall in A. specialize (A p Hp). rewrite forallb_forall in A. specialize (A v' Hv). rewrite H in A. destruct (is v' NL); [discriminate|reflexivity].
Qed.

Lemma w_rules_cutP : forall cur last lastEx lastLastEx ri w after, w_cutP cur lastEx w after (fun x => w_rules cur last lastEx lastLastEx ri w x true).
Proof.
  intros. unfold w_rules. destruct (_ && _); [apply w_cut_join|]. destruct (is (N.land _ _) _); [apply w_cut_join|]. destruct (_ && _); [apply w_cut_join|].
  fold NL. destruct (is (N.lor last cur) NL) eqn:EN; [apply w_cut_break|]. rewrite is_lor_l in EN. apply orb_false_iff in EN. destruct EN as [_ EN]. destruct (_ && _); [apply w_cut_join|].
  fold _Ignore. destruct (is cur _Ignore) eqn:EI; [apply w_cut_join|].
  apply w_cut_look.
  { intros HC v' Hv HP. apply andb_prop in HC. split; [exact EI|]. split; [exact EN|]. split; [apply (w_not_nl _AHLetter); cbn; auto|]. left. tauto. }
  destruct (_ && _); [apply w_cut_join|]. destruct (_ && _); [apply w_cut_join|].
  apply w_cut_look.
  { intros HC v' Hv HP. apply andb_prop in HC. split; [exact EI|]. split; [exact EN|]. split; [apply (w_not_nl _HebrewLetter); cbn; auto|]. right. left. tauto. }
  destruct (_ && _); [apply w_cut_join|]. destruct (_ && _); [apply w_cut_join|].
  apply w_cut_look.
  { intros HC v' Hv HP. apply andb_prop in HC. split; [exact EI|]. split; [exact EN|]. split; [apply (w_not_nl _Numeric); cbn; auto|]. right. right. tauto. }
  destruct (_ && _); [apply w_cut_join|]. destruct (_ && _); [apply w_cut_join|]. destruct (_ && _); [apply w_cut_join|]. destruct (_ && _); [|apply w_cut_break].
  destruct (Nat.eqb _ _); [apply w_cut_join|apply w_cut_break].
Qed.

Definition joins (x : res wdecision) : Prop := exists adv ri, x = Ok (WJoin adv ri).
Lemma joins_join : forall w ri, joins (Ok (WJoin w ri)).
Proof. intros. eexists; eexists; reflexivity. Qed.
Lemma joins_if : forall (c : bool) x w ri, joins x -> joins (if c then Ok (WJoin w ri) else x).
Proof. intros [|] x w ri H; [apply joins_join|exact H]. Qed.
Lemma joins_look : forall cond props after w ri next, joins next -> joins (lookahead cond props after true w ri next).
Proof.
  intros cond props after w ri next H. unfold lookahead. destruct cond; [|exact H]. rewrite subsequent_gsub.
  destruct (gsubsequent_total words_lookup _Ignore props w_lk after true) as (r & m & Hr & H1 & _). specialize (H1 eq_refl). subst m. rewrite Hr. cbn [bind]. destruct r; [apply joins_join|exact H].
Qed.
Lemma w_hit_joins : forall cur lastEx v' ri w' after u, w_hit cur lastEx v' -> is u NL = false -> joins (w_rules (N.lor v' u) cur cur lastEx ri w' after true).
Proof.
  intros cur lastEx v' ri w' after u (HI & HN & HN' & H) HU. unfold w_rules. do 3 apply joins_if. fold NL. rewrite !is_lor_l, HN, HN', HU. cbn [orb].
  rewrite <- !is_lor_l. do 2 apply joins_if. apply joins_look. destruct H as [(H1 & H2 & H3)|[(H1 & H2 & H3)|(H1 & H2 & H3)]].
  - rewrite (is_lor_l v' u _AHLetter), H1, H2, H3. apply joins_join.
  - do 2 apply joins_if. apply joins_look. rewrite (is_lor_l v' u _HebrewLetter), H1, H2, H3. apply joins_join.
  - do 2 apply joins_if. apply joins_look. apply joins_if. rewrite (is_lor_l v' u _Numeric), H1, H2, H3. apply joins_join.
Qed.

Lemma middle_lor : forall j d v, exists u, middleBits j d v = N.lor v u /\ is u NL = false.
Proof.
  intros j d v. unfold middleBits. destruct j as [jj|]; [destruct (runesContain _ _)|].
  - exists _MidNumLet. split; reflexivity.
  - exists 0. rewrite N.lor_0_r. split; reflexivity.
  - exists 0. rewrite N.lor_0_r. split; reflexivity.
Qed.

Lemma w_rules_cut : forall j, rules_cut (WE j) w_mu.
Proof.
  intros j st v d w adv st' fuel k Hd Hl Hw Hr Hmu HL. change (e_lk (WE j)) with (lkM j) in *. pose proof (lkM_le _ _ _ _ Hd Hl) as Hle.
  change (e_rules (WE j)) with w_erules in *. unfold w_erules in *. cbv zeta in *. rewrite slice_from_ok in Hr by exact Hle. cbn [bind] in Hr.
  set (lastEx := if negb (is (ws_current st) _Ignore) then ws_current st else ws_lastEx st) in *.
  set (lastLastEx := if negb (is (ws_current st) _Ignore) then ws_lastEx st else ws_lastLastEx st) in *.
  destruct (w_rules_good v (ws_current st) lastEx lastLastEx (ws_ri st) w (skipn w d) true) as (dec & Hdec & Hj & _). rewrite Hdec in Hr. cbn [bind] in Hr.
  destruct dec as [adv' ri'| |]; try discriminate. injection Hr as <- <-. specialize (Hj _ _ eq_refl). rewrite skipn_length in Hj.
  split; [lia|]. intros _. left. rewrite slice_from_ok by (rewrite firstn_length; lia). cbn [bind]. rewrite skipn_firstn_comm.
  destruct (w_rules_cutP v (ws_current st) lastEx lastLastEx (ws_ri st) w (skipn w d) adv' ri' Hdec) as [(-> & HF)|(a & v' & w' & E1 & E2 & E3 & E4 & E5 & HF)].
  { rewrite HF. reflexivity. }
  subst adv'. rewrite skipn_length in E4. rewrite skipn_skipn, (Nat.add_comm a w) in E2. assert (Hk : (w' <= k)%nat).
  { destruct fuel as [|fuel]; [lia|]. cbn [eloop] in HL. rewrite (is_nil_false (skipn (w + a) d)) in HL by (apply skipn_nonnil; lia). change (e_lk (WE j)) with (lkM j) in HL.
    unfold lkM in HL. rewrite E2 in HL. cbn [bind] in HL. rewrite (proj2 (Nat.eqb_neq _ _) E3) in HL. change (e_rules (WE j)) with w_erules in HL. unfold w_erules in HL. cbv zeta in HL.
    cbn [ws_current ws_lastEx ws_lastLastEx ws_ri] in HL. destruct E5 as (I1 & E5). rewrite I1 in HL. cbn [negb] in HL.
    destruct (w_lk (skipn (w + a) d)) as (v1 & w1 & Hx & Hw1 & _); [apply skipn_nonnil; lia|]. rewrite E2 in Hx. injection Hx as <- <-.
    rewrite slice_from_ok in HL by exact Hw1. cbn [bind] in HL. destruct (middle_lor j (skipn (w + a) d) v') as (u & Eu & HU). rewrite Eu in HL.
    destruct (w_hit_joins v lastEx v' ri' w' (skipn w' (skipn (w + a) d)) u (conj I1 E5) HU) as (adv2 & ri2 & HJ). rewrite HJ in HL. cbn [bind] in HL.
    match type of HJ with w_rules ?a ?b ?c ?d ?e ?f ?g ?h = _ => destruct (w_rules_good a b c d e f g h) as (dec2 & Hr2 & Hj2 & _) end. rewrite HJ in Hr2. injection Hr2 as <-. specialize (Hj2 _ _ eq_refl).
    destruct (slice_from (skipn (w + a) d) adv2) as [d'| |]; try discriminate. cbn [bind] in HL.
    match type of HL with context [eloop ?x ?y ?z ?t ?q] => destruct (eloop x y z t q) as [[n|]| |] end; try discriminate. cbn [bind option_map] in HL. injection HL as <-. lia. }
  rewrite HF by lia. reflexivity.
Qed.

Theorem w_cut_split : forall j d n, d <> [] -> joinersSplitFunc j d true = Ok (e_done n (firstn n d)) -> joinersSplitFunc j (firstn n d) true = Ok (e_done n (firstn n d)).
Proof.
  intros j d n Hd H. rewrite <- w_split_engine in H |- *. apply (cut_split (WE j) w_mu (lkL_ok j) (lkM_ok j) (w_rules_ok j) (w_rules_cut j) w_fuel); auto.
  intros data v w _ Hw Hle. unfold w_mu, w_fuel. rewrite skipn_length. lia.
Qed.
