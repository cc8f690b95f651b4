(** phrases: a token cut out of its text is a token. *)
From Verif Require Import Base ListFacts Trie LookupFacts TableFacts Engine EngineMore Lk Seek Trunc BitFacts TablePhrases PhrasesEngine.
From Verif Require Phrases.
Import Phrases.
Local Open Scope N_scope.

Definition NL : N := N.lor _Newline (N.lor _CR _LF).
Lemma p_cut : lk_cut (fun v => v = 0) phrases_lookup.
Proof. exact (lk_cut_tables _ _ _ p_tables_ok). Qed.

(** A hit of the lookahead for [v'] after [cur]; it will be joined next. *)
Definition p_hit (cur lastEx v' : N) : Prop := is cur _Ignore = false /\ is cur NL = false /\ is v' NL = false
  /\ ((is v' _AHLetter = true /\ is cur (N.lor _MidLetter _MidNumLetQ) = true /\ is lastEx _AHLetter = true)
   \/ (is v' _HebrewLetter = true /\ is cur _DoubleQuote = true /\ is lastEx _HebrewLetter = true)
   \/ (is v' _Numeric = true /\ is cur (N.lor _MidNum _MidNumLetQ) = true /\ is lastEx _Numeric = true)).

Definition p_cutP (cur lastEx : N) (w : nat) (after : bytes) (F : bytes -> res pdecision) : Prop := forall adv ri, F after = Ok (PJoin adv ri) ->
  (adv = w /\ forall m, F (firstn m after) = Ok (PJoin adv ri))
  \/ (exists a v' w', adv = (w + a)%nat /\ phrases_lookup (skipn a after) = Ok (v', w') /\ w' <> 0%nat /\ (a < length after)%nat /\ p_hit cur lastEx v'
      /\ forall m, (a + w' <= m)%nat -> F (firstn m after) = Ok (PJoin adv ri)).

Lemma p_cut_join : forall cur lastEx w after ri, p_cutP cur lastEx w after (fun _ => Ok (PJoin w ri)).
Proof. intros cur lastEx w after ri adv ri' H. injection H as <- <-. left. auto. Qed.
Lemma p_cut_break : forall cur lastEx w after, p_cutP cur lastEx w after (fun _ => Ok PBreak).
Proof. intros cur lastEx w after adv ri' H. discriminate. Qed.
Lemma p_cut_look : forall cur lastEx w after ri cond props next, (cond = true -> forall v', In v' pV -> is v' props = true -> p_hit cur lastEx v') ->
  p_cutP cur lastEx w after next -> p_cutP cur lastEx w after (fun x => lookahead cond props x true w ri (next x)).
Proof.
  intros cur lastEx w after ri cond props next HC HN. destruct cond; [|exact HN]. intros adv ri' H. unfold lookahead in *. rewrite subsequent_gsub in H.
  destruct (gsubsequent_total phrases_lookup _Ignore props p_lk after true) as (r & m & Hr & H1 & _). specialize (H1 eq_refl). subst m. rewrite Hr in H. cbn [bind] in H. destruct r as [a|].
  - injection H as <- <-. right. destruct (sub_found _ _ _ p_lk _ _ _ _ Hr) as (v' & w' & Hl & Hw & HP & _ & Ha). exists a, v', w'. split; [reflexivity|]. split; [exact Hl|]. split; [exact Hw|].
    split; [exact Ha|]. split.
    + apply HC; auto. destruct (skipn a after) as [|c s] eqn:ES; [discriminate|]. destruct (lookup_spec _ _ _ p_tables_ok c s) as (v1 & w1 & H1 & HV & _).
      change (lookup _ _ (c :: s)) with (phrases_lookup (c :: s)) in H1. rewrite Hl in H1. injection H1 as <- <-. exact HV.
    + intros m Hm. rewrite subsequent_gsub, (sub_cut _ _ _ p_lk p_cut _ _ _ _ _ _ m true Hr Hl Hm). reflexivity.
  - assert (HS : forall m, gsubsequent phrases_lookup _Ignore props (firstn m after) true = Ok (None, false)) by (intros m; apply (sub_none _ _ _ p_lk); exact Hr).
    destruct (HN adv ri' H) as [(-> & HF)|(a & v' & w' & E1 & E2 & E3 & E4 & E5 & HF)].
    + left. split; [reflexivity|]. intros m. rewrite subsequent_gsub, HS. cbn [bind]. apply HF.
    + right. exists a, v', w'. split; [exact E1|]. split; [exact E2|]. split; [exact E3|]. split; [exact E4|]. split; [exact E5|]. intros m Hm. rewrite subsequent_gsub, HS. cbn [bind]. apply HF. exact Hm.
Qed.

Lemma p_not_nl : forall p, In p [_AHLetter; _HebrewLetter; _Numeric] -> forall v', In v' pV -> is v' p = true -> is v' NL = false.
Proof.
  intros p Hp v' Hv H. assert (A : forallb (fun p => forallb (fun v => negb (is v p) || negb (is v NL)) pV) [_AHLetter; _HebrewLetter; _Numeric] = true) by (vm_compute; reflexivity).
  rewrite forallb_forall in A. specialize (A p Hp). rewrite forallb_forall in A. specialize (A v' Hv). rewrite H in A. destruct (is v' NL); [discriminate|reflexivity].
Qed.

Lemma p_rules_cutP : forall cur last lastEx lastLastEx ri w after, p_cutP cur lastEx w after (fun x => p_rules cur last lastEx lastLastEx ri w x true).
Proof.
  intros. unfold p_rules. destruct (N.lor cur last =? 0); [apply p_cut_break|]. destruct (_ && _); [apply p_cut_join|].
  fold NL. destruct (is (N.lor last cur) NL) eqn:EN; [apply p_cut_break|]. rewrite is_lor_l in EN. apply orb_false_iff in EN. destruct EN as [_ EN]. destruct (_ && _); [apply p_cut_join|].
  destruct (is (N.land _ _) _); [apply p_cut_join|].
  fold _Ignore. destruct (is cur _Ignore) eqn:EI; [apply p_cut_join|]. destruct (_ && _); [apply p_cut_join|].
  apply p_cut_look.
  { intros HC v' Hv HP. apply andb_prop in HC. split; [exact EI|]. split; [exact EN|]. split; [apply (p_not_nl _AHLetter); cbn; auto|]. left. tauto. }
  destruct (_ && _); [apply p_cut_join|]. destruct (_ && _); [apply p_cut_join|].
  apply p_cut_look.
  { intros HC v' Hv HP. apply andb_prop in HC. split; [exact EI|]. split; [exact EN|]. split; [apply (p_not_nl _HebrewLetter); cbn; auto|]. right. left. tauto. }
  destruct (_ && _); [apply p_cut_join|]. destruct (_ && _); [apply p_cut_join|]. destruct (_ && _); [apply p_cut_join|].
  apply p_cut_look.
  { intros HC v' Hv HP. apply andb_prop in HC. split; [exact EI|]. split; [exact EN|]. split; [apply (p_not_nl _Numeric); cbn; auto|]. right. right. tauto. }
  destruct (_ && _); [apply p_cut_join|]. destruct (_ && _); [apply p_cut_join|]. destruct (_ && _); [apply p_cut_join|]. destruct (_ && _); [|apply p_cut_break].
  destruct (Nat.eqb _ _); [apply p_cut_join|apply p_cut_break].
Qed.

Definition joins (x : res pdecision) : Prop := exists adv ri, x = Ok (PJoin adv ri).
Lemma joins_join : forall w ri, joins (Ok (PJoin w ri)).
Proof. intros. eexists; eexists; reflexivity. Qed.
Lemma joins_if : forall (c : bool) x w ri, joins x -> joins (if c then Ok (PJoin w ri) else x).
Proof. intros [|] x w ri H; [apply joins_join|exact H]. Qed.
Lemma joins_look : forall cond props after w ri next, joins next -> joins (lookahead cond props after true w ri next).
Proof.
  intros cond props after w ri next H. unfold lookahead. destruct cond; [|exact H]. rewrite subsequent_gsub.
  destruct (gsubsequent_total phrases_lookup _Ignore props p_lk after true) as (r & m & Hr & H1 & _). specialize (H1 eq_refl). subst m. rewrite Hr. cbn [bind]. destruct r; [apply joins_join|exact H].
Qed.
Lemma p_hit_joins : forall cur lastEx v' ri w' after, p_hit cur lastEx v' -> joins (p_rules v' cur cur lastEx ri w' after true).
Proof.
  intros cur lastEx v' ri w' after (HI & HN & HN' & H). unfold p_rules. destruct (N.lor v' cur =? 0) eqn:E0.
  { apply N.eqb_eq, N.lor_eq_0_iff in E0. destruct E0 as [-> ->]. destruct H as [(H1 & _)|[(H1 & _)|(H1 & _)]]; discriminate. }
  apply joins_if. fold NL. rewrite !is_lor_l, HN, HN'. cbn [orb].
  do 4 apply joins_if. apply joins_look. destruct H as [(H1 & H2 & H3)|[(H1 & H2 & H3)|(H1 & H2 & H3)]].
  - rewrite H1, H2, H3. apply joins_join.
  - do 2 apply joins_if. apply joins_look. rewrite H1, H2, H3. apply joins_join.
  - do 2 apply joins_if. apply joins_look. do 2 apply joins_if. rewrite H1, H2, H3. apply joins_join.
Qed.

Lemma p_rules_cut : rules_cut PE p_mu.
Proof.
  intros st v d w adv st' fuel k Hd Hl Hw Hr Hmu HL. change (e_lk PE) with phrases_lookup in *. pose proof (p_lk_le _ _ _ Hd Hl) as Hle.
  change (e_rules PE) with p_erules in *. unfold p_erules in *. cbv zeta in *. rewrite slice_from_ok in Hr by exact Hle. cbn [bind] in Hr.
  set (lastEx := if negb (is (ps_current st) _Ignore) then ps_current st else ps_lastEx st) in *.
  set (lastLastEx := if negb (is (ps_current st) _Ignore) then ps_lastEx st else ps_lastLastEx st) in *.
  destruct (p_rules_good v (ps_current st) lastEx lastLastEx (ps_ri st) w (skipn w d) true) as (dec & Hdec & Hj & _). rewrite Hdec in Hr. cbn [bind] in Hr.
  destruct dec as [adv' ri'| |]; try discriminate. injection Hr as <- <-. specialize (Hj _ _ eq_refl). rewrite skipn_length in Hj.
  split; [lia|]. intros _. left. rewrite slice_from_ok by (rewrite firstn_length; lia). cbn [bind]. rewrite skipn_firstn_comm.
  destruct (p_rules_cutP v (ps_current st) lastEx lastLastEx (ps_ri st) w (skipn w d) adv' ri' Hdec) as [(-> & HF)|(a & v' & w' & E1 & E2 & E3 & E4 & E5 & HF)].
  { rewrite HF. reflexivity. }
  subst adv'. rewrite skipn_length in E4. rewrite skipn_skipn, (Nat.add_comm a w) in E2. assert (Hk : (w' <= k)%nat).
  { destruct fuel as [|fuel]; [lia|]. cbn [eloop] in HL. rewrite (is_nil_false (skipn (w + a) d)) in HL by (apply skipn_nonnil; lia). change (e_lk PE) with phrases_lookup in HL.
    rewrite E2 in HL. cbn [bind] in HL. rewrite (proj2 (Nat.eqb_neq _ _) E3) in HL. change (e_rules PE) with p_erules in HL. unfold p_erules in HL. cbv zeta in HL.
    cbn [ps_current ps_lastEx ps_lastLastEx ps_ri] in HL. destruct E5 as (I1 & E5). rewrite I1 in HL. cbn [negb] in HL.
    destruct (p_lk (skipn (w + a) d)) as (v1 & w1 & Hx & Hw1 & _); [apply skipn_nonnil; lia|]. rewrite E2 in Hx. injection Hx as <- <-.
    rewrite slice_from_ok in HL by exact Hw1. cbn [bind] in HL.
    destruct (p_hit_joins v lastEx v' ri' w' (skipn w' (skipn (w + a) d)) (conj I1 E5)) as (adv2 & ri2 & HJ). rewrite HJ in HL. cbn [bind] in HL.
    match type of HJ with p_rules ?a ?b ?c ?d ?e ?f ?g ?h = _ => destruct (p_rules_good a b c d e f g h) as (dec2 & Hr2 & Hj2 & _) end. rewrite HJ in Hr2. injection Hr2 as <-. specialize (Hj2 _ _ eq_refl).
    destruct (slice_from (skipn (w + a) d) adv2) as [d'| |]; try discriminate. cbn [bind] in HL.
    match type of HL with context [eloop ?x ?y ?z ?t ?q] => destruct (eloop x y z t q) as [[n|]| |] end; try discriminate. cbn [bind option_map] in HL. injection HL as <-. lia. }
  rewrite HF by lia. reflexivity.
Qed.

Theorem p_cut_split : forall d n, d <> [] -> splitFunc d true = Ok (e_done n (firstn n d)) -> splitFunc (firstn n d) true = Ok (e_done n (firstn n d)).
Proof.
  intros d n Hd H. rewrite <- p_split_engine in H |- *. apply (cut_split PE p_mu p_lk p_lk p_rules_ok p_rules_cut p_fuel); auto.
  intros data v w _ Hw Hle. unfold p_mu, p_fuel. rewrite skipn_length. lia.
Qed.
