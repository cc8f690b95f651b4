(** graphemes: text is segmented line by line. *)
From Verif Require Import Base ListFacts Trie TableFacts Engine Lk SpecUtf8 SpecIter SpecRules SpecLookup
  RuleFacts BitFacts WordFacts Conform UcdFacts UcdGraphemes Lines TableGraphemes GraphemesEngine GraphemesConform.
From Verif Require Graphemes.
Import Graphemes.
Local Open Scope N_scope.
Definition atLF (st : gst) : Prop := gs_current st = P 10.
Lemma P_LF : P 10 = _LF. Proof. vm_compute. reflexivity. Qed.
Lemma BRK : forall st v d w, atLF st -> e_lk GE d = Ok (v, w) -> w <> O -> e_rules GE st v d w true = Ok EBreak.
Proof.
  intros st v d w H _ _. change (e_rules GE) with g_erules. unfold g_erules. rewrite H, P_LF. cbv zeta.
  unfold g_rules. change (is _LF _CR) with false. rewrite andb_false_r.
  assert (N.lor v _LF =? 0 = false) as ->. { apply N.eqb_neq. intros E. apply N.lor_eq_0_iff in E. destruct E; discriminate. }
  rewrite is_lor_l. change (is _LF (N.lor _Control (N.lor _CR _LF))) with true. rewrite orb_true_r. reflexivity.
Qed.
Lemma RL : forall st x a, scalars (x :: a) -> last_char (x :: a) = Some 10 ->
    exists dec, e_rules GE st (P x) (encode (x :: a)) (length (utf8 x)) false = Ok dec
      /\ match dec with
         | EBreak => True
         | EJoin adv st' => exists a1 a2, x :: a = a1 ++ a2 /\ adv = length (encode a1) /\ (a2 = [] -> atLF st')
         | _ => False
         end.
Proof.
  intros st x a Hs Ha. change (e_rules GE) with g_erules. unfold g_erules. cbv zeta.
  destruct (g_rules _ _ _ _ _) as [ri' incb'|]; (eexists; split; [reflexivity|]); [|exact I].
  destruct (one_adv x a) as (a1 & a2 & E1 & E2 & _ & E4). exists a1, a2. repeat split; auto. intros ->. subst a. cbn in Ha. injection Ha as ->. reflexivity.
Qed.

Theorem g_lines : forall a b la lb n, scalars a -> last_char a = Some 10 -> starts_whole GE b ->
  chop splitFunc (S (length (encode a))) (encode a) = Ok la -> chop splitFunc (S (length b)) b = Ok lb -> (length (encode a ++ b) < n)%nat ->
  chop splitFunc n (encode a ++ b) = Ok (la ++ lb).
Proof.
  intros a b la lb n Hs Ha. apply (lines_chop GE g_mu g_rules_ok g_fuel g_FU splitFunc g_split_engine g_split_ok P P g_lookup_cp g_lookup_cp
    atLF eq_refl BRK RL (length a)); auto.
Qed.
