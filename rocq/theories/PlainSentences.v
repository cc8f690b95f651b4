(** Plain text: sentences. *)
From Verif Require Import Base ListFacts SpecUcd SpecRules SpecSentences SpecPlain RuleFacts WordFacts SentenceFacts.

(** Without a terminator nothing has been started that could end a sentence. *)
Lemma no_term_track : forall b, Forall (fun c => no_term c = true) b ->
  let t := strack b in t_as t = false /\ t_ac t = false /\ t_ss t = false /\ t_sc t = false /\ t_sp t = false /\ on AT (t_lx t) = false.
Proof.
  induction b as [|x b IH] using rev_ind; intros F; [repeat split|]. apply Forall_app in F. destruct F as (F & Fx). specialize (IH F). cbv zeta in *. clear F.
  destruct IH as (H1 & H2 & H3 & H4 & H5 & H6). rewrite strack_snoc. unfold sstep. destruct (drops _ _ _ _); cbn [t_as t_ac t_ss t_sc t_sp t_lx]; [repeat split; auto|].
  apply Forall_inv in Fx. unfold no_term in Fx. rewrite H1, H2, H3, H4.
  assert (A : AT x = false) by (unfold AT; cbn [spred ATerm]; destruct (sc SB_ATerm x); [discriminate|reflexivity]).
  assert (B : SAT x = false) by (unfold SAT; cbn [spred SATerm STerm ATerm]; destruct (sc SB_ATerm x), (sc SB_STerm x); (discriminate || reflexivity)).
  cbn [on]. rewrite A, B, !andb_false_r. repeat split.
Qed.

Lemma plain_sentence_dec : forall b x y a, Forall (fun c => no_term c = true) (b ++ [x]) ->
  sentence_decides (b ++ [x]) (y :: a) (if stays_line x y then Join else Break).
Proof.
  intros b x y a F. pose proof (sentence_spec b x y a) as H. destruct (no_term_track _ F) as (H1 & H2 & H3 & H4 & H5 & H6).
  replace (if stays_line x y then Join else Break) with (s_dec (strack (b ++ [x])) y (low (y :: a))); [exact H|].
  unfold s_dec. destruct (strack_facts (b ++ [x])) as (HL & _). rewrite HL, last_char_snoc. unfold s_dec1, s_dec2. rewrite H1, H3, H4, H5, H6. cbn [andb orb on].
  unfold stays_line. cbn [spred SpecSentences.CR SpecSentences.LF ParaSep Sep]. unfold PA, para_sep. cbn [spred ParaSep Sep CR LF].
  destruct (sc SB_Sep x), (sc SB_CR x), (sc SB_LF x), (sc SB_LF y), (ignored y); reflexivity.
Qed.
