(** C77: how much work it is to read through a Scanner. *)
From Verif Require Import Base ListFacts Cost Engine SpecIter SpecApi Drive ApiFacts ApiInst ConformApi Scanner SpecReader ScannerFacts ReaderFacts WordsReader SpecJoiners JoinersFacts PropReader Prompt PromptWords PromptSentences SpecLong LongFacts PropLong SpecBuffer BufferFacts PropBuffer CountScanner SpecWork WorkFacts WorkIter.
From Verif Require WordsConform Graphemes Words Sentences Phrases GraphemesEngine WordsEngine SentencesEngine PhrasesEngine CountGraphemes CountWords CountSentences CountPhrases CostGraphemes CostWords CostSentences CostPhrases WorkGraphemes WorkWords WorkSentences WorkPhrases.
Local Open Scope nat_scope.

(** The loop that counts is the loop: for every split function, prices and reader. *)
Theorem C77_counts : forall ts f, (forall d e, result (ts d e) = f d e) -> counts ts f. Proof. exact counts_ok. Qed.
Theorem C77_counts_all : counts CountGraphemes.t_splitFunc Graphemes.splitFunc /\ (forall j, counts (CountWords.t_joinersSplitFunc j) (Words.joinersSplitFunc j))
  /\ counts CountSentences.t_splitFunc Sentences.splitFunc /\ counts CountPhrases.t_splitFunc Phrases.splitFunc.
Proof. repeat split; intros; apply counts_ok; [exact CostGraphemes.r_split|apply CostWords.r_split|exact CostSentences.r_split|exact CostPhrases.r_split]. Qed.

Lemma advance_of : forall n tok, so_advance (e_done n tok) = Z.of_nat n. Proof. reflexivity. Qed.
Theorem C77_graphemes : reads_within (fun _ => 3) (fun w => 7 * (w + 4)) 1 (iterating graphemes_api) CountGraphemes.t_splitFunc Graphemes.splitFunc.
Proof.
  apply (reads_within_ok _ GraphemesEngine.g_split_ok _ g_prompt _ CostGraphemes.r_split (fun _ d => 3 * length d) (fun _ => 3) (fun _ => 2)); [intros; lia| | |exact g_agree].
  - intros w d x e n Hd Hn Hf _ _. rewrite skipn_length. destruct (WorkGraphemes.c_split d e _ Hd (eq_trans (CostGraphemes.r_split _ _) Hf)) as (H & _). specialize (H n (proj1 Hn) (advance_of _ _)). lia.
  - intros w d e Hf _. destruct d as [|b d]; [reflexivity|]. destruct (WorkGraphemes.c_split (b :: d) e _ ltac:(discriminate) (eq_trans (CostGraphemes.r_split _ _) Hf)) as (_ & H). cbn [length] in *. lia.
Qed.
Lemma joiners_work : forall j iterate, let J := CostWords.nL j + CostWords.nM j in
  (forall d fuel l, length d < fuel -> chop (Words.joinersSplitFunc j) (S (length d)) d = Ok l -> iterate fuel d = Ok l) ->
  reads_within (fun _ => 11 + J) (fun w => (23 + 2 * J) * (w + 4)) 2 iterate (CountWords.t_joinersSplitFunc j) (Words.joinersSplitFunc j).
Proof.
  intros j iterate J HG rd r d e s l w fuel fuel' out HD HS Hf HI HM HA.
  pose proof (reads_within_ok _ (WordsEngine.w_split_ok j) _ (w_prompt j) _ (CostWords.r_split j) (fun _ => WorkWords.potential j) (fun _ => 11 + J) (fun _ => 10 + J)) as RW. cbv beta in RW.
  assert (R : reads_within (fun _ => 11 + J) (fun w => (10 + J + (11 + J) + 2) * (w + 4)) 2 iterate (CountWords.t_joinersSplitFunc j) (Words.joinersSplitFunc j)).
  { apply RW; [| | |exact HG].
    - intros _ x. pose proof (WorkWords.potential_bound j x). unfold J. lia.
    - intros _ x y e0 n Hd Hn Hfx _ _. destruct (WorkWords.c_split j x e0 _ Hd (eq_trans (CostWords.r_split _ _ _) Hfx)) as (H & _). exact (H n (proj1 Hn) (advance_of _ _) (proj2 Hn)).
    - intros _ x e0 Hfx _. destruct x as [|b x]; [apply Nat.le_0_l|]. destruct (WorkWords.c_split j (b :: x) e0 _ ltac:(discriminate) (eq_trans (CostWords.r_split _ _ _) Hfx)) as (_ & H). unfold J. lia. }
  specialize (R rd r d e s l w fuel fuel' out HD HS Hf HI HM HA). cbv beta in R. replace (23 + 2 * J) with (10 + J + (11 + J) + 2) by lia. exact R.
Qed.
(** words: the number of joiners is part of the constants *)
Theorem C77_joiners : forall middle leading, ~ In 0x20%N middle -> let j := Some {| Words.Middle := middle; Words.Leading := leading |} in let J := length leading + length middle in
  reads_within (fun _ => 11 + J) (fun w => (23 + 2 * J) * (w + 4)) 2 (fun fuel d => tokens words_api fuel (Words.setJoiners (Words.FromBytes d) j)) (CountWords.t_joinersSplitFunc j) (Words.joinersSplitFunc j).
Proof. intros middle leading Hj j J. exact (joiners_work j _ (joiners_agree j Hj)). Qed.
Theorem C77_words : reads_within (fun _ => 11) (fun w => 23 * (w + 4)) 2 (iterating words_api) (CountWords.t_joinersSplitFunc (Some {| Words.Middle := []; Words.Leading := [] |})) Words.splitFunc.
Proof. exact (joiners_work WordsConform.J0 _ w_agree). Qed.
Theorem C77_phrases : reads_within (fun _ => 9) (fun w => 19 * (w + 4)) 2 (iterating phrases_api) CountPhrases.t_splitFunc Phrases.splitFunc.
Proof.
  apply (reads_within_ok _ PhrasesEngine.p_split_ok _ p_prompt _ CostPhrases.r_split (fun _ => WorkPhrases.potential) (fun _ => 9) (fun _ => 8)); [intros _; exact WorkPhrases.potential_bound| | |exact p_agree].
  - intros w d x e n Hd Hn Hf _ _. destruct (WorkPhrases.c_split d e _ Hd (eq_trans (CostPhrases.r_split _ _) Hf)) as (H & _). exact (H n (proj1 Hn) (advance_of _ _) (proj2 Hn)).
  - intros w d e Hf _. destruct d as [|b d]; [reflexivity|]. destruct (WorkPhrases.c_split (b :: d) e _ ltac:(discriminate) (eq_trans (CostPhrases.r_split _ _) Hf)) as (_ & H). exact H.
Qed.
(** Sentences: the look-ahead of rule SB8 is repeated, but it stays within the next sentence. *)
Theorem C77_sentences : reads_within (fun w => 2 * w + 14) (fun w => (4 * w + 27) * (w + 4)) 2 (iterating sentences_api) CountSentences.t_splitFunc Sentences.splitFunc.
Proof.
  intros rd r d e s l w fuel fuel' out HD HS Hf HI HM HA.
  pose proof (reads_within_ok _ SentencesEngine.s_split_ok _ s_prompt _ CostSentences.r_split (fun w d => (2 * w + 14) * length d) (fun w => 2 * w + 14) (fun w => 2 * w + 11)) as RW. cbv beta in RW.
  assert (R : reads_within (fun w => 2 * w + 14) (fun w => (2 * w + 11 + (2 * w + 14) + 2) * (w + 4)) 2 (iterating sentences_api) CountSentences.t_splitFunc Sentences.splitFunc).
  { apply RW; [intros; lia| | |exact s_agree].
    - intros w0 x y e0 n Hd Hn Hfx He Hsl. rewrite skipn_length. replace (length x) with ((length x - n) + n) at 2 by lia. rewrite Nat.mul_add_distr_l.
      assert (HC : cost (CountSentences.t_splitFunc x e0) <= 2 * n * (w0 + 6) + 1).
      { destruct Hsl as [Hsl|(l0 & HT & HM0)].
        - rewrite app_length in Hsl. destruct (WorkSentences.c_split x e0 _ Hd (eq_trans (CostSentences.r_split _ _) Hfx)) as (H & _). specialize (H n (proj1 Hn) (advance_of _ _)). nia.
        - pose proof (WorkSentences.c_near x y e0 n _ l0 Hd Hfx (proj1 Hn) He HT) as H. pose proof (span_head 2 (N.of_nat w0) 0%N l0 HM0) as HH. nia. }
      nia.
    - intros w0 x e0 Hfx Hw. destruct x as [|b x]; [cbn; lia|]. destruct (WorkSentences.c_split (b :: x) e0 _ ltac:(discriminate) (eq_trans (CostSentences.r_split _ _) Hfx)) as (_ & H). set (L := length (b :: x)) in *.
      assert (1 <= L) by (unfold L; cbn; lia). nia. }
  specialize (R rd r d e s l w fuel fuel' out HD HS Hf HI HM HA). cbv beta in R. replace (4 * w + 27) with (2 * w + 11 + (2 * w + 14) + 2) by lia. exact R.
Qed.
(** The same of the iterator over sentences, for which C49 has no bound that is linear in the text alone: it is linear for texts whose sentences are of bounded length. *)
Theorem C77_iterating : forall w d fuel l, length d < fuel -> tokens sentences_api fuel (Sentences.FromBytes d) = Ok l -> spans_at_most 2 (N.of_nat w) l ->
  cost (tcollect CountSentences.t_Next Sentences.Value fuel (Sentences.FromBytes d)) <= (2 * w + 16) * length d + 1.
Proof. exact s_near. Qed.
Print Assumptions C77_counts.
Print Assumptions C77_counts_all.
Print Assumptions C77_graphemes.
Print Assumptions C77_words.
Print Assumptions C77_joiners.
Print Assumptions C77_phrases.
Print Assumptions C77_sentences.
Print Assumptions C77_iterating.

(** The forty bytes of C63 in three reads, with an empty buffer to begin with. *)
Example C77_case : exists s l out, fresh_scanner Words.splitFunc s /\ delivers (chunk_reader EOF) reads63 cats EOF /\ iterating words_api 100 cats = Ok l /\ spans_at_most 2 (N.of_nat 4) l
  /\ scan_all (chunk_reader EOF) 100 s reads63 = Ok out /\ scan_reads (CountWords.t_joinersSplitFunc WordsConform.J0) (chunk_reader EOF) 100 s reads63 = 4
  /\ scan_steps (CountWords.t_joinersSplitFunc WordsConform.J0) (chunk_reader EOF) 100 s reads63 = 155 /\ 11 * length cats + 23 * (4 + 4) * (4 + 1) = 1360.
Proof.
  exists (Scanner.FromReader Words.splitFunc), (concat (repeat [[99; 97; 116]; [32]; [100; 111; 103]; [32]]%N 5)), (concat (repeat [[99; 97; 116]; [32]; [100; 111; 103]; [32]]%N 5), None).
  split; [constructor|]. split; [apply (chunk_delivers EOF reads63)|]. split; [vm_compute; reflexivity|]. split; [apply at_most_spans; vm_compute; reflexivity|]. split; [vm_compute; reflexivity|]. split; [vm_compute; reflexivity|]. split; vm_compute; reflexivity.
Qed.
(** "Hi. (Yo). " twenty times *)
Definition hi : bytes := concat (repeat [72; 105; 46; 32; 40; 89; 111; 41; 46; 32]%N 20).
Example C77_case_iterating : exists l, tokens sentences_api 300 (Sentences.FromBytes hi) = Ok l /\ length l = 40 /\ spans_at_most 2 (N.of_nat 10) l
  /\ cost (tcollect CountSentences.t_Next Sentences.Value 300 (Sentences.FromBytes hi)) = 576.
Proof.
  exists (concat (repeat [[72; 105; 46; 32]; [40; 89; 111; 41; 46; 32]]%N 20)). split; [vm_compute; reflexivity|]. split; [reflexivity|]. split; [apply at_most_spans; vm_compute; reflexivity|]. vm_compute; reflexivity.
Qed.
