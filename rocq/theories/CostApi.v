(** The counting iterators seen through the API: every iteration comes to its end, with the tokens of the iterator itself. *)
From Verif Require Import Base SpecIter SpecApi ApiFacts ApiInst Engine Cost.
From Verif Require Graphemes Words Sentences Phrases CountGraphemes CountWords CountSentences CountPhrases CostGraphemes CostWords CostSentences CostPhrases.

Section CostApi.
  Context {A : api} {data : It A -> bytes} {pos start : It A -> nat} {K : Type} {kof : It A -> K -> Prop} {f : K -> splitfun} {k0 : K} {kafter : Cfg A -> K -> K}.
  Variable AO : api_ok A data pos start kof f k0 kafter.
  Lemma t_tokens : forall (next : It A -> T (bool * It A)) (P : It A -> Prop), (forall it, P it -> result (next it) = a_next A it) -> (forall it b it', P it -> a_next A it = Ok (b, it') -> P it') ->
    forall it k fuel, P it -> kof it k -> pos it = 0 -> length (data it) < fuel -> exists l, tokens A fuel it = Ok l /\ result (tcollect next (a_value A) fuel it) = Ok l.
  Proof.
    intros next P HR HP it k fuel Hi Hk Hp Hf. destruct (collect_eq AO it it k fuel fuel Hk Hk eq_refl Hp Hp Hf Hf) as (l & Hl & _). exists l. split; [exact Hl|].
    rewrite (tcollect_result _ _ next (a_next A) (a_value A) P HR HP fuel it Hi). exact Hl.
  Qed.
End CostApi.

Lemma w_split_kept : forall it b it', Words.Next it = Ok (b, it') -> Words.it_split it' = Words.it_split it.
Proof.
  intros it b it' H. unfold Words.Next in H. destruct (_ <=? _); [injection H as <- <-; reflexivity|]. cbv zeta in H. apply bind_Ok in H. destruct H as (c & _ & H).
  assert (S : forall x, Words.next_split x = Ok (b, it') -> Words.it_split it' = Words.it_split x).
  { intros x Hx. unfold Words.next_split in Hx. apply bind_Ok in Hx. destruct Hx as (d & _ & Hx). apply bind_Ok in Hx. destruct Hx as (o & _ & Hx). destruct (so_err o); [discriminate|]. destruct (_ <=? _)%Z; [discriminate|].
    cbv zeta in Hx. destruct (_ <? _); [discriminate|]. injection Hx as <- <-. reflexivity. }
  destruct (Words.isASCIIAlphanumeric c); [|exact (S _ H)]. apply bind_Ok in H. destruct H as (d & _ & H). cbv zeta in H. destruct (_ <=? _); [injection H as <- <-; reflexivity|]. apply bind_Ok in H. destruct H as (c' & _ & H).
  destruct (_ =? _)%N; [injection H as <- <-; reflexivity|exact (S _ H)].
Qed.

Lemma g_tokens : forall d a7 a8 fuel, length d < fuel -> exists l, tokens graphemes_api fuel (Graphemes.setAnsi (Graphemes.FromBytes d) a7 a8) = Ok l
  /\ result (tcollect CountGraphemes.t_Next Graphemes.Value fuel (Graphemes.setAnsi (Graphemes.FromBytes d) a7 a8)) = Ok l.
Proof. intros d a7 a8 fuel Hf. apply (t_tokens graphemes_api_ok CountGraphemes.t_Next (fun _ => True)) with (k := (a7, a8)); auto; try (repeat split; fail). intros it _. apply CostGraphemes.r_Next. Qed.
Lemma w_tokens : forall d j fuel, length d < fuel -> exists l, tokens words_api fuel (Words.setJoiners (Words.FromBytes d) j) = Ok l
  /\ result (tcollect (CountWords.t_Next (CountWords.t_joinersSplitFunc j)) Words.Value fuel (Words.setJoiners (Words.FromBytes d) j)) = Ok l.
Proof.
  intros d j fuel Hf. apply (t_tokens words_api_ok (CountWords.t_Next (CountWords.t_joinersSplitFunc j)) (fun it => Words.it_split it = Words.joinersSplitFunc j)) with (k := j); auto.
  - intros it Hi. apply CostWords.r_Next. intros x e. rewrite Hi. apply CostWords.r_split.
  - intros it b it' Hi HN. rewrite (w_split_kept _ _ _ HN). exact Hi.
Qed.
Lemma s_tokens : forall d fuel, length d < fuel -> exists l, tokens sentences_api fuel (Sentences.FromBytes d) = Ok l /\ result (tcollect CountSentences.t_Next Sentences.Value fuel (Sentences.FromBytes d)) = Ok l.
Proof. intros d fuel Hf. refine (t_tokens sentences_api_ok CountSentences.t_Next (fun _ => True) _ _ (Sentences.FromBytes d) tt fuel I I eq_refl Hf); auto. intros it _. apply CostSentences.r_Next. Qed.
Lemma p_tokens : forall d fuel, length d < fuel -> exists l, tokens phrases_api fuel (Phrases.FromBytes d) = Ok l /\ result (tcollect CountPhrases.t_Next Phrases.Value fuel (Phrases.FromBytes d)) = Ok l.
Proof. intros d fuel Hf. refine (t_tokens phrases_api_ok CountPhrases.t_Next (fun _ => True) _ _ (Phrases.FromBytes d) tt fuel I I eq_refl Hf); auto. intros it _. apply CostPhrases.r_Next. Qed.

(** ** The bounds *)
Lemma g_bound : forall d fuel, length d < fuel -> exists l, tokens graphemes_api fuel (Graphemes.FromBytes d) = Ok l /\ result (tcollect CountGraphemes.t_Next Graphemes.Value fuel (Graphemes.FromBytes d)) = Ok l
  /\ cost (tcollect CountGraphemes.t_Next Graphemes.Value fuel (Graphemes.FromBytes d)) <= 5 * length d + 1.
Proof. intros d fuel Hf. destruct (g_tokens d false false fuel Hf) as (l & H1 & H2). exists l. split; [exact H1|]. split; [exact H2|]. eapply CostGraphemes.g_linear. exact H2. Qed.
Lemma g_bound_ansi : forall a7 a8 d fuel, length d < fuel -> exists l, tokens graphemes_api fuel (Graphemes.setAnsi (Graphemes.FromBytes d) a7 a8) = Ok l /\ result (tcollect CountGraphemes.t_Next Graphemes.Value fuel (Graphemes.setAnsi (Graphemes.FromBytes d) a7 a8)) = Ok l
  /\ cost (tcollect CountGraphemes.t_Next Graphemes.Value fuel (Graphemes.setAnsi (Graphemes.FromBytes d) a7 a8)) <= (3 * length d + 4) * length d + 1.
Proof. intros a7 a8 d fuel Hf. destruct (g_tokens d a7 a8 fuel Hf) as (l & H1 & H2). exists l. split; [exact H1|]. split; [exact H2|]. eapply CostGraphemes.g_quadratic. exact H2. Qed.
Lemma w_bound : forall j d fuel, length d < fuel -> exists l, tokens words_api fuel (Words.setJoiners (Words.FromBytes d) j) = Ok l /\ result (tcollect (CountWords.t_Next (CountWords.t_joinersSplitFunc j)) Words.Value fuel (Words.setJoiners (Words.FromBytes d) j)) = Ok l
  /\ cost (tcollect (CountWords.t_Next (CountWords.t_joinersSplitFunc j)) Words.Value fuel (Words.setJoiners (Words.FromBytes d) j)) <= (14 + CostWords.nL j + CostWords.nM j) * length d + 1.
Proof. intros j d fuel Hf. destruct (w_tokens d j fuel Hf) as (l & H1 & H2). exists l. split; [exact H1|]. split; [exact H2|]. eapply CostWords.w_linear. exact H2. Qed.
Lemma s_bound : forall d fuel, length d < fuel -> exists l, tokens sentences_api fuel (Sentences.FromBytes d) = Ok l /\ result (tcollect CountSentences.t_Next Sentences.Value fuel (Sentences.FromBytes d)) = Ok l
  /\ cost (tcollect CountSentences.t_Next Sentences.Value fuel (Sentences.FromBytes d)) <= (2 * length d + 8) * length d + 1.
Proof. intros d fuel Hf. destruct (s_tokens d fuel Hf) as (l & H1 & H2). exists l. split; [exact H1|]. split; [exact H2|]. eapply CostSentences.s_quadratic. exact H2. Qed.
Lemma p_bound : forall d fuel, length d < fuel -> exists l, tokens phrases_api fuel (Phrases.FromBytes d) = Ok l /\ result (tcollect CountPhrases.t_Next Phrases.Value fuel (Phrases.FromBytes d)) = Ok l
  /\ cost (tcollect CountPhrases.t_Next Phrases.Value fuel (Phrases.FromBytes d)) <= 12 * length d + 1.
Proof. intros d fuel Hf. destruct (p_tokens d fuel Hf) as (l & H1 & H2). exists l. split; [exact H1|]. split; [exact H2|]. eapply CostPhrases.p_linear. exact H2. Qed.

(** ** The texts that need more *)
Lemma s_more : forall c, exists d, forall fuel, length d < fuel -> c * length d < cost (tcollect CountSentences.t_Next Sentences.Value fuel (Sentences.FromBytes d)).
Proof.
  intros c. exists (CostSentences.stop_parens (2 * c + 3)). intros fuel Hf. destruct (s_tokens _ fuel Hf) as (l & _ & H). apply CostSentences.parens_cost in H. unfold CostSentences.stop_parens at 1. cbn [length]. rewrite repeat_length. nia.
Qed.
Lemma g_more : forall c, exists d, forall fuel, length d < fuel -> c * length d < cost (tcollect CountGraphemes.t_Next Graphemes.Value fuel (Graphemes.setAnsi (Graphemes.FromBytes d) true false)).
Proof.
  intros c. exists (CostGraphemes.oscs (2 * c + 1)). intros fuel Hf. destruct (g_tokens _ true false fuel Hf) as (l & _ & H). pose proof H as H'. apply (CostGraphemes.oscs_cost (2 * c + 1)) in H; [|reflexivity|cbn; lia|reflexivity]. rewrite CostGraphemes.oscs_length. nia.
Qed.
