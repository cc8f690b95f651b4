(** Properties C01-C04, C09, C11, C12, C15-C22: theorems only, each with a concrete case. *)
From Verif Require Import Base Engine SpecUtf8 SpecIter SpecApi ApiFacts ApiInst LookupFacts TableFacts ListFacts.
From Verif Require Import Trie TableGraphemes TableWords TableSentences TablePhrases.
From Verif Require GraphemesIter WordsIter WordsEngine SentencesIter PhrasesIter GraphemesEngine SentencesEngine PhrasesEngine.
From Verif Require Graphemes Words Sentences Phrases.

(** ** C01-C04: iteration is total and lossless. *)
Definition iterates_losslessly (A : api) (it : It A) (data : bytes) : Prop :=
  exists l, spans_of A (S (length data)) it = Ok l      (* no panic; Next returned false within len(data)+1 calls *)
    /\ spans data l                                     (* positions: end to end, from 0 to len(data), Value = data[Start:End] *)
    /\ concat (texts l) = data                          (* nothing lost, added or reordered *)
    /\ Forall (fun t => t <> []) (texts l)
    /\ length l <= length data.

Theorem C01_graphemes_lossless : forall data a7 a8,
  iterates_losslessly graphemes_api (Graphemes.setAnsi (Graphemes.FromBytes data) a7 a8) data.
Proof.
  intros data a7 a8. exact (total_lossless graphemes_api_ok [CConfig (a7, a8)] data _ eq_refl).
Qed.
Theorem C02_words_lossless : forall data, iterates_losslessly words_api (Words.FromBytes data) data.
Proof. intros data. exact (total_lossless words_api_ok [] data _ eq_refl). Qed.
Theorem C02_words_lossless_joiners : forall data j,
  iterates_losslessly words_api (Words.setJoiners (Words.FromBytes data) j) data.
Proof. intros data j. exact (total_lossless words_api_ok [CConfig j] data _ eq_refl). Qed.
Theorem C03_sentences_lossless : forall data, iterates_losslessly sentences_api (Sentences.FromBytes data) data.
Proof. intros data. exact (total_lossless sentences_api_ok [] data _ eq_refl). Qed.
Theorem C04_phrases_lossless : forall data, iterates_losslessly phrases_api (Phrases.FromBytes data) data.
Proof. intros data. exact (total_lossless phrases_api_ok [] data _ eq_refl). Qed.
Print Assumptions C01_graphemes_lossless.
Print Assumptions C02_words_lossless.
Print Assumptions C02_words_lossless_joiners.
Print Assumptions C03_sentences_lossless.
Print Assumptions C04_phrases_lossless.

(** "a", a truncated 3-byte sequence, "e" + combining acute, CR LF. *)
Example C01_case : spans_of graphemes_api 20 (Graphemes.FromBytes [97; 0xE2; 0x82; 0x65; 0xCC; 0x81; 13; 10]%N)
  = Ok [([97]%N, 0, 1); ([0xE2; 0x82]%N, 1, 3); ([0x65; 0xCC; 0x81]%N, 3, 6); ([13; 10]%N, 6, 8)].
Proof. vm_compute. reflexivity. Qed.
(** "can't 3.2" *)
Example C02_case : spans_of words_api 20 (Words.FromBytes [99; 97; 110; 39; 116; 32; 51; 46; 50]%N)
  = Ok [([99; 97; 110; 39; 116]%N, 0, 5); ([32]%N, 5, 6); ([51; 46; 50]%N, 6, 9)].
Proof. vm_compute. reflexivity. Qed.
(** "A b. C d" *)
Example C03_case : spans_of sentences_api 20 (Sentences.FromBytes [65; 32; 98; 46; 32; 67; 32; 100]%N)
  = Ok [([65; 32; 98; 46; 32]%N, 0, 5); ([67; 32; 100]%N, 5, 8)].
Proof. vm_compute. reflexivity. Qed.
(** "A b. C d" *)
Example C04_case : spans_of phrases_api 20 (Phrases.FromBytes [65; 32; 98; 46; 32; 67; 32; 100]%N)
  = Ok [([65; 32; 98]%N, 0, 3); ([46]%N, 3, 4); ([32; 67; 32; 100]%N, 4, 8)].
Proof. vm_compute. reflexivity. Qed.

(** ** C09: the property lookup is total. *)
Definition lookup_total (lk : bytes -> res (N * nat)) : Prop :=
  forall b s, exists v w, lk (b :: s) = Ok (v, w) /\ w <= 4 /\ w <= length (b :: s)
    /\ (w = 0 <-> length (b :: s) < announced b).
Lemma lookup_total_of : forall values index V, tables_ok values index V = true -> lookup_total (lookup values index).
Proof.
  intros values index V H b s. destruct (lookup_spec _ _ _ H b s) as (v & w & Hl & _ & Hn & Hlen & Hz & Hs & _ & _).
  exists v, w. split; [exact Hl|].
  assert (need b <= 4) by (unfold need; repeat match goal with |- context [if ?c then _ else _] => destruct c end; lia).
  change (announced b) with (need b). repeat split; try lia; tauto.
Qed.
Theorem C09_graphemes_lookup_total : lookup_total graphemes_lookup.
Proof. exact (lookup_total_of _ _ _ g_tables_ok). Qed.
Theorem C09_words_lookup_total : lookup_total words_lookup.
Proof. exact (lookup_total_of _ _ _ w_tables_ok). Qed.
Theorem C09_sentences_lookup_total : lookup_total sentences_lookup.
Proof. exact (lookup_total_of _ _ _ s_tables_ok). Qed.
Theorem C09_phrases_lookup_total : lookup_total phrases_lookup.
Proof. exact (lookup_total_of _ _ _ p_tables_ok). Qed.
Print Assumptions C09_graphemes_lookup_total.
Print Assumptions C09_words_lookup_total.
Print Assumptions C09_sentences_lookup_total.
Print Assumptions C09_phrases_lookup_total.
Example C09_case : graphemes_lookup [0xE2; 0x82]%N = Ok (0%N, 0) /\ graphemes_lookup [0xE0; 0xA5; 0x8D]%N = Ok (0x44%N, 3).
Proof. vm_compute. auto. Qed.

(** ** C11: the bufio.SplitFunc contract. *)
Definition splitfunc_contract (f : splitfun) : Prop :=
  forall data atEOF, exists o, f data atEOF = Ok o /\ so_err o = None
    /\ ((so_advance o = 0%Z /\ so_token o = None)
        \/ ((1 <= so_advance o <= Z.of_nat (length data))%Z /\ so_token o = Some (firstn (Z.to_nat (so_advance o)) data)))
    /\ (atEOF = true -> data <> [] -> so_token o <> None).
Lemma contract_of : forall f, split_ok f -> splitfunc_contract f.
Proof.
  intros f [A B C] data atEOF. destruct data as [|c d].
  - exists e_more. rewrite A. repeat split; auto.
  - assert (Hd : c :: d <> []) by discriminate. destruct atEOF.
    + destruct (B _ Hd) as (n & Hn & Hs). eexists. split; [exact Hs|]. cbn [e_done so_err so_advance so_token].
      rewrite Nat2Z.id. repeat split; try discriminate. right. split; [lia|reflexivity].
    + destruct (C (c :: d)) as [Hs | (n & Hn & Hs & _)]; eexists; (split; [exact Hs|]);
        cbn [e_done e_more so_err so_advance so_token]; rewrite ?Nat2Z.id; repeat split; try discriminate; auto.
      right. split; [lia|reflexivity].
Qed.
Theorem C11_graphemes_contract : splitfunc_contract Graphemes.splitFunc.
Proof. exact (contract_of _ GraphemesEngine.g_split_ok). Qed.
Theorem C11_words_contract : forall j, splitfunc_contract (Words.joinersSplitFunc j).
Proof. exact (fun j => contract_of _ (WordsEngine.w_split_ok j)). Qed.
Theorem C11_sentences_contract : splitfunc_contract Sentences.splitFunc.
Proof. exact (contract_of _ SentencesEngine.s_split_ok). Qed.
Theorem C11_phrases_contract : splitfunc_contract Phrases.splitFunc.
Proof. exact (contract_of _ PhrasesEngine.p_split_ok). Qed.
Print Assumptions C11_graphemes_contract.
Print Assumptions C11_words_contract.
Print Assumptions C11_sentences_contract.
Print Assumptions C11_phrases_contract.
(** "ab" without EOF asks for more, with EOF is a token; "ab " without EOF gives "ab". *)
Example C11_case : Words.splitFunc [97; 98]%N false = Ok Words.more
  /\ Words.splitFunc [97; 98]%N true = Ok (Words.done 2 [97; 98]%N)
  /\ Words.splitFunc [97; 98; 32]%N false = Ok (Words.done 2 [97; 98]%N).
Proof. vm_compute. auto. Qed.

(** ** C12: a token emitted from a partial buffer is final. *)
Definition tokens_final (f : splitfun) : Prop :=
  forall data o, f data false = Ok o -> so_token o <> None -> forall more atEOF, f (data ++ more) atEOF = Ok o.
Lemma final_of : forall f, split_ok f -> tokens_final f.
Proof.
  intros f [A B C] data o H Ht more atEOF. destruct (C data) as [Hs | (n & Hn & Hs & Hst)].
  - rewrite H in Hs. injection Hs as ->. exfalso. apply Ht. reflexivity.
  - rewrite H in Hs. injection Hs as ->. apply Hst.
Qed.
Theorem C12_graphemes_final : tokens_final Graphemes.splitFunc.
Proof. exact (final_of _ GraphemesEngine.g_split_ok). Qed.
Theorem C12_words_final : forall j, tokens_final (Words.joinersSplitFunc j).
Proof. exact (fun j => final_of _ (WordsEngine.w_split_ok j)). Qed.
Theorem C12_sentences_final : tokens_final Sentences.splitFunc.
Proof. exact (final_of _ SentencesEngine.s_split_ok). Qed.
Theorem C12_phrases_final : tokens_final Phrases.splitFunc.
Proof. exact (final_of _ PhrasesEngine.p_split_ok). Qed.
Print Assumptions C12_graphemes_final.
Print Assumptions C12_words_final.
Print Assumptions C12_sentences_final.
Print Assumptions C12_phrases_final.
(** "3." alone is not decided; "3. " is, and stays. *)
Example C12_case : so_token (match Words.splitFunc [51; 46]%N false with Ok o => o | _ => Words.more end) = None
  /\ Words.splitFunc [51; 46; 32]%N false = Ok (Words.done 1 [51]%N)
  /\ Words.splitFunc ([51; 46; 32] ++ [57; 57])%N true = Ok (Words.done 1 [51]%N).
Proof. vm_compute. auto. Qed.

(** ** C15-C18: the ASCII hot path changes nothing.
    At every position of every text, the token of Next is the one splitFunc gives on the remaining data. *)
Theorem C15_words_hot_path : forall it, Words.it_split it = Words.splitFunc -> Words.it_pos it < length (Words.it_data it) ->
  exists it' o, Words.Next it = Ok (true, it')
    /\ Words.splitFunc (skipn (Words.it_pos it) (Words.it_data it)) true = Ok o
    /\ Words.Start it' = Words.it_pos it
    /\ so_advance o = Z.of_nat (Words.End_ it' - Words.Start it')
    /\ exists tok, Words.Value it' = Ok tok /\ so_token o = Some tok.
Proof.
  intros it Hs Hlt. destruct (WordsIter.w_next_ok_joiners (Some {| Words.Middle := []; Words.Leading := [] |}) eq_refl) as [_ B C].
  destruct (B it Hs Hlt) as (n & it' & Hn & Hsp & Hnx & Hd & Hst & Hp & Hi). exists it'. eexists. split; [exact Hnx|]. split; [exact Hsp|].
  unfold Words.Start, Words.End_, Words.Value. rewrite Hst, Hp, Hd. split; [reflexivity|]. cbn [e_done so_advance so_token].
  split; [f_equal; lia|]. eexists; split; [apply slice_ok; lia|]. do 2 f_equal. lia.
Qed.
Theorem C16_graphemes_hot_path : forall it, Graphemes.it_ansi7 it = false -> Graphemes.it_ansi8 it = false ->
  Graphemes.it_pos it < length (Graphemes.it_data it) ->
  exists it' o, Graphemes.Next it = Ok (true, it')
    /\ Graphemes.splitFunc (skipn (Graphemes.it_pos it) (Graphemes.it_data it)) true = Ok o
    /\ Graphemes.Start it' = Graphemes.it_pos it
    /\ so_advance o = Z.of_nat (Graphemes.End_ it' - Graphemes.Start it')
    /\ exists tok, Graphemes.Value it' = Ok tok /\ so_token o = Some tok.
Proof.
  intros it H7 H8 Hlt. destruct (GraphemesIter.g_next_ok false false) as [_ B C].
  destruct (B it (conj H7 H8) Hlt) as (n & it' & Hn & Hsp & Hnx & Hd & Hst & Hp & Hi). exists it'. eexists. split; [exact Hnx|]. split; [exact Hsp|].
  unfold Graphemes.Start, Graphemes.End_, Graphemes.Value. rewrite Hst, Hp, Hd. split; [reflexivity|]. cbn [e_done so_advance so_token].
  split; [f_equal; lia|]. eexists; split; [apply slice_ok; lia|]. do 2 f_equal. lia.
Qed.
Theorem C17_sentences_hot_path : forall it, Sentences.it_pos it < length (Sentences.it_data it) ->
  exists it' o, Sentences.Next it = Ok (true, it')
    /\ Sentences.splitFunc (skipn (Sentences.it_pos it) (Sentences.it_data it)) true = Ok o
    /\ Sentences.Start it' = Sentences.it_pos it
    /\ so_advance o = Z.of_nat (Sentences.End_ it' - Sentences.Start it')
    /\ exists tok, Sentences.Value it' = Ok tok /\ so_token o = Some tok.
Proof.
  intros it Hlt. destruct SentencesIter.s_next_ok as [_ B C].
  destruct (B it I Hlt) as (n & it' & Hn & Hsp & Hnx & Hd & Hst & Hp & Hi). exists it'. eexists. split; [exact Hnx|]. split; [exact Hsp|].
  unfold Sentences.Start, Sentences.End_, Sentences.Value. rewrite Hst, Hp, Hd. split; [reflexivity|]. cbn [e_done so_advance so_token].
  split; [f_equal; lia|]. eexists; split; [apply slice_ok; lia|]. do 2 f_equal. lia.
Qed.
Theorem C18_phrases_hot_path : forall it, Phrases.it_pos it < length (Phrases.it_data it) ->
  exists it' o, Phrases.Next it = Ok (true, it')
    /\ Phrases.splitFunc (skipn (Phrases.it_pos it) (Phrases.it_data it)) true = Ok o
    /\ Phrases.Start it' = Phrases.it_pos it
    /\ so_advance o = Z.of_nat (Phrases.End_ it' - Phrases.Start it')
    /\ exists tok, Phrases.Value it' = Ok tok /\ so_token o = Some tok.
Proof.
  intros it Hlt. destruct PhrasesIter.p_next_ok as [_ B C].
  destruct (B it I Hlt) as (n & it' & Hn & Hsp & Hnx & Hd & Hst & Hp & Hi). exists it'. eexists. split; [exact Hnx|]. split; [exact Hsp|].
  unfold Phrases.Start, Phrases.End_, Phrases.Value. rewrite Hst, Hp, Hd. split; [reflexivity|]. cbn [e_done so_advance so_token].
  split; [f_equal; lia|]. eexists; split; [apply slice_ok; lia|]. do 2 f_equal. lia.
Qed.
Print Assumptions C15_words_hot_path.
Print Assumptions C16_graphemes_hot_path.
Print Assumptions C17_sentences_hot_path.
Print Assumptions C18_phrases_hot_path.
(** the hot path is taken: "ab cd" at 0; and not taken: "ab.c" *)
Example C15_case : Words.it_split (Words.FromBytes [97; 98; 32; 99]%N) = Words.splitFunc
  /\ (match Words.Next (Words.FromBytes [97; 98; 32; 99]%N) with Ok (true, it') => Words.End_ it' | _ => 99 end) = 2
  /\ (match Words.Next (Words.FromBytes [97; 98; 46; 99]%N) with Ok (true, it') => Words.End_ it' | _ => 99 end) = 4.
Proof. split; [reflexivity|]. vm_compute. auto. Qed.
(** "Mr. Smith went" : skips "Mr", backs up to "r" *)
Example C17_case : (match Sentences.Next (Sentences.FromBytes [77; 114; 46; 32; 115; 116; 46; 32; 83; 104]%N) with
  Ok (true, it') => Sentences.End_ it' | _ => 99 end) = 8.
Proof. vm_compute. reflexivity. Qed.

(** ** C19: Value, Start and End are consistent after every history. *)
Definition always_consistent (A : api) : Prop := forall calls data, exists it,
  history A calls (a_new A data) = Ok it
  /\ a_start A it <= a_end A it <= length (text_after A calls data)
  /\ a_value A it = Ok (firstn (a_end A it - a_start A it) (skipn (a_start A it) (text_after A calls data))).
Theorem C19_graphemes_consistent : always_consistent graphemes_api.
Proof. exact (consistent graphemes_api_ok). Qed.
Theorem C19_words_consistent : always_consistent words_api.
Proof. exact (consistent words_api_ok). Qed.
Theorem C19_sentences_consistent : always_consistent sentences_api.
Proof. exact (consistent sentences_api_ok). Qed.
Theorem C19_phrases_consistent : always_consistent phrases_api.
Proof. exact (consistent phrases_api_ok). Qed.
Print Assumptions C19_graphemes_consistent.
Print Assumptions C19_words_consistent.
Print Assumptions C19_sentences_consistent.
Print Assumptions C19_phrases_consistent.
Definition at_end {A B} (r : res A) (f : A -> B) : option B := match r with Ok x => Some (f x) | _ => None end.
Example C19_case : at_end (history words_api [CNext; CNext; CSetText [97; 98; 32]%N; CFirst; CNext; CNext; CNext] (Words.FromBytes [120; 121]%N))
  (fun it => (Words.Start it, Words.End_ it, Words.Value it)) = Some (2, 3, Ok [32]%N).
Proof. vm_compute. reflexivity. Qed.

(** ** C20: Reset replays, SetText starts afresh. *)
Definition reset_replays (A : api) : Prop := forall calls data, exists it fresh toks,
  history A calls (a_new A data) = Ok it
  /\ history A (configs_of A calls) (a_new A (text_after A calls data)) = Ok fresh
  /\ forall fuel, length (text_after A calls data) < fuel ->
       tokens A fuel (a_reset A it) = Ok toks /\ tokens A fuel fresh = Ok toks.
Definition settext_restarts (A : api) : Prop := forall calls data x, exists it fresh toks,
  history A calls (a_new A data) = Ok it
  /\ history A (configs_of A calls) (a_new A x) = Ok fresh
  /\ forall fuel, length x < fuel -> tokens A fuel (a_settext A it x) = Ok toks /\ tokens A fuel fresh = Ok toks.
Theorem C20_graphemes_reset : reset_replays graphemes_api. Proof. exact (replay graphemes_api_ok). Qed.
Theorem C20_words_reset : reset_replays words_api. Proof. exact (replay words_api_ok). Qed.
Theorem C20_sentences_reset : reset_replays sentences_api. Proof. exact (replay sentences_api_ok). Qed.
Theorem C20_phrases_reset : reset_replays phrases_api. Proof. exact (replay phrases_api_ok). Qed.
Theorem C20_graphemes_settext : settext_restarts graphemes_api. Proof. exact (settext_fresh graphemes_api_ok). Qed.
Theorem C20_words_settext : settext_restarts words_api. Proof. exact (settext_fresh words_api_ok). Qed.
Theorem C20_sentences_settext : settext_restarts sentences_api. Proof. exact (settext_fresh sentences_api_ok). Qed.
Theorem C20_phrases_settext : settext_restarts phrases_api. Proof. exact (settext_fresh phrases_api_ok). Qed.
Print Assumptions C20_graphemes_reset.
Print Assumptions C20_words_reset.
Print Assumptions C20_sentences_reset.
Print Assumptions C20_phrases_reset.
Print Assumptions C20_graphemes_settext.
Print Assumptions C20_words_settext.
Print Assumptions C20_sentences_settext.
Print Assumptions C20_phrases_settext.
Example C20_case : tokens words_api 9 (Words.Reset (match history words_api [CNext; CConfig (Some {| Words.Middle := [45]%N; Words.Leading := [] |}); CNext]
    (Words.FromBytes [97; 45; 98; 32; 99]%N) with Ok it => it | _ => Words.FromBytes [] end)) = Ok [[97; 45; 98]; [32]; [99]]%N.
Proof. vm_compute. reflexivity. Qed.

(** ** C21: First returns the first token and disturbs nothing. *)
Definition first_is_first (A : api) : Prop := forall calls data, exists it v,
  history A calls (a_new A data) = Ok it
  /\ a_first A it = Ok (v, it)        (* the iterator afterwards is the iterator before *)
  /\ (text_after A calls data = [] -> v = [])
  /\ (text_after A calls data <> [] -> exists rest, forall fuel, length (text_after A calls data) < fuel ->
        tokens A fuel (a_reset A it) = Ok (v :: rest)).
Theorem C21_graphemes_first : first_is_first graphemes_api. Proof. exact (first_anywhere graphemes_api_ok). Qed.
Theorem C21_words_first : first_is_first words_api. Proof. exact (first_anywhere words_api_ok). Qed.
Theorem C21_sentences_first : first_is_first sentences_api. Proof. exact (first_anywhere sentences_api_ok). Qed.
Theorem C21_phrases_first : first_is_first phrases_api. Proof. exact (first_anywhere phrases_api_ok). Qed.
Print Assumptions C21_graphemes_first.
Print Assumptions C21_words_first.
Print Assumptions C21_sentences_first.
Print Assumptions C21_phrases_first.
Example C21_case : at_end (history phrases_api [CNext; CNext] (Phrases.FromBytes [97; 46; 98; 33]%N))
  (fun it => (Phrases.Start it, at_end (Phrases.First it) fst)) = Some (3, Some [97; 46; 98]%N).
Proof. vm_compute. reflexivity. Qed.

(** ** C22: exhaustion is stable. *)
Definition exhaustion_stable (A : api) : Prop := forall calls data it it',
  history A calls (a_new A data) = Ok it -> a_next A it = Ok (false, it') ->
  it' = it /\ forall k, next_times A k it = Ok it /\ a_next A it = Ok (false, it).
Theorem C22_graphemes_exhaustion : exhaustion_stable graphemes_api. Proof. exact (exhausted graphemes_api_ok). Qed.
Theorem C22_words_exhaustion : exhaustion_stable words_api. Proof. exact (exhausted words_api_ok). Qed.
Theorem C22_sentences_exhaustion : exhaustion_stable sentences_api. Proof. exact (exhausted sentences_api_ok). Qed.
Theorem C22_phrases_exhaustion : exhaustion_stable phrases_api. Proof. exact (exhausted phrases_api_ok). Qed.
Print Assumptions C22_graphemes_exhaustion.
Print Assumptions C22_words_exhaustion.
Print Assumptions C22_sentences_exhaustion.
Print Assumptions C22_phrases_exhaustion.
Example C22_case : at_end (history graphemes_api [CNext; CNext] (Graphemes.FromBytes [97; 98]%N))
  (fun it => (at_end (Graphemes.Next it) fst, Graphemes.Value it)) = Some (Some false, Ok [98]%N).
Proof. vm_compute. reflexivity. Qed.
