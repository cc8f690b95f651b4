(** C72.  Iterating allocates nothing and keeps nothing but the iterator alive. *)
From Coq Require Import String.
From Verif Require Import SpecIter SpecApi ApiInst.
From Verif Require Import Base GoSyntax GoSem SpecCode SpecCode2 SpecShare SpecAlloc.
From Verif Require ProgGraphemes ProgSentences ProgPhrases ProgWords ProgOther Words AllocFacts AllocAll.
Local Open Scope string_scope.
Local Open Scope list_scope.

(** Package graphemes, sentences and phrases, and internal/iterators: "no allocations". *)
Theorem C72_no_allocations : exists g w s p i, ProgGraphemes.graphemes_code = Some g /\ ProgWords.words_code = Some w /\ ProgSentences.sentences_code = Some s
  /\ ProgPhrases.phrases_code = Some p /\ ProgOther.iterators_code = Some i /\ no_allocations g w s p i 7.
Proof.
  exact (ex_intro _ _ (ex_intro _ _ (ex_intro _ _ (ex_intro _ _ (ex_intro _ _ (conj ProgGraphemes.graphemes_link (conj ProgWords.words_link (conj ProgSentences.sentences_link
    (conj ProgPhrases.phrases_link (conj ProgOther.iterators_link AllocAll.all_no_allocations)))))))))).
Qed.
Print Assumptions C72_no_allocations.
(** All packages: "constant memory". *)
Theorem C72_constant_memory : exists g w s p i, ProgGraphemes.graphemes_code = Some g /\ ProgWords.words_code = Some w /\ ProgSentences.sentences_code = Some s
  /\ ProgPhrases.phrases_code = Some p /\ ProgOther.iterators_code = Some i /\ constant_memory g w s p i 7.
Proof.
  exact (ex_intro _ _ (ex_intro _ _ (ex_intro _ _ (ex_intro _ _ (ex_intro _ _ (conj ProgGraphemes.graphemes_link (conj ProgWords.words_link (conj ProgSentences.sentences_link
    (conj ProgPhrases.phrases_link (conj ProgOther.iterators_link AllocAll.all_constant_memory)))))))))).
Qed.
Print Assumptions C72_constant_memory.
(** No text is copied: no function converts between string and []byte, but decodeRune of words, whose [string(data)] is for types other than string and []byte themselves:
    an iterator made by FromString or FromBytes never gets there. *)
Theorem C72_no_conversions : exists g w s p i, ProgGraphemes.graphemes_code = Some g /\ ProgWords.words_code = Some w /\ ProgSentences.sentences_code = Some s
  /\ ProgPhrases.phrases_code = Some p /\ ProgOther.iterators_code = Some i
  /\ converting g = [] /\ converting s = [] /\ converting p = [] /\ converting i = [] /\ converting w = [("", "decodeRune")].
Proof.
  exact (ex_intro _ _ (ex_intro _ _ (ex_intro _ _ (ex_intro _ _ (ex_intro _ _ (conj ProgGraphemes.graphemes_link (conj ProgWords.words_link (conj ProgSentences.sentences_link
    (conj ProgPhrases.phrases_link (conj ProgOther.iterators_link (conj eq_refl (conj eq_refl (conj eq_refl (conj eq_refl eq_refl)))))))))))))).
Qed.
Print Assumptions C72_no_conversions.

(** Both kinds of calls do happen: three graphemes of "éab", read, reset and read again. *)
Definition client72 : client := CGraphemes (Str, [101; 204; 129; 97; 98]%N) [UNext; UValue; UConfig (true, false); UNext; UEnd; UReset; USetText (Str, [97; 98]%N); UNext; UNext; UValue; UNext].
Example C72_case : proper_client 5 client72 /\ spare client72 = true
  /\ match start ProgGraphemes.pg ProgWords.pw ProgSentences.ps ProgPhrases.pp ProgOther.pi_ 12 7 client72 [("mine", [])] with
     | Done ([it], h1) => match in_turn (calls ProgGraphemes.pg ProgWords.pw ProgSentences.ps ProgPhrases.pp ProgOther.pi_ false 12 7 client72) it h1 with
                          | Done (vss, h2) => length vss = 11 /\ length h1 = 2 /\ length h2 = 2 /\ nth 9 vss [] = [VData Str [98]%N]
                          | _ => False
                          end
     | _ => False
     end%nat.
Proof.
  split; [|split; [reflexivity|vm_compute; repeat split]].
  exists true. split; [repeat split; cbn; auto; discriminate|]. repeat constructor; cbn; auto; discriminate.
Qed.
(** A client of words: their calls leave structs behind, of which only the iterator and the joiners can be found. *)
Definition client72w : client := CWords (Bytes, [97; 45; 98; 32; 99; 46]%N)
  [UNext; UConfig (inl (Some {| Words.Middle := [45]%N; Words.Leading := [] |})); UReset; UNext; UValue; UFirst; UConfig (inl (Some {| Words.Middle := [46]%N; Words.Leading := [] |})); UNext].
Example C72_words_case : proper_client 6 client72w
  /\ match start ProgGraphemes.pg ProgWords.pw ProgSentences.ps ProgPhrases.pp ProgOther.pi_ 14 7 client72w [] with
     | Done ([it], h1) => match in_turn (calls ProgGraphemes.pg ProgWords.pw ProgSentences.ps ProgPhrases.pp ProgOther.pi_ false 14 7 client72w) it h1 with
                          | Done (vss, h2) => nth 4 vss [] = [VData Bytes [97; 45; 98]%N] /\ map fst h2 = ["Iterator"; "Joiners"; "Joiners"; "Iterator"; "Joiners"] /\ live h2 it 0 /\ live h2 it 4 /\ it = VPtr "Iterator" (Some 0)
                          | _ => False
                          end
     | _ => False
     end%nat.
Proof.
  split.
  - exists false. split; [repeat split; cbn; auto; discriminate|]. repeat constructor; cbn; auto; discriminate.
  - vm_compute. repeat split.
    + apply live_here. reflexivity.
    + apply (live_field _ _ 0%nat) with (1 := live_here _ (VPtr "Iterator" (Some 0%nat)) 0%nat eq_refl) (2 := eq_refl) (3 := or_introl eq_refl). reflexivity.
Qed.
(** Where something is kept, the claim fails: a struct found from the last result. *)
Example C72_kept : ~ (forall l, ~ live [("Token", [])] (VPtr "Token" (Some 0%nat)) l).
Proof. intros H. apply (H 0%nat). now apply live_here. Qed.
