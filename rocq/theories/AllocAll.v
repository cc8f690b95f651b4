(** What iterating leaves in memory, for all packages. *)
From Coq Require Import String.
From Verif Require Import SpecIter SpecApi ApiInst.
From Verif Require Import Base GoSyntax GoSem SpecCode SpecCode2 SpecShare SpecAlloc AllocFacts.
From Verif Require ProgGraphemes ProgSentences ProgPhrases ProgWords ProgOther AllocG AllocS AllocP AllocI AllocW.
Local Open Scope string_scope.
Local Open Scope list_scope.

Lemma all_no_allocations : no_allocations ProgGraphemes.pg ProgWords.pw ProgSentences.ps ProgPhrases.pp ProgOther.pi_ 7.
Proof.
  intros nils rounds depth max c h (str & P) SP M R K. exists (ptr (length h)).
  assert (D : (1 <= depth /\ 5 <= depth /\ 6 <= depth)%nat) by lia. destruct D as (D1 & D5 & D6). destruct c.
  - destruct (AllocG.graphemes_alloc rounds depth max str ProgGraphemes.pg ProgWords.pw ProgSentences.ps ProgPhrases.pp ProgOther.pi_ nils t us h M R D5 (proj1 P) (proj2 P) eq_refl) as (h1 & E & L & Q).
    exists h1. split; [exact E|]. split; [exact L|]. intros k vss h2 RUN. now apply (Q k vss h2 RUN).
  - discriminate.
  - destruct (AllocS.sentences_alloc rounds depth max str ProgGraphemes.pg ProgWords.pw ProgSentences.ps ProgPhrases.pp ProgOther.pi_ nils t us h M R D6 (proj1 P) (proj2 P) eq_refl) as (h1 & E & L & Q).
    exists h1. split; [exact E|]. split; [exact L|]. intros k vss h2 RUN. now apply (Q k vss h2 RUN).
  - destruct (AllocP.phrases_alloc rounds depth max str ProgGraphemes.pg ProgWords.pw ProgSentences.ps ProgPhrases.pp ProgOther.pi_ nils t us h M R D6 (proj1 P) (proj2 P) eq_refl) as (h1 & E & L & Q).
    exists h1. split; [exact E|]. split; [exact L|]. intros k vss h2 RUN. now apply (Q k vss h2 RUN).
  - destruct (AllocI.iterators_alloc rounds depth max str ProgGraphemes.pg ProgWords.pw ProgSentences.ps ProgPhrases.pp ProgOther.pi_ nils f t us h M D1 (proj1 P) (proj1 (proj2 P)) (proj2 (proj2 P)) eq_refl) as (h1 & E & L & Q).
    exists h1. split; [exact E|]. split; [exact L|]. intros k vss h2 RUN. now apply (Q k vss h2 RUN).
Qed.
Lemma all_constant_memory : constant_memory ProgGraphemes.pg ProgWords.pw ProgSentences.ps ProgPhrases.pp ProgOther.pi_ 7.
Proof.
  intros nils rounds depth max c h (str & P) M R K. exists (ptr (length h)).
  assert (D : (1 <= depth /\ 5 <= depth /\ 6 <= depth)%nat) by lia. destruct D as (D1 & D5 & D6). destruct c; cbn [most_live].
  - destruct (AllocG.graphemes_alloc rounds depth max str ProgGraphemes.pg ProgWords.pw ProgSentences.ps ProgPhrases.pp ProgOther.pi_ nils t us h M R D5 (proj1 P) (proj2 P) eq_refl) as (h1 & E & _ & Q).
    exists h1. split; [exact E|]. intros k vss h2 RUN. destruct (Q k vss h2 RUN) as (A & B & _). split; [exists [length h]; split; [cbn; lia|exact A]|exact B].
  - destruct (AllocW.words_alloc rounds depth max str ProgGraphemes.pg ProgWords.pw ProgSentences.ps ProgPhrases.pp ProgOther.pi_ nils t us h M R K (proj1 P) (proj2 P) eq_refl) as (h1 & E & Q).
    exists h1. split; [exact E|]. exact Q.
  - destruct (AllocS.sentences_alloc rounds depth max str ProgGraphemes.pg ProgWords.pw ProgSentences.ps ProgPhrases.pp ProgOther.pi_ nils t us h M R D6 (proj1 P) (proj2 P) eq_refl) as (h1 & E & _ & Q).
    exists h1. split; [exact E|]. intros k vss h2 RUN. destruct (Q k vss h2 RUN) as (A & B & _). split; [exists [length h]; split; [cbn; lia|exact A]|exact B].
  - destruct (AllocP.phrases_alloc rounds depth max str ProgGraphemes.pg ProgWords.pw ProgSentences.ps ProgPhrases.pp ProgOther.pi_ nils t us h M R D6 (proj1 P) (proj2 P) eq_refl) as (h1 & E & _ & Q).
    exists h1. split; [exact E|]. intros k vss h2 RUN. destruct (Q k vss h2 RUN) as (A & B & _). split; [exists [length h]; split; [cbn; lia|exact A]|exact B].
  - destruct (AllocI.iterators_alloc rounds depth max str ProgGraphemes.pg ProgWords.pw ProgSentences.ps ProgPhrases.pp ProgOther.pi_ nils f t us h M D1 (proj1 P) (proj1 (proj2 P)) (proj2 (proj2 P)) eq_refl) as (h1 & E & _ & Q).
    exists h1. split; [exact E|]. intros k vss h2 RUN. destruct (Q k vss h2 RUN) as (A & B & _). split; [exists [length h]; split; [cbn; lia|exact A]|exact B].
Qed.
