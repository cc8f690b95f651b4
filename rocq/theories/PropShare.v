(** C61.  Iterators do not disturb each other: clients who take turns in any order each see what they would see alone. *)
From Coq Require Import String.
From Verif Require Import SpecIter SpecApi ApiInst.
From Verif Require Import Base GoSyntax GoSem SpecCode SpecCode2 SpecShare.
From Verif Require ProgGraphemes ProgSentences ProgPhrases ProgWords ProgOther Words ShareAll.
Local Open Scope string_scope.
Local Open Scope list_scope.

Theorem C61_undisturbed : exists g w s p i, ProgGraphemes.graphemes_code = Some g /\ ProgWords.words_code = Some w /\ ProgSentences.sentences_code = Some s
  /\ ProgPhrases.phrases_code = Some p /\ ProgOther.iterators_code = Some i /\ undisturbed g w s p i 7.
Proof.
  exact (ex_intro _ _ (ex_intro _ _ (ex_intro _ _ (ex_intro _ _ (ex_intro _ _ (conj ProgGraphemes.graphemes_link (conj ProgWords.words_link (conj ProgSentences.sentences_link
    (conj ProgPhrases.phrases_link (conj ProgOther.iterators_link ShareAll.all_undisturbed)))))))))).
Qed.
Print Assumptions C61_undisturbed.
(** With the split functions of the packages every schedule comes to its end. *)
Theorem C61_ends : exists g w s p i, ProgGraphemes.graphemes_code = Some g /\ ProgWords.words_code = Some w /\ ProgSentences.sentences_code = Some s
  /\ ProgPhrases.phrases_code = Some p /\ ProgOther.iterators_code = Some i
  /\ forall nils rounds depth max cs sched h, Forall (proper_client max) cs -> Forall settled cs -> (Z.of_nat max < 2 ^ 62)%Z -> (2 * max + 2 <= rounds)%nat -> (7 <= depth)%nat ->
     exists ss h', interleave g w s p i nils rounds depth cs sched (map (fun _ => nothing) cs) h = Done (ss, h').
Proof.
  exact (ex_intro _ _ (ex_intro _ _ (ex_intro _ _ (ex_intro _ _ (ex_intro _ _ (conj ProgGraphemes.graphemes_link (conj ProgWords.words_link (conj ProgSentences.sentences_link
    (conj ProgPhrases.phrases_link (conj ProgOther.iterators_link ShareAll.settled_ends)))))))))).
Qed.
Print Assumptions C61_ends.

(** Two clients of words, the first of whom sets joiners between the other's calls, one of graphemes and one of internal/iterators: "a-b" is three words for one and one for the other. *)
Definition by_two : splitfun := fun d _ => Ok {| so_advance := Z.min 2 (Z.of_nat (length d)); so_token := None; so_err := None |}.
Definition clients61 : list client :=
  [CWords (Str, [97; 45; 98]%N) [UConfig (inl (Some {| Words.Middle := [45]%N; Words.Leading := [] |})); UNext; UValue];
   CWords (Bytes, [97; 45; 98]%N) [UNext; UValue; UNext; UValue];
   CGraphemes (Str, [101; 204; 129]%N) [UNext; UValue];
   CIterators by_two (Bytes, [1; 2; 3]%N) [UNext; UValue; UNext; UValue]].
Definition sched61 : list nat := [1; 0; 1; 0; 3; 1; 2; 0; 1; 3; 9; 3; 2; 1; 2; 3; 0; 3; 2; 1]%nat.
Lemma by_two_ints : SpecIterators.returns_ints by_two.
Proof. intros d e o H. injection H as <-. cbn [so_advance]. lia. Qed.
Example C61_case : Forall (proper_client 3) clients61
  /\ match interleave ProgGraphemes.pg ProgWords.pw ProgSentences.ps ProgPhrases.pp ProgOther.pi_ false 8 7 clients61 sched61 (map (fun _ => nothing) clients61) [("mine", [])] with
     | Done (ss, h) => map pr_seen ss = [[[]; [VBool true]; [VData Str [97; 45; 98]%N]];
         [[VBool true]; [VData Bytes [97]%N]; [VBool true]; [VData Bytes [45]%N]];
         [[VBool true]; [VData Str [101; 204; 129]%N]];
         [[VBool true]; [VData Bytes [1; 2]%N]; [VBool true]; [VData Bytes [3]%N]]] /\ hget 0 h = Some ("mine", [])
     | _ => False
     end.
Proof.
  split; [|vm_compute; split; reflexivity].
  apply Forall_cons. { exists true. split; [repeat split; cbn; auto; discriminate|]. repeat constructor. }
  apply Forall_cons. { exists false. split; [repeat split; cbn; auto; discriminate|]. repeat constructor. }
  apply Forall_cons. { exists true. split; [repeat split; cbn; auto; discriminate|]. repeat constructor. }
  apply Forall_cons. { exists false. split; [exact by_two_ints|]. split; [repeat split; cbn; auto; discriminate|]. repeat constructor. }
  constructor.
Qed.
