(** The official Unicode 17 test strings, run on the models.  Tests, not proofs: they check that the transcriptions
    (of the code, and - through the theorems C05-C07, which say that code and rules agree - of the rules) are right. *)
From Verif Require Import Base SpecApi ApiInst TestsGraphemes TestsWords TestsSentences.

Definition bytes_eqb (a b : bytes) : bool := if list_eq_dec N.eq_dec a b then true else false.
Fixpoint all_eqb (a b : list bytes) : bool :=
  match a, b with
  | [], [] => true
  | x :: a', y :: b' => bytes_eqb x y && all_eqb a' b'
  | _, _ => false
  end.
Definition run_test (A : api) (expected : list bytes) : bool :=
  match tokens A (S (length (concat expected))) (a_new A (concat expected)) with
  | Ok l => all_eqb l expected
  | _ => false
  end.

Example graphemes_official : length tests_graphemes = 766 /\ forallb (run_test graphemes_api) tests_graphemes = true.
Proof. vm_compute. auto. Qed.
Example words_official : length tests_words = 1944 /\ forallb (run_test words_api) tests_words = true.
Proof. vm_compute. auto. Qed.
Example sentences_official : length tests_sentences = 512 /\ forallb (run_test sentences_api) tests_sentences = true.
Proof. vm_compute. auto. Qed.
