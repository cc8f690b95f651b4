(** C62.  The client may write to the tokens they were given: what follows is not affected.  They may not append to them. *)
From Verif Require Import Base SpecIter SpecApi ApiInst Scanner Alias SpecAlias.
From Verif Require Graphemes Words Sentences Phrases AliasInst AliasScan.

Theorem C62_graphemes : writing_is_harmless graphemes_api over_graphemes. Proof. exact AliasInst.graphemes_write. Qed.
Theorem C62_words : writing_is_harmless words_api over_words. Proof. exact AliasInst.words_write. Qed.
Theorem C62_sentences : writing_is_harmless sentences_api over_sentences. Proof. exact AliasInst.sentences_write. Qed.
Theorem C62_phrases : writing_is_harmless phrases_api over_phrases. Proof. exact AliasInst.phrases_write. Qed.
Print Assumptions C62_graphemes.
Print Assumptions C62_words.
Print Assumptions C62_sentences.
Print Assumptions C62_phrases.
Theorem C62_graphemes_in_place : transforms_in_place graphemes_api over_graphemes. Proof. exact AliasInst.graphemes_transform. Qed.
Theorem C62_words_in_place : transforms_in_place words_api over_words. Proof. exact AliasInst.words_transform. Qed.
Theorem C62_sentences_in_place : transforms_in_place sentences_api over_sentences. Proof. exact AliasInst.sentences_transform. Qed.
Theorem C62_phrases_in_place : transforms_in_place phrases_api over_phrases. Proof. exact AliasInst.phrases_transform. Qed.
Print Assumptions C62_graphemes_in_place.
Print Assumptions C62_words_in_place.
Print Assumptions C62_sentences_in_place.
Print Assumptions C62_phrases_in_place.
Theorem C62_reader : forall f, buffer_is_private f. Proof. exact AliasScan.private. Qed.
Print Assumptions C62_reader.

(** Appending to a token writes over the text that follows it, and changes the tokens to come: after "a" the client appends "b" to it, and instead of " " the iterator
    finds "bb" (the text is "a b"). *)
Theorem C62_append_refuted : exists mem w acts, fits mem w
  /\ client words_api over_words [ANext; ANext] w [] (Words.FromBytes (content mem w)) mem = Ok [Some ([97], 0%nat, 1%nat); Some ([32], 1%nat, 2%nat)]%N
  /\ acts = [ANext; AAppend 0 [98]%N; ANext]
  /\ client words_api over_words acts w [] (Words.FromBytes (content mem w)) mem = Ok [Some ([97], 0%nat, 1%nat); Some ([98; 98], 1%nat, 3%nat)]%N.
Proof.
  exists [97; 32; 98]%N, {| w_off := 0; w_len := 3; w_cap := 3 |}, [ANext; AAppend 0 [98]%N; ANext].
  split; [split; cbn; lia|]. split; [vm_compute; reflexivity|]. split; [reflexivity|vm_compute; reflexivity].
Qed.
Print Assumptions C62_append_refuted.

(** "ab, c" in the middle of a larger array; the client turns the letters of the tokens they have into spaces. *)
Example C62_case : fits [1; 97; 98; 44; 32; 99; 2; 3]%N {| w_off := 1; w_len := 5; w_cap := 6 |}
  /\ client words_api over_words [ANext; AStore 0 0 32%N; AStore 0 1 32%N; ANext; ANext; AStore 0 1 99%N; AStore 2 0 97%N; AStore 1 5 97%N; ANext; ANext]
       {| w_off := 1; w_len := 5; w_cap := 6 |} [] (Words.FromBytes [97; 98; 44; 32; 99]%N) [1; 97; 98; 44; 32; 99; 2; 3]%N
     = Ok [Some ([97; 98], 0%nat, 2%nat); Some ([44], 2%nat, 3%nat); Some ([32], 3%nat, 4%nat); Some ([99], 4%nat, 5%nat); None]%N.
Proof. split; [split; cbn; lia|vm_compute; reflexivity]. Qed.
(** Words written backwards: "ab, c" becomes "ba, c". *)
Example C62_case_in_place : transform words_api over_words 6 (@rev N) {| w_off := 1; w_len := 5; w_cap := 6 |} (Words.FromBytes [97; 98; 44; 32; 99]%N) [1; 97; 98; 44; 32; 99; 2; 3]%N
  = Ok [1; 98; 97; 44; 32; 99; 2; 3]%N.
Proof. vm_compute. reflexivity. Qed.
(** A reader that returns two bytes at a time and fills the rest of its buffer with rubbish, and a client that overwrites all tokens with "x". *)
Definition twos : reader := {| rd_St := bytes; rd_read := fun d room => match d with [] => ([], Some EOF, []) | _ => (firstn (Nat.min 2 room) d, None, skipn (Nat.min 2 room) d) end |}.
Example C62_case_reader : sc_start (FromReader Words.splitFunc) <= sc_end (FromReader Words.splitFunc) <= length (sc_buf (FromReader Words.splitFunc))
  /\ scan_all_s twos (fun _ n => repeat 97%N 10) (fun _ b => repeat 120%N 10) 12 0 (FromReader Words.splitFunc) [97; 98; 44; 32; 99]%N = Ok ([[97; 98]; [44]; [32]; [99]], None)%N.
Proof. split; [cbn; lia|vm_compute; reflexivity]. Qed.
