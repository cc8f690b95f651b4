(** C59: internal/gen reads the official test files as they are meant, and the tests it makes pass exactly if the marks in the file are the boundaries of UAX #29.
    C60: the source that it writes lists these tests. *)
From Coq Require Import String.
From Verif Require Import Base SpecUtf8 SpecData SpecRules SpecGraphemes SpecWords SpecSentences SpecIter SpecApi ApiInst SpecDataFile SpecTestFile.
From Verif Require Import GenTests GenTestsFacts GenTestsWrite PropConform.
From Verif Require Graphemes Words Sentences.
Local Open Scope list_scope.

(** ** C59 *)
Theorem C59_generate : forall trim f ts, test_file 4 f ts ->
  generateTests trim f = Ok (Some (map (fun t => {| t_input := encode (concat (fst t)); t_expected := map encode (fst t); t_comment := trim (snd t) |}) ts)).
Proof. exact generate_ok. Qed.
Print Assumptions C59_generate.

(** The tests pass, for the iterators of this repository, exactly if the file agrees with UAX #29. *)
Theorem C59_graphemes : forall trim f ts tests fuel, test_file 4 f ts -> generateTests trim f = Ok (Some tests) -> (forall t, In t tests -> length (t_input t) < fuel) ->
  ((forall t, In t tests -> tokens graphemes_api fuel (Graphemes.FromBytes (t_input t)) = Ok (t_expected t)) <-> (forall segs c, In (segs, c) ts -> segmentation grapheme_decides (concat segs) segs)).
Proof. exact (pass_iff (segmentation grapheme_decides) (fun fuel d => tokens graphemes_api fuel (Graphemes.FromBytes d)) C05_graphemes_are_uax29 (fun _ _ S => proj1 S)). Qed.
Print Assumptions C59_graphemes.
Theorem C59_words : forall trim f ts tests fuel, test_file 4 f ts -> generateTests trim f = Ok (Some tests) -> (forall t, In t tests -> length (t_input t) < fuel) ->
  ((forall t, In t tests -> tokens words_api fuel (Words.FromBytes (t_input t)) = Ok (t_expected t)) <-> (forall segs c, In (segs, c) ts -> segmentation word_decides (concat segs) segs)).
Proof. exact (pass_iff (segmentation word_decides) (fun fuel d => tokens words_api fuel (Words.FromBytes d)) C06_words_are_uax29 (fun _ _ S => proj1 S)). Qed.
Print Assumptions C59_words.
Theorem C59_sentences : forall trim f ts tests fuel, test_file 4 f ts -> generateTests trim f = Ok (Some tests) -> (forall t, In t tests -> length (t_input t) < fuel) ->
  ((forall t, In t tests -> tokens sentences_api fuel (Sentences.FromBytes (t_input t)) = Ok (t_expected t)) <-> (forall segs c, In (segs, c) ts -> segmentation sentence_decides (concat segs) segs)).
Proof. exact (pass_iff (segmentation sentence_decides) (fun fuel d => tokens sentences_api fuel (Sentences.FromBytes d)) C07_sentences_are_uax29 (fun _ _ S => proj1 S)). Qed.
Print Assumptions C59_sentences.

(** An empty line is not in the format, and the generator panics on it (line[0]). *)
Theorem C59_empty_line : forall trim f ts e g, test_lines 4 f ts -> line_end e -> generateTests trim (f ++ e ++ g) = Panic.
Proof. exact generate_empty. Qed.
Print Assumptions C59_empty_line.

(** Two lines: a remark, and "÷ 0061 × 0308 ÷ 1F600 ÷" with a comment. *)
Definition two_lines : bytes :=
  str "# WordBreakTest" ++ [0x0D; 0x0A]%N
  ++ div ++ str " 0061 " ++ mul ++ str " 0308 " ++ div ++ str " 1F600 " ++ div ++ [0x09]%N ++ str "# x" ++ [0x0A]%N.
Definition two_lines_tests : list (list (list N) * bytes) := [([[0x61; 0x308]; [0x1F600]]%N, str " x")].
Lemma two_lines_ok : test_lines 4 two_lines two_lines_tests.
Proof.
  assert (NC : forall l, match rev l with 13%N :: _ => false | _ => true end = true -> no_cr l).
  { intros l H r ->. rewrite rev_app_distr in H. discriminate H. }
  assert (H1 : code_point 4 (str "0061") 0x61).
  { split; [|split; [cbn; lia|left; lia]]. apply (hex_more [0x30; 0x30; 0x36]%N 6 0x31 1); [|left; lia]. apply (hex_more [0x30; 0x30]%N 0 0x36 6); [|left; lia].
    apply (hex_more [0x30]%N 0 0x30 0); [|left; lia]. apply hex_one. left. lia. }
  assert (H2 : code_point 4 (str "0308") 0x308).
  { split; [|split; [cbn; lia|left; lia]]. apply (hex_more [0x30; 0x33; 0x30]%N 0x30 0x38 8); [|left; lia]. apply (hex_more [0x30; 0x33]%N 3 0x30 0); [|left; lia].
    apply (hex_more [0x30]%N 0 0x33 3); [|left; lia]. apply hex_one. left. lia. }
  assert (H3 : code_point 4 (str "1F600") 0x1F600).
  { split; [|split; [cbn; lia|right; lia]]. apply (hex_more [0x31; 0x46; 0x36; 0x30]%N 0x1F60 0x30 0); [|left; lia]. apply (hex_more [0x31; 0x46; 0x36]%N 0x1F6 0x30 0); [|left; lia].
    apply (hex_more [0x31; 0x46]%N 0x1F 0x36 6); [|left; lia]. apply (hex_more [0x31]%N 1 0x46 15); [|right; left; lia]. apply hex_one. left. lia. }
  assert (F : forall c l, forallb (fun b => negb (b =? c)%N) l = true -> Forall (fun b => b <> c) l).
  { intros c l E. rewrite forallb_forall in E. apply Forall_forall. intros b I. specialize (E b I). apply negb_true_iff in E. apply N.eqb_neq. exact E. }
  apply (lines_more 4 (str "# WordBreakTest") [0x0D; 0x0A]%N _ [] two_lines_tests); [|apply NC; reflexivity|constructor|].
  - apply line_remark. apply F. reflexivity.
  - apply (lines_more 4 ((div ++ (str " 0061 " ++ mul ++ str " 0308 ") ++ div ++ str " 1F600 " ++ div) ++ [0x09]%N ++ [0x23]%N ++ str " x") [0x0A]%N [] two_lines_tests []); [|apply NC; reflexivity|constructor|constructor].
    apply (line_test 4 (div ++ (str " 0061 " ++ mul ++ str " 0308 ") ++ div ++ str " 1F600 " ++ div) [[0x61; 0x308]; [0x1F600]]%N [0x09]%N (str " x")).
    + apply marked_more; [exact (unbroken_more 4 (str "0061") 0x61 (str " 0308 ") [0x308]%N H1 (unbroken_one 4 (str "0308") 0x308 H2))|].
      apply marked_more; [exact (unbroken_one 4 (str "1F600") 0x1F600 H3)|constructor].
    + constructor; [right; reflexivity|constructor].
    + cbn. lia.
    + repeat (constructor; [split; discriminate|]). constructor.
Qed.
Example C59_case : test_file 4 two_lines two_lines_tests
  /\ generateTests (fun c => c) two_lines
     = Ok (Some [{| t_input := [0x61; 0xCC; 0x88; 0xF0; 0x9F; 0x98; 0x80]%N; t_expected := [[0x61; 0xCC; 0x88]; [0xF0; 0x9F; 0x98; 0x80]]%N; t_comment := str " x" |}])
  /\ tokens words_api 10 (Words.FromBytes (encode [0x61; 0x308; 0x1F600]%N)) = Ok [[0x61; 0xCC; 0x88]; [0xF0; 0x9F; 0x98; 0x80]]%N
  /\ generateTests (fun c => c) (two_lines ++ [10%N]) = Panic.
Proof. split; [constructor; exact two_lines_ok|]. split; [vm_compute; reflexivity|]. split; vm_compute; reflexivity. Qed.

(** With fewer than four digits the statement is false: "÷ 61 ÷ 0062 ÷" loses the letter a, without an error. *)
Theorem C59_two_digits_refuted : exists f ts, test_file 2 f ts
  /\ generateTests (fun c => c) f <> Ok (Some (map (fun t => {| t_input := encode (concat (fst t)); t_expected := map encode (fst t); t_comment := snd t |}) ts)).
Proof.
  exists (div ++ str " 61 " ++ div ++ str " 0062 " ++ div ++ str "# x"), [([[0x61]; [0x62]]%N, str " x")].
  split; [|vm_compute; discriminate].
  apply (file_not_ended 2 [] _ [] [([[0x61]; [0x62]]%N, str " x")]); [constructor| |intros r E; apply (f_equal (@rev N)) in E; rewrite rev_app_distr in E; discriminate E].
  apply (line_test 2 (div ++ str " 61 " ++ div ++ str " 0062 " ++ div) [[0x61]; [0x62]]%N [] (str " x")).
  - apply marked_more. { apply (unbroken_one 2 (str "61") 0x61). split; [|split; [cbn; lia|left; lia]]. apply (hex_more [0x36]%N 6 0x31 1); [apply hex_one|]; left; lia. }
    apply marked_more; [|constructor]. apply (unbroken_one 2 (str "0062") 0x62). split; [|split; [cbn; lia|left; lia]].
    apply (hex_more [0x30; 0x30; 0x36]%N 6 0x32 2); [|left; lia]. apply (hex_more [0x30; 0x30]%N 0 0x36 6); [|left; lia]. apply (hex_more [0x30]%N 0 0x30 0); [|left; lia]. apply hex_one. left. lia.
  - constructor.
  - cbn. lia.
  - repeat (constructor; [split; discriminate|]). constructor.
Qed.
Print Assumptions C59_two_digits_refuted.

(** ** C60 *)
Theorem C60_source : forall trim quote pkg url f ts tests, test_file 4 f ts -> generateTests trim f = Ok (Some tests) ->
  ~ contains pkg (str "[]uint8{") -> ~ contains url (str "[]uint8{") -> (forall segs c, In (segs, c) ts -> ~ contains (quote (trim c)) (str "[]uint8{")) ->
  test_source quote pkg url (writeTests quote pkg url tests) (map (fun t => (encode (concat (fst t)), map encode (fst t), trim (snd t))) ts).
Proof.
  intros trim quote pkg url f ts tests T G P U C. rewrite (C59_generate trim f ts T) in G. injection G as <-.
  rewrite <- (map_map (fun t => {| t_input := encode (concat (fst t)); t_expected := map encode (fst t); t_comment := trim (snd t) |}) parts).
  apply write_ok; [exact P|exact U|]. apply Forall_forall. intros t I. apply in_map_iff in I as ((segs & c) & <- & I). exact (C segs c I).
Qed.
Print Assumptions C60_source.
(** For any tests at all, from a file or not, with empty pieces or without. *)
Theorem C60_write : forall quote pkg url tests,
  ~ contains pkg (str "[]uint8{") -> ~ contains url (str "[]uint8{") -> (forall t, In t tests -> ~ contains (quote (t_comment t)) (str "[]uint8{")) ->
  test_source quote pkg url (writeTests quote pkg url tests) (map (fun t => (t_input t, t_expected t, t_comment t)) tests).
Proof. intros quote pkg url tests P U C. apply write_ok; [exact P|exact U|]. apply Forall_forall. exact C. Qed.
Print Assumptions C60_write.
(** The replacement in the whole file touches comments too: two different comments give the same source. *)
Theorem C60_comments_refuted : exists quote pkg url t t',
  (forall c c', quote c = quote c' -> c = c') /\ t_input t = t_input t' /\ t_expected t = t_expected t' /\ t_comment t <> t_comment t' /\ writeTests quote pkg url [t] = writeTests quote pkg url [t'].
Proof.
  exists (fun c => [0x22%N] ++ c ++ [0x22%N]), (str "words"), (str "u"), {| t_input := [0x61%N]; t_expected := [[0x61%N]]; t_comment := str "[]uint8{" |}, {| t_input := [0x61%N]; t_expected := [[0x61%N]]; t_comment := str "[]byte{" |}.
  split; [intros c c' E; injection E as E; apply app_inj_tail in E; exact (proj1 E)|]. split; [reflexivity|]. split; [reflexivity|]. split; [discriminate|vm_compute; reflexivity].
Qed.
Print Assumptions C60_comments_refuted.
Example C60_case :
  (~ contains (str "words") (str "[]uint8{") /\ ~ contains (str """x""") (str "[]uint8{"))
  /\ exists s, writeTests (fun c => [0x22%N] ++ c ++ [0x22%N]) (str "words") (str "u") [{| t_input := [0x61; 0xCC; 0x88; 0xA]%N; t_expected := [[0x61; 0xCC; 0x88]; [0xA]]%N; t_comment := str "x" |}]
  = s ++ str "input: []byte{0x61, 0xcc, 0x88, 0xa}," ++ [0x0A; 0x09]%N ++ str "expected: [][]byte{{0x61, 0xcc, 0x88}, {0xa}}," ++ [0x0A; 0x09]%N ++ str "comment: ""x""," ++ [0x0A]%N ++ str "}," ++ [0x0A]%N ++ str "}" ++ [0x0A; 0x0A]%N.
Proof.
  split; [split; intros (a & b & E); apply (f_equal (@List.length N)) in E as L; rewrite !app_length in L; cbn in L; lia|].
  exists (test_header (str "words") (str "u") 1 ++ str "{" ++ [0x0A; 0x09]%N). vm_compute. reflexivity.
Qed.
