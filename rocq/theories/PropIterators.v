(** C42: internal/iterators.Iterator, for every split function and every text. *)
From Verif Require Import Base Engine SpecIter SpecJoiners SpecIterators Iterators IteratorsFacts.
From Verif Require GraphemesEngine WordsEngine SentencesEngine PhrasesEngine.
From Verif Require Graphemes Words Sentences Phrases.
Local Open Scope Z_scope.

(** A split function that always advances: the loop ends, the spans cover the text, and the values are the tokens it cuts. *)
Theorem C42_tokens : forall f data fuel, advances f -> len data <= maxint -> (length data < fuel)%nat ->
  exists l, collect step observe fuel (New f data) = Ok (map span_z l) /\ spans data l /\ concat (map value_of l) = data /\ cut_by f data (map value_of l).
Proof.
  intros f data fuel HF Hm Hf. unfold maxint in Hm. destruct (loop_ok f HF fuel (New f data) data 0 0) as (l & H1 & H2 & H3); [repeat split|lia|lia|lia|].
  exists l. split; [exact H1|]. split; [exact H2|]. split; [apply (spans_concat data l 0 ltac:(lia) H2)|exact H3].
Qed.
(** First is the first of these tokens, and the empty text has none. *)
Theorem C42_first : forall f data l, advances f -> cut_by f data l -> First (New f data) = Ok (hd [] l).
Proof.
  intros f data l HF HC. destruct data as [|b s].
  - inversion HC as [| |? ? ? ? Q]; subst; [reflexivity|cbn in Q; lia].
  - destruct (first_ok f HF (b :: s) ltac:(discriminate)) as (n & _ & H & HL). destruct (HL l HC) as (r & ->). exact H.
Qed.

(** Any split function at all, any state of the iterator: when Next returns true and Value returns a token, this is a non-empty
    piece of the text that starts where the iterator stood, and either it is the last byte or the split function asked for it. *)
Theorem C42_no_wrong_token : forall it it' tok, returns_ints (it_split it) -> len (it_data it) <= maxint -> Next it = (it', Ok true) -> Value it' = Ok tok ->
  tok <> [] /\ exists before rest, it_data it = before ++ tok ++ rest /\ it_pos it = len before
    /\ Start it' = len before /\ End_ it' = len before + len tok /\ it_data it' = it_data it /\ it_split it' = it_split it
    /\ (rest = [] /\ length tok = 1%nat \/ exists o, it_split it (tok ++ rest) true = Ok o /\ so_err o = None /\ so_advance o = len tok).
Proof. intros it it' tok RI Hm. apply next_true; [exact RI|]. unfold maxint in Hm. lia. Qed.
(** A split function that errs, stalls or overruns on what remains (two bytes or more) makes Next panic ... *)
Theorem C42_next_panics : forall it before d o, it_data it = before ++ d -> it_pos it = len before -> (2 <= length d)%nat -> it_split it d true = Ok o ->
  errs o \/ stalls o \/ overruns d o /\ len before + so_advance o <= maxint -> snd (Next it) = Panic.
Proof.
  intros it before d o E1 E2 Hd HO H. apply (next_fails it before d o E1 E2 Hd HO). destruct H as [H|[H|[H1 H2]]]; [left; exact H|right; left; exact H|]. right. right. split; [exact H1|]. unfold maxint in H2. lia.
Qed.
(** ... and First panic. *)
Theorem C42_first_panics : forall it o, it_data it <> [] -> it_split it (it_data it) true = Ok o -> errs o \/ stalls o \/ overruns (it_data it) o -> First it = Panic.
Proof. exact first_fails. Qed.
(** After the panic of an overrun, Next and Value go on panicking. *)
Theorem C42_overrun_sticks : forall it, len (it_data it) < it_pos it -> Next it = (it, Panic) /\ Value it = Panic.
Proof. exact beyond. Qed.

(** With the split functions of the packages it yields the tokens of these functions. *)
Theorem C42_packages : forall f data fuel, f = Graphemes.splitFunc \/ (exists j, f = Words.joinersSplitFunc j) \/ f = Sentences.splitFunc \/ f = Phrases.splitFunc ->
  len data <= maxint -> (length data < fuel)%nat ->
  exists l, collect step observe fuel (New f data) = Ok (map span_z l) /\ spans data l /\ tokens_by f data (map value_of l).
Proof.
  intros f data fuel Hf Hm Hl. assert (SO : split_ok f).
  { destruct Hf as [->|[(j & ->)|[->| ->]]]; [apply GraphemesEngine.g_split_ok|apply WordsEngine.w_split_ok|apply SentencesEngine.s_split_ok|apply PhrasesEngine.p_split_ok]. }
  destruct (C42_tokens f data fuel (split_advances f SO) Hm Hl) as (l & H1 & H2 & _ & H4). exists l. split; [exact H1|]. split; [exact H2|]. apply cut_tokens; assumption.
Qed.

(** The side condition on overruns is needed: an advance of nearly 2^63 makes the position wrap around to a negative number, and Next returns true. *)
Definition huge : splitfun := fun d _ => Ok {| so_advance := if Nat.eqb (length d) 4 then 1 else maxint; so_token := None; so_err := None |}.
Theorem C42_wraparound_refuted : exists f data it it' o, returns_ints f /\ Next (New f data) = (it, Ok true) /\ f (skipn 1 data) true = Ok o /\ it_pos it = 1 /\ overruns (skipn 1 data) o
  /\ Next it = (it', Ok true) /\ End_ it' < 0 /\ Value it' = Panic.
Proof.
  exists huge, [97; 98; 99; 100]%N. eexists. eexists. exists {| so_advance := maxint; so_token := None; so_err := None |}. split.
  { intros d b o H. unfold huge in H. injection H as <-. cbn [so_advance]. unfold maxint. destruct (Nat.eqb (length d) 4); lia. }
  split; [unfold Next; cbn; reflexivity|]. split; [reflexivity|]. split; [reflexivity|]. split; [reflexivity|].
  split; [unfold Next; cbn; reflexivity|]. split; reflexivity.
Qed.

(** Two bytes at a time: "abcde" is cut into "ab", "cd" and the last byte. *)
Definition pairs : splitfun := fun d _ => Ok {| so_advance := Z.of_nat (Nat.min 2 (length d)); so_token := Some (firstn 2 d); so_err := None |}.
Lemma pairs_advances : advances pairs.
Proof. intros d Hd. exists (Nat.min 2 (length d)), (Some (firstn 2 d)). split; [destruct d; [congruence|cbn [length]; lia]|reflexivity]. Qed.
Example C42_case : advances pairs /\ cut_by pairs [97; 98; 99; 100; 101]%N [[97; 98]; [99; 100]; [101]]%N
  /\ collect step observe 6 (New pairs [97; 98; 99; 100; 101]%N) = Ok [([97; 98]%N, 0, 2); ([99; 100]%N, 2, 4); ([101]%N, 4, 5)].
Proof.
  split; [exact pairs_advances|]. split; [|reflexivity]. apply (cut_more _ [97; 98; 99; 100; 101]%N 2 (Some [97; 98]%N)); [cbn; lia|reflexivity|cbn; lia|].
  apply (cut_more _ [99; 100; 101]%N 2 (Some [99; 100]%N)); [cbn; lia|reflexivity|cbn; lia|]. apply cut_byte.
Qed.
(** A split function that stalls. *)
Definition stall : splitfun := fun _ _ => Ok {| so_advance := 0; so_token := None; so_err := None |}.
Example C42_stall_case : stalls {| so_advance := 0; so_token := None; so_err := None |} /\ snd (Next (New stall [97; 98]%N)) = Panic /\ First (New stall [97]%N) = Panic.
Proof. split; [discriminate|]. split; reflexivity. Qed.

Print Assumptions C42_tokens.
Print Assumptions C42_first.
Print Assumptions C42_no_wrong_token.
Print Assumptions C42_next_panics.
Print Assumptions C42_first_panics.
Print Assumptions C42_overrun_sticks.
Print Assumptions C42_packages.
Print Assumptions C42_wraparound_refuted.
