(** C71.  Goroutines: however the single accesses to memory of several goroutines are interleaved, goroutines that use iterators of their own never race and each gets what it
    would get alone; a Joiners may be shared. *)
From Coq Require Import String.
From Verif Require Import SpecIter SpecApi ApiInst.
From Verif Require Import Base GoSyntax GoSem CodeText SpecCode SpecCode2 SpecSteps SpecStepsShare.
From Verif Require SpecShare ProgGraphemes ProgSentences ProgPhrases ProgWords ProgOther Words StepsRun StepsShare.
Local Open Scope string_scope.
Local Open Scope list_scope.
(** Taken one after the other, the steps of a call are what the interpreter does; every call comes to its end after some number of them. *)
Theorem C71_steps : (forall p rounds depth f vs h, run (tcall p rounds depth f vs) h = call p rounds depth f vs h)
  /\ (forall A (t : act A) h, exists n t' h', steps n t h = (t', h') /\ final t' h' (run t h)).
Proof. exact (conj StepsRun.call_same StepsShare.finishes). Qed.
Print Assumptions C71_steps.

(** Any programs: goroutines that call one function each, with values of their own or values that none of the programs changes. *)
Theorem C71_independent : forall W S owns h jobs, constant S W h -> parted S owns h -> (forall i j, nth_error jobs i = Some j -> job_ok W S (owns i) j) ->
  independent same_shapes owns (map tree jobs) h.
Proof. exact StepsShare.jobs_independent. Qed.
Print Assumptions C71_independent.

(** Clients of the five packages, each with an iterator of their own, in any memory: no race, and the same answers. *)
Theorem C71_packages : exists g w s p i, ProgGraphemes.graphemes_code = Some g /\ ProgWords.words_code = Some w /\ ProgSentences.sentences_code = Some s
  /\ ProgPhrases.phrases_code = Some p /\ ProgOther.iterators_code = Some i
  /\ forall nils rounds depth max cs h, Forall (SpecShare.proper_client max) cs -> (Z.of_nat max < 2 ^ 62)%Z -> (2 * max + 2 <= rounds)%nat -> (7 <= depth)%nat ->
     independent (fun _ => eq) (fun _ _ => false) (map (tclient g w s p i nils rounds depth) cs) h.
Proof.
  exact (ex_intro _ _ (ex_intro _ _ (ex_intro _ _ (ex_intro _ _ (ex_intro _ _ (conj ProgGraphemes.graphemes_link (conj ProgWords.words_link (conj ProgSentences.sentences_link
    (conj ProgPhrases.phrases_link (conj ProgOther.iterators_link StepsShare.clients_independent)))))))))).
Qed.
Print Assumptions C71_packages.
(** A client who would get the answers [l] alone, in whatever memory, has them after some number of steps of their own, whatever the others do meanwhile. *)
Theorem C71_answers : exists g w s p i, ProgGraphemes.graphemes_code = Some g /\ ProgWords.words_code = Some w /\ ProgSentences.sentences_code = Some s
  /\ ProgPhrases.phrases_code = Some p /\ ProgOther.iterators_code = Some i
  /\ forall nils rounds depth max cs h, Forall (SpecShare.proper_client max) cs -> (Z.of_nat max < 2 ^ 62)%Z -> (2 * max + 2 <= rounds)%nat -> (7 <= depth)%nat ->
     forall k c l, nth_error cs k = Some c -> SpecShare.alone g w s p i nils rounds depth c (uses c) h = Done l ->
     exists n, forall sched, (n <= turns k sched)%nat -> nth_error (fst (together sched (map (tclient g w s p i nils rounds depth) cs) h)) k = Some (ret l).
Proof.
  exact (ex_intro _ _ (ex_intro _ _ (ex_intro _ _ (ex_intro _ _ (ex_intro _ _ (conj ProgGraphemes.graphemes_link (conj ProgWords.words_link (conj ProgSentences.sentences_link
    (conj ProgPhrases.phrases_link (conj ProgOther.iterators_link StepsShare.clients_answers)))))))))).
Qed.
Print Assumptions C71_answers.
(** Joiners may be shared: goroutines that call functions of package words, or any functions of a client's that do not assign to the fields of Joiners. *)
Theorem C71_joiners : exists w, ProgWords.words_code = Some w /\ forall fs rounds depth S owns h (calls : list (fid * list val)),
  forallb (fun x => negb (joiner_field x)) (flat_map (fun q => flat_map assigned (fd_body (snd q))) fs) = true ->
  (forall l, S l = true -> is_joiners h l) -> parted S owns h ->
  (forall i f vs, nth_error calls i = Some (f, vs) -> forallb (within (fun k => S k || owns i k)) vs = true) ->
  independent same_shapes owns (map (fun q => tcall (extend w fs) rounds depth (fst q) (snd q)) calls) h.
Proof. exact (ex_intro _ _ (conj ProgWords.words_link StepsShare.joiners_independent)). Qed.
Print Assumptions C71_joiners.

(** Two goroutines with one Joiners between them: "a-b" is one word and "c--d" is not, whatever the order of the steps; here they alternate. *)
Definition client_text : list string :=
  ["package words";
   "func client(data string, joiners *Joiners) (string, string) {";
   "	iter := FromString(data)";
   "	iter.Joiners(joiners)";
   "	iter.Next()";
   "	first := iter.Value()";
   "	iter.Next()";
   "	return first, iter.Value()";
   "}";
   "func again(iter *Iterator) bool {";
   "	return iter.Next()";
   "}"].
Definition client_funs : list (fid * fundecl) := Eval vm_compute in funs (decls_of [client_text]).
Definition pc : program := extend ProgWords.pw client_funs.
Definition jobs71 : list job :=
  [{| j_program := pc; j_rounds := 20; j_depth := 9; j_fun := ("", "client"); j_args := [VData Str [97; 45; 98; 32]%N; VPtr "Joiners" (Some 0%nat)] |};
   {| j_program := pc; j_rounds := 20; j_depth := 9; j_fun := ("", "client"); j_args := [VData Str [99; 45; 45; 100]%N; VPtr "Joiners" (Some 0%nat)] |}].
Definition joiners71 : heap := [("Joiners", [("Middle", VRunes (Some [45]%Z)); ("Leading", VRunes None)])].
Fixpoint rr (n : nat) : list nat := match n with O => [] | S n => 0%nat :: 1%nat :: rr n end.
Definition calls71 : list (fid * list val) := map (fun j => (j_fun j, j_args j)) jobs71.
Example C71_joiners_case : forallb (fun x => negb (joiner_field x)) (flat_map (fun q => flat_map assigned (fd_body (snd q))) client_funs) = true
  /\ is_joiners joiners71 0 /\ parted (Nat.eqb 0) (fun _ _ => false) joiners71
  /\ (forall i f vs, nth_error calls71 i = Some (f, vs) -> forallb (within (fun k => Nat.eqb 0 k || false)) vs = true)
  /\ fst (together (rr 50) (map tree jobs71) joiners71) = [ret [VData Str [97; 45; 98]%N; VData Str [32]%N]; ret [VData Str [99]%N; VData Str [45]%N]].
Proof.
  split; [vm_compute; reflexivity|]. split; [do 2 eexists; reflexivity|]. split; [discriminate|]. split; [|vm_compute; reflexivity].
  intros [|[|[|i]]] f vs E; try discriminate; injection E as <- <-; reflexivity.
Qed.
(** The hypotheses of C71_independent, for the same two. *)
Example C71_independent_case : constant (Nat.eqb 0) (fun x => negb (joiner_field x)) joiners71 /\ (forall i j, nth_error jobs71 i = Some j -> job_ok (fun x => negb (joiner_field x)) (Nat.eqb 0) (fun _ => false) j).
Proof.
  split; [apply StepsShare.joiners_constant; intros [|l] L; [do 2 eexists; reflexivity|discriminate]|].
  assert (T : tame (fun x => negb (joiner_field x)) pc = true) by (vm_compute; reflexivity).
  intros [|[|[|i]]] j E; try discriminate; injection E as <-; (split; [exact T|reflexivity]).
Qed.
(** Two goroutines that own an iterator each, in one memory, and call Next. *)
Definition two71 : heap := match call ProgWords.pw 20 9 ("", "FromString") [VData Str [97; 32]%N] [] with
  | Done (_, h) => match call ProgWords.pw 20 9 ("", "FromString") [VData Str [98]%N] h with Done (_, h) => h | _ => [] end | _ => [] end.
Definition next71 (l : nat) : job := {| j_program := pc; j_rounds := 20; j_depth := 9; j_fun := ("", "again"); j_args := [VPtr "Iterator" (Some l)] |}.
Definition own71 (i l : nat) : bool := match i, l with 0%nat, 0%nat | 1%nat, 1%nat => true | _, _ => false end.
Example C71_owners_case : parted (fun _ => false) own71 two71 /\ (forall i j, nth_error [next71 0; next71 1] i = Some j -> job_ok (fun _ => true) (fun _ => false) (own71 i) j).
Proof.
  split.
  - intros [|[|i]] [|[|l]] L; try discriminate; (split; [reflexivity|]); (split; [intros [|[|j]] J; try discriminate; reflexivity|]); do 2 eexists; (split; [vm_compute; reflexivity|]); repeat constructor.
  - assert (T : tame (fun _ => true) pc = true) by (vm_compute; reflexivity). intros [|[|[|i]]] j E; try discriminate; injection E as <-; (split; [exact T|reflexivity]).
Qed.
(** With one iterator between them there is a race: neither hypothesis can be met, as Next assigns to its fields. *)
Definition shared71 : list (act (list val)) := map tree [next71 0; next71 0].
Fixpoint to_write (n : nat) (t : act (list val)) (h : heap) : nat := match n with O => O | S n => match access t h with Some (_, true) => O | _ => let (t, h) := step t h in S (to_write n t h) end end.
Lemma race_between : forall A (ts : list (act A)) h l a b, map (fun t => access t h) ts = [Some (l, a); Some (l, b)] -> a || b = true -> race ts h.
Proof.
  intros A ts h k a b E H; destruct ts as [|t [|u [|? ?]]]; try discriminate. injection E as E1 E2. exists 0%nat, 1%nat, t, u, k, a, b. split; [discriminate|]. repeat split; assumption.
Qed.
Example C71_race : race (fst (together (repeat 0%nat (to_write 100 (tree (next71 0)) two71)) shared71 two71)) (snd (together (repeat 0%nat (to_write 100 (tree (next71 0)) two71)) shared71 two71)).
Proof. apply (race_between _ _ _ 0%nat true false); [|reflexivity]. vm_compute. reflexivity. Qed.
(** The clients of C61, step by step. *)
Definition by_two : splitfun := fun d _ => Ok {| so_advance := Z.min 2 (Z.of_nat (length d)); so_token := None; so_err := None |}.
Definition clients71 : list SpecShare.client :=
  [SpecShare.CWords (Str, [97; 45; 98]%N) [UConfig (inl (Some {| Words.Middle := [45]%N; Words.Leading := [] |})); UNext; UValue];
   SpecShare.CGraphemes (Str, [101; 204; 129]%N) [UNext; UValue];
   SpecShare.CIterators by_two (Bytes, [1; 2; 3]%N) [UNext; UValue; UNext; UValue]].
Fixpoint rr3 (n : nat) : list nat := match n with O => [] | S n => 2%nat :: 0%nat :: 1%nat :: rr3 n end.
Example C71_case : Forall (SpecShare.proper_client 3) clients71
  /\ fst (together (rr3 60) (map (tclient ProgGraphemes.pg ProgWords.pw ProgSentences.ps ProgPhrases.pp ProgOther.pi_ false 8 7) clients71) [("mine", [])])
     = [ret [[]; [VBool true]; [VData Str [97; 45; 98]%N]]; ret [[VBool true]; [VData Str [101; 204; 129]%N]]; ret [[VBool true]; [VData Bytes [1; 2]%N]; [VBool true]; [VData Bytes [3]%N]]].
Proof.
  split; [|vm_compute; reflexivity].
  apply Forall_cons. { exists true. split; [repeat split; cbn; auto; discriminate|]. repeat constructor. }
  apply Forall_cons. { exists true. split; [repeat split; cbn; auto; discriminate|]. repeat constructor. }
  apply Forall_cons. { exists false. split; [intros d e o H; injection H as <-; cbn [so_advance]; lia|]. split; [repeat split; cbn; auto; discriminate|]. repeat constructor. }
  constructor.
Qed.
