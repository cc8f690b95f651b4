(** C33 - C38: words.Joiners and words.Iterator.Split. *)
From Verif Require Import Base ListFacts Engine SpecIter SpecApi Drive ApiFacts ApiInst ConformApi Scanner SpecReader SpecJoiners ReaderFacts JoinersFacts WordsReader.
From Verif Require Words WordsEngine.
Import Words.

(** ** C33: no joiners *)
(** Setting "no joiners" at any moment leaves the tokens to come as they are, if none had been set before. *)
Theorem C33_iterator : forall cs d j, without_joiners cs -> no_joiners j -> exists it, history words_api cs (FromBytes d) = Ok it
  /\ forall fuel, length (text_after words_api cs d) < fuel -> exists l, tokens words_api fuel it = Ok l /\ tokens words_api fuel (setJoiners it j) = Ok l.
Proof. exact absent_iterator. Qed.
Print Assumptions C33_iterator.
(** The same tokens and the same error, for every reader whatever. *)
Theorem C33_scanner : forall j rd r fuel, no_joiners j -> exists s, ScannerJoiners FromReader j = Ok s
  /\ scan_all rd fuel s r = scan_all rd fuel FromReader r.
Proof.
  intros j rd r fuel Hj. exists (Scanner.FromReader (joinersSplitFunc j)). split; [reflexivity|]. apply same_all. split; [|repeat split; reflexivity].
  intros d b. apply (absent_same j); [exact Hj|right; reflexivity].
Qed.
Print Assumptions C33_scanner.
(** "a-b c": Next, Joiners(nil), Joiners of nothing *)
Example C33_case : without_joiners [CNext; CConfig None] /\ no_joiners (Some {| Middle := []; Leading := [] |})
  /\ (it <- history words_api [CNext; CConfig None] (FromBytes [97; 45; 98; 32; 99]%N) ;;
      tokens words_api 10 (setJoiners it (Some {| Middle := []; Leading := [] |}))) = Ok [[45]; [98]; [32]; [99]]%N.
Proof. split; [cbn; unfold no_joiners; auto|]. split; [right; reflexivity|]. vm_compute; reflexivity. Qed.

(** ** C37: Iterator and Scanner agree under joiners *)
Theorem C37_agree : forall j, no_middle_space j ->
  exists s, ScannerJoiners FromReader j = Ok s /\ fresh_scanner (joinersSplitFunc j) s
    /\ reads_prefix (fun fuel d => tokens words_api fuel (setJoiners (FromBytes d) j)) (joinersSplitFunc j)
    /\ reads_all_short (fun fuel d => tokens words_api fuel (setJoiners (FromBytes d) j)) (joinersSplitFunc j).
Proof.
  intros j Hj. exists (Scanner.FromReader (joinersSplitFunc j)). split; [reflexivity|]. split; [apply fresh_default|].
  split; [exact (reads_prefix_ok _ (WordsEngine.w_split_ok j) _ (joiners_agree j Hj))|exact (reads_all_short_ok _ (WordsEngine.w_split_ok j) _ (joiners_agree j Hj))].
Qed.
Print Assumptions C37_agree.
(** "x-y #z" in two reads, with - in the middle and # leading *)
Definition hyphen_hash : option Joiners := Some {| Middle := [45]; Leading := [35] |}%N.
Example C37_case : no_middle_space hyphen_hash
  /\ (exists s, ScannerJoiners FromReader hyphen_hash = Ok s /\ scan_all (chunk_reader EOF) 20 s [[120; 45]; [121; 32; 35; 122]]%N = Ok ([[120; 45; 121]; [32]; [35; 122]]%N, None))
  /\ tokens words_api 20 (setJoiners (FromBytes [120; 45; 121; 32; 35; 122]%N) hyphen_hash) = Ok [[120; 45; 121]; [32]; [35; 122]]%N.
Proof. split; [cbn; intros [H|[]]; discriminate|]. split; [exists (Scanner.FromReader (joinersSplitFunc hyphen_hash)); split; [reflexivity|vm_compute; reflexivity]|vm_compute; reflexivity]. Qed.

(** With a space among the middle joiners they differ, on "a b". *)
Theorem C37_space_refuted : exists j d s, ScannerJoiners FromReader j = Ok s /\ delivers (chunk_reader EOF) [d] d EOF
  /\ scan_all (chunk_reader EOF) 20 s [d] = Ok ([d], None)
  /\ tokens words_api 20 (setJoiners (FromBytes d) j) = Ok [[97]; [32]; [98]]%N.
Proof.
  exists (Some {| Middle := [32]%N; Leading := [] |}), [97; 32; 98]%N, (Scanner.FromReader (joinersSplitFunc (Some {| Middle := [32]%N; Leading := [] |}))). split; [reflexivity|].
  split; [apply (chunk_delivers EOF [[97; 32; 98]%N])|]. split; vm_compute; reflexivity.
Qed.
Print Assumptions C37_space_refuted.

(** ** C38: Split *)
(** The tokens are those of the given function, provided it takes a run of ASCII letters and digits that ends at a space or
    at the end of the data as a token. *)
Theorem C38_split : forall f d fuel, well_behaved f -> length d < fuel ->
  (forall i k, plain_word (skipn i d) k -> f (skipn i d) true = Ok {| so_advance := Z.of_nat k; so_token := Some (firstn k (skipn i d)); so_err := None |}) ->
  exists l, tokens words_api fuel (Split (FromBytes d) f) = Ok l /\ tokens_by f d l.
Proof. exact split_tokens. Qed.
Print Assumptions C38_split.
(** In particular for text without ASCII letters and digits. *)
Theorem C38_split_no_ascii : forall f d fuel, well_behaved f -> length d < fuel -> Forall (fun b => ~ ascii_alphanumeric b) d ->
  exists l, tokens words_api fuel (Split (FromBytes d) f) = Ok l /\ tokens_by f d l.
Proof.
  intros f d fuel Hf Hl HN. apply split_tokens; auto. intros i k (Hk & HF & _). exfalso.
  destruct (skipn i d) as [|b s] eqn:ES; [cbn in Hk; lia|]. destruct k as [|k]; [lia|]. cbn [firstn] in HF. inversion HF; subst.
  rewrite Forall_forall in HN. apply (HN b); [|assumption]. rewrite <- (firstn_skipn i d), ES. apply in_or_app. right. left. reflexivity.
Qed.
Print Assumptions C38_split_no_ascii.
(** Single bytes *)
Definition single : splitfun := fun d _ => Ok (match d with [] => e_more | _ => e_done 1 (firstn 1 d) end).
Lemma single_ok : well_behaved single.
Proof. intros d Hd. exists 1. destruct d; [congruence|]. cbn [length]. split; [lia|reflexivity]. Qed.
Example C38_case : well_behaved single /\ Forall (fun b => ~ ascii_alphanumeric b) [33; 33; 32]%N
  /\ tokens words_api 10 (Split (FromBytes [33; 33; 32]%N) single) = Ok [[33]; [33]; [32]]%N.
Proof. split; [exact single_ok|]. split; [repeat constructor; unfold ascii_alphanumeric; lia|vm_compute; reflexivity]. Qed.

(** Without the condition it is false: "ab" is one token whatever the function says. *)
Theorem C38_bypass_refuted : exists f d l, well_behaved f /\ tokens words_api 10 (Split (FromBytes d) f) = Ok l /\ ~ tokens_by f d l.
Proof.
  exists single, [97; 98]%N, [[97; 98]]%N. split; [exact single_ok|]. split; [vm_compute; reflexivity|].
  intros H. inversion H as [|d n l Hs Hn HT E1 E2]. subst d.
  apply (f_equal (fun r => match r with Ok o => so_advance o | _ => 0%Z end)) in Hs. rewrite E2 in Hs. change (1%Z = Z.of_nat n) in Hs. assert (n = 1) by lia. subst n. discriminate.
Qed.
Print Assumptions C38_bypass_refuted.
