(** Appending text, in terms of the Iterators; and the control sequences of package graphemes, where it fails. *)
From Verif Require Import Base ListFacts Engine SpecJoiners AnsiCuts SpecIter SpecApi ApiFacts ApiInst PiecesApi Append Ansi GraphemesIter.
From Verif Require Graphemes GraphemesEngine.

Section Api.
  Context {A : api} {K : Type} {data : It A -> bytes} {pos start : It A -> nat} {kof : It A -> K -> Prop} {f : K -> splitfun} {newK : K} {cfgK : Cfg A -> K -> K}.
  Hypothesis AO : api_ok A data pos start kof f newK cfgK.
  Lemma kept : forall k m, well_behaved (f k) -> cut_kept (f k) m -> forall (mk : bytes -> It A), (forall d, kof (mk d) k /\ pos (mk d) = 0 /\ data (mk d) = d) ->
    forall d e fuel l1 l2, length (d ++ e) < fuel -> tokens A fuel (mk d) = Ok (l1 ++ l2) -> m <= length l2 -> exists l', tokens A fuel (mk (d ++ e)) = Ok (l1 ++ l').
  Proof.
    intros k m WB CK mk HM d e fuel l1 l2 Hf H Hm. destruct (HM d) as (M1 & M2 & M3). destruct (HM (d ++ e)) as (N1 & N2 & N3). pose proof Hf as Hf'. rewrite app_length in Hf'.
    apply (tokens_tb AO k WB _ _ _ M1 M2) in H; [|rewrite M3; lia]. rewrite M3 in H. destruct (tokens_kept _ _ WB CK l1 l2 d e H Hm) as (l' & Hl'). exists l'.
    apply (tokens_tb AO k WB _ _ _ N1 N2); [rewrite N3; exact Hf|]. rewrite N3. exact Hl'.
  Qed.
End Api.

(** ESC ] again and again: each byte is a token, until a BEL makes one token of all. *)
Fixpoint opens (n : nat) : bytes := match n with O => [] | S n' => 0x1B%N :: 0x5D%N :: opens n' end.
Fixpoint apart (n : nat) : list bytes := match n with O => [] | S n' => [0x1B%N] :: [0x5D%N] :: apart n' end.
Lemma opens_length : forall n, length (opens n) = 2 * n.
Proof. induction n as [|n IH]; [reflexivity|]. cbn [opens length]. lia. Qed.
Lemma apart_length : forall n, length (apart n) = 2 * n.
Proof. induction n as [|n IH]; [reflexivity|]. cbn [apart length]. lia. Qed.
Lemma osc_open : forall n i, oscLoop (opens n) i = None.
Proof.
  induction n as [|n IH]; intros i; [reflexivity|]. cbn [opens oscLoop].
  change (0x1B =? bel)%N with false. change ((0x1B =? can) || (0x1B =? sub))%N with false. change (0x1B =? esc)%N with true. change (0x5D =? 0x5C)%N with false.
  change (0x5D =? bel)%N with false. change ((0x5D =? can) || (0x5D =? sub))%N with false. change (0x5D =? esc)%N with false. cbn [andb]. apply IH.
Qed.
Lemma osc_closed : forall n i, oscLoop (opens n ++ [0x07%N]) i = Some (i + 2 * n + 1).
Proof.
  induction n as [|n IH]; intros i; [cbn; f_equal; lia|]. cbn [opens oscLoop app].
  change (0x1B =? bel)%N with false. change ((0x1B =? can) || (0x1B =? sub))%N with false. change (0x1B =? esc)%N with true. change (0x5D =? 0x5C)%N with false.
  change (0x5D =? bel)%N with false. change ((0x5D =? can) || (0x5D =? sub))%N with false. change (0x5D =? esc)%N with false. cbn [andb]. rewrite IH. f_equal. lia.
Qed.
Lemma g_pair : forall a b t, Graphemes.splitFunc [a; b] false = Ok (e_done 1 [a]) -> Graphemes.splitFunc (a :: b :: t) true = Ok (e_done 1 [a]).
Proof.
  intros a b t H. destruct (so_stream _ GraphemesEngine.g_split_ok [a; b]) as [E|(n & Hn & E & HA)]; rewrite H in E; [discriminate|]. unfold e_done in E. injection E as E E2. assert (n = 1) as -> by lia. exact (HA t true).
Qed.
Lemma open_apart : forall n, tokens_by (g_isplit true false) (opens n) (apart n).
Proof.
  induction n as [|n IH]; [constructor|]. cbn [opens apart].
  apply (by_cons (g_isplit true false) (0x1B :: 0x5D :: opens n)%N 1); [|cbn [length]; lia|].
  - unfold g_isplit. cbn [andb]. change (0x1B =? esc)%N with true. cbv iota. cbv zeta. unfold ansiEscapeLength. change (negb (0x1B =? esc)%N) with false. change (0x5D =? 0x5B)%N with false. change (0x5D =? 0x5D)%N with true. cbv iota.
    unfold oscLength. rewrite osc_open. cbn [Nat.ltb Nat.leb]. apply g_pair. vm_compute. reflexivity.
  - cbn [skipn]. apply (by_cons (g_isplit true false) (0x5D :: opens n)%N 1); [|cbn [length]; lia|cbn [skipn]; exact IH].
    rewrite gi_plain by (intros; discriminate). destruct n as [|n]; [vm_compute; reflexivity|]. cbn [opens]. apply g_pair. vm_compute. reflexivity.
Qed.
Lemma closed_whole : forall n, tokens_by (g_isplit true false) (opens (S n) ++ [0x07%N]) [opens (S n) ++ [0x07%N]].
Proof.
  intros n. set (d := opens (S n) ++ [0x07%N]). assert (HL : length d = 2 * n + 3). { unfold d. rewrite app_length, opens_length. cbn [length]. lia. }
  replace [d] with (firstn (length d) d :: []) by (rewrite firstn_all; reflexivity). constructor; [|lia|rewrite skipn_all; constructor].
  assert (HE : ansiEscapeLength d = length d).
  { rewrite HL. unfold d. cbn [opens app]. unfold ansiEscapeLength. change (negb (0x1B =? esc)%N) with false. change (0x5D =? 0x5B)%N with false. change (0x5D =? 0x5D)%N with true. cbv iota. unfold oscLength. rewrite osc_closed. lia. }
  unfold g_isplit. cbn [andb]. unfold d at 1. cbn [opens app]. change (0x1B =? esc)%N with true. cbv iota. cbv zeta. rewrite HE, HL. replace (0 <? 2 * n + 3) with true by (symmetry; apply Nat.ltb_lt; lia). reflexivity.
Qed.
Lemma ansi_append : forall k, exists d e fuel l1 l2, length (d ++ e) < fuel /\ tokens graphemes_api fuel (Graphemes.setAnsi (Graphemes.FromBytes d) true false) = Ok (l1 ++ l2) /\ k <= length l2
  /\ tokens graphemes_api fuel (Graphemes.setAnsi (Graphemes.FromBytes (d ++ e)) true false) = Ok [d ++ e] /\ l1 = [[0x1B%N]] /\ length d = 2 * k + 2.
Proof.
  intros k. exists (opens (S k)), [0x07%N], (2 * k + 4), [[0x1B%N]], ([0x5D%N] :: apart k). assert (HL : length (opens (S k) ++ [0x07%N]) = 2 * k + 3) by (rewrite app_length, opens_length; cbn [length]; lia).
  split; [lia|]. split. { apply (tb_tokens true false). exact (open_apart (S k)). rewrite opens_length. lia. } split; [cbn [length]; rewrite apart_length; lia|].
  split. { apply (tb_tokens true false); [apply closed_whole|lia]. } split; [reflexivity|]. rewrite opens_length. lia.
Qed.
