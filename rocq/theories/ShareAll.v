(** All clients: nobody is disturbed. *)
From Coq Require Import String.
From Verif Require Import SpecIter SpecApi ApiInst.
From Verif Require Import Base GoSyntax GoSem SpecCode SpecCode2 SpecIterators SpecShare ShareFacts.
From Verif Require ProgGraphemes CodeGraphemes ShareG ProgSentences CodeSentences ShareS ProgPhrases CodePhrases ShareP ProgWords CodeWords ShareW Words ProgOther ShareI.
Local Open Scope string_scope.
Local Open Scope list_scope.

Lemma all_undisturbed : undisturbed ProgGraphemes.pg ProgWords.pw ProgSentences.ps ProgPhrases.pp ProgOther.pi_ 7.
Proof.
  intros nils n d max cs sched h P M R K. apply all_ok. rewrite Forall_forall in *. intros c I. destruct (P c I) as (str & Q). destruct c.
  - eapply ShareG.graphemes_local; [exact M|exact R|lia|apply Q|apply Q|reflexivity].
  - eapply ShareW.words_local; [exact M|exact R|lia|apply Q|apply Q|reflexivity].
  - eapply ShareS.sentences_local; [exact M|exact R|lia|apply Q|apply Q|reflexivity].
  - eapply ShareP.phrases_local; [exact M|exact R|lia|apply Q|apply Q|reflexivity].
  - eapply ShareI.iterators_local; [exact M|lia|apply Q|apply Q|apply Q|reflexivity].
Qed.

Definition lift (u : use (option Words.Joiners)) : use (option Words.Joiners + splitfun) :=
  match u with UNext => UNext | UValue => UValue | UStart => UStart | UEnd => UEnd | UReset => UReset | USetText t => USetText t | UFirst => UFirst | UConfig c => UConfig (inl c) end.
Lemma lift_all : forall us, (forall f, ~ In (UConfig (inr f)) us) -> exists us', us = map lift us'.
Proof.
  induction us as [|u us IH]; intros H; [exists []; reflexivity|]. destruct IH as (us' & ->). { intros f I. apply (H f). now right. }
  assert (E : exists u', u = lift u').
  { destruct u as [| | | | |t| |[j|f]]; [exists UNext|exists UValue|exists UStart|exists UEnd|exists UReset|exists (USetText t)|exists UFirst|exists (UConfig j)|]; try reflexivity. exfalso. apply (H f). now left. }
  destruct E as (u' & ->). exists (u' :: us'). reflexivity.
Qed.
Lemma lift_uses : forall p n d nils us it h, go_uses words_any p n d (words_any_config nils p n d) (map lift us) it h = go_uses words_api p n d (CodeWords.words_config nils p n d) us it h.
Proof.
  intros p n d nils. induction us as [|u us IH]; intros it h; [reflexivity|]. cbn [map go_uses].
  assert (E : go_use words_any p n d (words_any_config nils p n d) it (lift u) h = go_use words_api p n d (CodeWords.words_config nils p n d) it u h) by (destruct u; reflexivity). rewrite E.
  destruct (go_use words_api p n d (CodeWords.words_config nils p n d) it u h) as [[vs h']| | |]; try reflexivity. cbn [obind]. rewrite IH. reflexivity.
Qed.
Lemma lift_proper : forall str max us, Forall (any_use_proper str max) (map lift us) -> Forall (use_proper str max) us.
Proof. intros str max us H. rewrite Forall_forall in *. intros u I. specialize (H (lift u) (in_map lift us u I)). destruct u; exact H || exact Logic.I. Qed.
Lemma firstn_Forall : forall A (Q : A -> Prop) k l, Forall Q l -> Forall Q (firstn k l).
Proof. induction k; intros [|x l] H; cbn; try constructor; inversion H; auto. Qed.
Lemma settled_alone : forall nils n d max c k h, proper_client max c -> settled c -> (Z.of_nat max < 2 ^ 62)%Z -> (2 * max + 2 <= n)%nat -> (7 <= d)%nat ->
  exists l, alone ProgGraphemes.pg ProgWords.pw ProgSentences.ps ProgPhrases.pp ProgOther.pi_ nils n d c k h = Done l.
Proof.
  intros nils n d max c k h (str & P) S M R K. destruct c; cbn [alone].
  - destruct (CodeGraphemes.graphemes_is_model str max n d t (firstn k us) h (proj1 P) (firstn_Forall _ _ _ _ (proj2 P)) M R ltac:(lia)) as (l & _ & E). exists l. exact E.
  - cbn [settled] in S. destruct (lift_all us S) as (us' & ->). destruct P as [T P]. rewrite firstn_map. apply lift_proper in P.
    destruct (CodeWords.words_is_model nils str max n d t (firstn k us') h T (firstn_Forall _ _ _ _ P) M R K) as (l & _ & E). exists l. rewrite <- E. unfold go_client.
    destruct (call _ _ _ _ _ _) as [[[|it [|]] h']| | |]; try reflexivity. cbn [obind]. apply lift_uses.
  - destruct (CodeSentences.sentences_is_model str max n d t (firstn k us) h (proj1 P) (firstn_Forall _ _ _ _ (proj2 P)) M R ltac:(lia)) as (l & _ & E). exists l. exact E.
  - destruct (CodePhrases.phrases_is_model str max n d t (firstn k us) h (proj1 P) (firstn_Forall _ _ _ _ (proj2 P)) M R ltac:(lia)) as (l & _ & E). exists l. exact E.
  - contradiction.
Qed.
Lemma settled_ends : forall nils n d max cs sched h, Forall (proper_client max) cs -> Forall settled cs -> (Z.of_nat max < 2 ^ 62)%Z -> (2 * max + 2 <= n)%nat -> (7 <= d)%nat ->
  exists ss h', interleave ProgGraphemes.pg ProgWords.pw ProgSentences.ps ProgPhrases.pp ProgOther.pi_ nils n d cs sched (map (fun _ => nothing) cs) h = Done (ss, h').
Proof.
  intros nils n d max cs sched h P S M R K. apply (all_undisturbed nils n d max cs sched h P M R K). intros i c k E _. exists []. rewrite Forall_forall in *. apply nth_error_In in E. eapply settled_alone; eauto.
Qed.
