(** C94: with middle joiners, too, boundaries are settled locally. *)
From Verif Require Import Base ListFacts SpecUtf8 SpecIter SpecApi SpecRules SpecUcd SpecNest SpecLocal SpecJoined RuleFacts SegFacts NestFacts Conform ApiInst PropConform PropPieces PropJoined SpaceFacts LocalFacts JoinedLocal PropLocal PropResume.
From Verif Require Words JoinersBounds.
Import Words.

Definition joined_tokens (middle : list N) (fuel : nat) (d : bytes) : res (list bytes) := tokens words_api fuel (setJoiners (FromBytes d) (Some {| Middle := middle; Leading := [] |})).
Lemma not_listed : forall l r, ~ In r l -> listed l r = false.
Proof. intros l r N. destruct (listed l r) eqn:E; [|reflexivity]. elim N. apply JoinersBounds.listed_in. exact E. Qed.

(** Words with middle joiners: whether there is a boundary between [near] and [next] does not depend on the text further away, if both hold a settling character that is not one of the joiners. *)
Theorem C94_local : forall middle b b' near next a a' fuel fuel', ~ In 0x20%N middle -> scalars (b ++ near ++ next ++ a) -> scalars (b' ++ near ++ next ++ a') ->
  Exists (fun c => w_settles_left c /\ ~ In c middle) near -> Exists (fun c => w_settles c /\ ~ In c middle) next ->
  length (encode (b ++ near ++ next ++ a)) < fuel -> length (encode (b' ++ near ++ next ++ a')) < fuel' ->
  exists toks toks', joined_tokens middle fuel (encode (b ++ near ++ next ++ a)) = Ok toks /\ joined_tokens middle fuel' (encode (b' ++ near ++ next ++ a')) = Ok toks'
    /\ (boundary toks (length (encode (b ++ near))) <-> boundary toks' (length (encode (b' ++ near)))).
Proof.
  intros middle b b' near next a a' fuel fuel' HM Hs Hs' X Z Hf Hf'. apply Exists_exists in X as (x & I & S & Mx). apply Exists_exists in Z as (z & J & S' & Mz).
  refine (local (joined_tokens middle) (joined_decides (listed middle)) _ b b' near next a a' fuel fuel' Hs Hs' ltac:(some_in I) ltac:(some_in J) _ Hf Hf').
  - intros cps f H1 H2. exact (C35_exact middle cps f HM H1 H2).
  - intros c c' e e' o. apply (j_local (listed middle) c c' near x next z e e' o I S (not_listed _ _ Mx) J S' (not_listed _ _ Mz)).
Qed.
Print Assumptions C94_local.

(** ... and a boundary found in [near ++ next] by itself is a place where any text that holds it may be cut in two. *)
Theorem C94_cut : forall middle b near next a fuel0 toks fuel, ~ In 0x20%N middle -> scalars b -> scalars near -> scalars next -> scalars a ->
  Exists (fun c => w_settles_left c /\ ~ In c middle) near -> Exists (fun c => w_settles c /\ ~ In c middle) next ->
  length (encode (near ++ next)) < fuel0 -> joined_tokens middle fuel0 (encode (near ++ next)) = Ok toks -> boundary toks (length (encode near)) ->
  length (encode ((b ++ near) ++ next ++ a)) < fuel ->
  exists before after, joined_tokens middle fuel (encode (b ++ near)) = Ok before /\ joined_tokens middle fuel (encode (next ++ a)) = Ok after
    /\ joined_tokens middle fuel (encode ((b ++ near) ++ next ++ a)) = Ok (before ++ after).
Proof.
  intros middle b near next a fuel0 toks fuel HM Sb Sn Sx Sa X Z Hf0 E B Hf. apply Exists_exists in X as (x & I & S & Mx). apply Exists_exists in Z as (z & J & S' & Mz).
  assert (C : forall cps f, scalars cps -> length (encode cps) < f -> exists segs, joined_tokens middle f (encode cps) = Ok (map encode segs) /\ segmentation (joined_decides (listed middle)) cps segs
    /\ forall segs', segmentation (joined_decides (listed middle)) cps segs' -> segs' = segs).
  { intros cps f H1 H2. destruct (C35_exact middle cps f HM H1 H2) as (segs & E1 & G). exists segs. split; [exact E1|]. split; [exact G|]. intros segs' G'. exact (segmentation_unique _ _ _ _ G' G). }
  refine (cut_at (joined_tokens middle) (joined_decides (listed middle)) C (C48_words (Some {| Middle := middle; Leading := [] |})) (b ++ near) (next ++ a) fuel _ _ _ Hf); [apply Forall_app; auto|apply Forall_app; auto|]. intros _ _.
  assert (K : joined_decides (listed middle) near next Break) by (refine (stretch_break (joined_tokens middle) _ C near next fuel0 toks _ ltac:(some_in I) ltac:(some_in J) Hf0 E B); apply Forall_app; auto).
  pose proof (j_local (listed middle) [] b near x next z [] a Break I S (not_listed _ _ Mx) J S' (not_listed _ _ Mz)) as L. rewrite app_nil_r in L. exact (L K).
Qed.
Print Assumptions C94_cut.

(** "a-" and "b" with the hyphen in the middle: joined; "a-" and " b": cut. *)
Example C94_case : (Exists (fun c => w_settles_left c /\ ~ In c [45]) [97; 45] /\ Exists (fun c => w_settles c /\ ~ In c [45]) [32; 98]
  /\ joined_tokens [45] 9 (encode ([97; 45] ++ [98])) = Ok [[97; 45; 98]] /\ joined_tokens [45] 9 (encode ([97; 45] ++ [32; 98])) = Ok ([[97]; [45]] ++ [[32]; [98]]))%N.
Proof.
  split; [apply Exists_cons_hd; unfold w_settles_left, w_settles; split; [vm_compute; intuition discriminate|intros [H|[]]; discriminate H]|].
  split; [apply Exists_cons_hd; unfold w_settles; split; [vm_compute; intuition discriminate|intros [H|[]]; discriminate H]|]. split; vm_compute; reflexivity.
Qed.
(** A joiner does not settle anything: "-" and "b" come apart, but not after "a". *)
Theorem C94_joiner_refuted : (joined_tokens [45] 9 (encode ([45] ++ [98])) = Ok [[45]; [98]] /\ joined_tokens [45] 9 (encode ([97] ++ [45] ++ [98])) = Ok [[97; 45; 98]] /\ w_settles_left 45)%N.
Proof. split; [vm_compute; reflexivity|]. split; [vm_compute; reflexivity|]. unfold w_settles_left, w_settles. vm_compute. intuition discriminate. Qed.
Print Assumptions C94_joiner_refuted.
