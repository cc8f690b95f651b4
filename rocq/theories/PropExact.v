(** C93: exactly where sentences end. *)
From Verif Require Import Base ListFacts SpecUtf8 SpecIter SpecApi SpecRules SpecUcd SpecNest SpecSentences SpecStop SpecExact RuleFacts SegFacts NestFacts Conform ApiInst PropConform ExactFacts.
From Verif Require Sentences.

(** There is a sentence boundary between [s] and [y :: a] exactly if [s] ends with a separator (and not in the middle of CR LF), or [s] ends with a terminator, closing characters and spaces
    and nothing stands against it: [y] can begin a sentence; it is not another closing character; not a digit right after a full stop; not a capital right after a letter and a full stop;
    and not, after a full stop, a text whose first letter is small. *)
Theorem C93_exactly : forall s y a fuel, scalars (s ++ y :: a) -> s <> [] -> length (encode (s ++ y :: a)) < fuel ->
  exists toks, tokens sentences_api fuel (Sentences.FromBytes (encode (s ++ y :: a))) = Ok toks
    /\ (boundary toks (length (encode s)) <-> sentence_ends s y a).
Proof.
  intros s y a fuel Hs Ns Hf. destruct (C07_sentences_are_uax29 _ fuel Hs Hf) as (segs & E & G & _). exists (map encode segs). split; [exact E|].
  rewrite (seg_boundary _ _ segs G s (y :: a) Ns ltac:(discriminate) eq_refl). apply exact. exact Ns.
Qed.
Print Assumptions C93_exactly.

(** "Oh! " and "o": an end. "3." and "5", "U." and "S", "Mr." and ")", "e.g. " and "(this": none. A line feed: always. *)
Lemma not_sep : forall s x, ~ separator x -> ~ ends_separated (s ++ [x]).
Proof. intros s x N (s' & c & E & H). apply app_inj_tail in E as [_ <-]. contradiction. Qed.
Example C93_case :
  (sentence_ends [79; 104; 33; 32] 111 [] /\ ~ sentence_ends [51; 46] 53 [] /\ ~ sentence_ends [85; 46] 83 [] /\ ~ sentence_ends [77; 114; 46] 41 []
  /\ ~ sentence_ends [101; 46; 103; 46; 32] 40 [116] /\ sentence_ends [97; 10] 98 [])%N.
Proof.
  assert (DOT : forall p : text, ends_dot (p ++ [46%N])) by (intros p; exists p, 46%N, []; split; [reflexivity|]; split; [vm_compute; reflexivity|constructor]).
  split; [|split; [|split; [|split; [|split]]]].
  - right. split; [exists [79; 104]%N, 33%N, [32]%N; split; [reflexivity|]; split; [right; vm_compute; reflexivity|]; exists [], [32]%N; split; [reflexivity|]; split; [constructor|constructor; [left; vm_compute; reflexivity|constructor]]|].
    split; [unfold may_begin, s_mark, separator, terminator, full_stop; vm_compute; intuition discriminate|]. split; [intros [_ H]; vm_compute in H; discriminate H|]. split; [intros [_ H]; vm_compute in H; discriminate H|].
    split; [intros [_ H]; vm_compute in H; discriminate H|]. intros [(p & t & cs & E & Ft & _) _].
    assert (A : forallb (fun c => negb (sb_beq (SB c) SB_ATerm)) [79; 104; 33; 32]%N = true) by (vm_compute; reflexivity). rewrite forallb_forall in A. specialize (A t). rewrite E in A. specialize (A ltac:(apply in_or_app; right; left; reflexivity)). unfold full_stop in Ft. rewrite Ft in A. discriminate A.
  - intros [[H _]|(_ & _ & _ & H & _)]; [revert H; apply (not_sep [51]%N); unfold separator; vm_compute; intuition discriminate|]. apply H. split; [exact (DOT [51]%N)|vm_compute; reflexivity].
  - intros [[H _]|(_ & _ & _ & _ & H & _)]; [revert H; apply (not_sep [85]%N); unfold separator; vm_compute; intuition discriminate|]. apply H. split; [|vm_compute; reflexivity].
    exists [85]%N, [46]%N. split; [reflexivity|]. split; [exists [], 85%N, []; split; [reflexivity|]; split; [left; vm_compute; reflexivity|constructor]|]. exists 46%N, []. split; [reflexivity|]. split; [vm_compute; reflexivity|constructor].
  - intros [[H _]|(_ & _ & H & _)]; [revert H; apply (not_sep [77; 114]%N); unfold separator; vm_compute; intuition discriminate|]. apply H. split; [|vm_compute; reflexivity].
    exists [77; 114]%N, 46%N, []. split; [reflexivity|]. split; [left; vm_compute; reflexivity|constructor].
  - intros [[H _]|(_ & _ & _ & _ & _ & H)]; [revert H; apply (not_sep [101; 46; 103; 46]%N); unfold separator; vm_compute; intuition discriminate|]. apply H. split.
    + exists [101; 46; 103]%N, 46%N, [32]%N. split; [reflexivity|]. split; [vm_compute; reflexivity|]. exists [], [32]%N. split; [reflexivity|]. split; [constructor|constructor; [left; vm_compute; reflexivity|constructor]].
    + exists [40]%N, 116%N, []. split; [reflexivity|]. split; [vm_compute; reflexivity|]. constructor; [|constructor]. unfold separator, terminator, full_stop. vm_compute. intuition discriminate.
  - left. split; [exists [97]%N, 10%N; split; [reflexivity|]; right; right; vm_compute; reflexivity|]. intros [_ H]. vm_compute in H. discriminate H.
Qed.
