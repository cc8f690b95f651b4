(** C90: how sentences end, and how the next one begins. *)
From Verif Require Import Base ListFacts SpecUtf8 SpecIter SpecApi SpecRules SpecUcd SpecSentences SpecStop RuleFacts SegFacts Conform ApiInst PropConform PropPieces GenTestsFacts GreedyFacts SpaceFacts StopFacts.
From Verif Require Graphemes Words Sentences Phrases.

Lemma s_suffix : forall pre suf cps, scalars cps -> segmentation sentence_decides cps (pre ++ suf) -> segmentation sentence_decides (concat suf) suf.
Proof.
  induction pre as [|s pre IH]; intros suf cps Hs G; [cbn [app] in G; rewrite (proj1 G); exact G|]. pose proof (proj1 G) as E. cbn [app concat] in E. subst cps.
  destruct (seg_tail (fun fuel d => tokens sentences_api fuel (Sentences.FromBytes d)) _ C07_sentences_are_uax29 C48_sentences s _ _ Hs G) as [_ G2]. apply Forall_app in Hs as [_ Hs]. exact (IH suf _ Hs G2).
Qed.
(** Every sentence but the last ends with a separator, or with a terminator and closing characters and spaces. In the latter case the next sentence does not begin with a mark,
    a space, a separator, a terminator or a comma; and after a full stop its first letter is not a small one. *)
Theorem C90_ends : forall cps fuel, scalars cps -> length (encode cps) < fuel ->
  exists segs, tokens sentences_api fuel (Sentences.FromBytes (encode cps)) = Ok (map encode segs) /\ concat segs = cps
    /\ forall pre s next post, segs = pre ++ s :: next :: post ->
         ends_separated s
         \/ ends_stopped s /\ (exists y t, next = y :: t /\ may_begin y) /\ (ends_full_stop s -> ~ goes_on_small (concat (next :: post))).
Proof.
  intros cps fuel Hs Hf. destruct (C07_sentences_are_uax29 cps fuel Hs Hf) as (segs & E & G & _). exists segs. split; [exact E|]. split; [exact (proj1 G)|]. intros pre s next post ->.
  pose proof (s_suffix pre (s :: next :: post) cps Hs G) as G2. destruct G2 as (_ & F & B). inversion F as [|? ? Ns F']; subst. inversion F' as [|? ? Nn _]; subst. destruct next as [|y t]; [contradiction|].
  assert (D : sentence_decides s (y :: t ++ concat post) Break). { apply B; [exact Ns|discriminate|reflexivity|]. exists [s], ((y :: t) :: post). split; [reflexivity|]. cbn [concat]. apply app_nil_r. }
  destruct (stop_break _ _ D) as [S|S]; [left; exact S|]. destruct (exists_last Ns) as (s0 & x & Ex). destruct (para_sep x) eqn:K; [left; exists s0, x; split; [exact Ex|apply sep_iff; exact K]|]. right. split; [exact S|].
  assert (NS : ~ ends_separated s). { intros (s' & c & E1 & E2). rewrite Ex in E1. apply app_inj_tail in E1 as [_ <-]. apply sep_iff in E2. congruence. }
  destruct (stop_next s y _ Ns NS D) as [M1 M2]. split; [exists y, t; auto|exact M2].
Qed.
Print Assumptions C90_ends.
(** A text without terminators and separators is one sentence. *)
Theorem C90_one : forall cps fuel, scalars cps -> cps <> [] -> Forall (fun c => ~ terminator c /\ ~ separator c) cps -> length (encode cps) < fuel ->
  tokens sentences_api fuel (Sentences.FromBytes (encode cps)) = Ok [encode cps].
Proof.
  intros cps fuel Hs Ns F Hf. destruct (C90_ends cps fuel Hs Hf) as (segs & E & C & B). destruct segs as [|s [|n post]].
  - elim Ns. symmetry. exact C.
  - cbn [concat] in C. rewrite app_nil_r in C. subst s. exact E.
  - exfalso. assert (I : forall c, In c s -> In c cps) by (intros c I; rewrite <- C; cbn [concat]; apply in_or_app; left; exact I). rewrite Forall_forall in F.
    destruct (B [] s n post eq_refl) as [(s' & c & -> & S)|[(p & t & cs & -> & T & _) _]].
    + apply (proj2 (F c (I c ltac:(apply in_or_app; right; left; reflexivity)))). exact S.
    + apply (proj1 (F t (I t ltac:(apply in_or_app; right; left; reflexivity)))). exact T.
Qed.
Print Assumptions C90_one.

(** After a terminator, closing characters and a space, a sentence does end, unless the next character cannot begin one, or the terminator is a full stop and the next letter a small one. *)
Theorem C90_breaks : forall s y a fuel, scalars s -> scalars (y :: a) -> ends_spaced s -> may_begin y -> (ends_full_stop s -> ~ goes_on_small (y :: a)) -> length (encode (s ++ y :: a)) < fuel ->
  exists ls la, tokens sentences_api fuel (Sentences.FromBytes (encode s)) = Ok ls /\ tokens sentences_api fuel (Sentences.FromBytes (encode (y :: a))) = Ok la
    /\ tokens sentences_api fuel (Sentences.FromBytes (encode (s ++ y :: a))) = Ok (ls ++ la).
Proof.
  intros s y a fuel Hs Ha E M G Hf. apply (cut_at (fun fuel d => tokens sentences_api fuel (Sentences.FromBytes d)) _ C07_sentences_are_uax29 C48_sentences); [exact Hs|exact Ha| |exact Hf]. intros _ _. exact (stop_spaced s y a E M G).
Qed.
Print Assumptions C90_breaks.

(** "Is it 3.5? (Yes.) No." *)
Definition text90 : text := [73; 115; 32; 105; 116; 32; 51; 46; 53; 63; 32; 40; 89; 101; 115; 46; 41; 32; 78; 111; 46]%N.
Example C90_case : scalars text90
  /\ tokens sentences_api 60 (Sentences.FromBytes (encode text90)) = Ok (map encode [[73; 115; 32; 105; 116; 32; 51; 46; 53; 63; 32]; [40; 89; 101; 115; 46; 41; 32]; [78; 111; 46]]%N)
  /\ ends_stopped [73; 115; 32; 105; 116; 32; 51; 46; 53; 63; 32]%N /\ ends_full_stop [40; 89; 101; 115; 46; 41; 32]%N /\ may_begin 40%N /\ goes_on_small [40; 121]%N.
Proof.
  split; [repeat (constructor; [unfold scalar; lia|]); constructor|]. split; [vm_compute; reflexivity|]. split; [|split; [|split]].
  - exists [73; 115; 32; 105; 116; 32; 51; 46; 53]%N, 63%N, [32]%N. split; [reflexivity|]. split; [right; vm_compute; reflexivity|]. exists [], [32]%N. split; [reflexivity|]. split; [constructor|]. constructor; [left; vm_compute; reflexivity|constructor].
  - exists [40; 89; 101; 115]%N, 46%N, [41; 32]%N. split; [reflexivity|]. split; [vm_compute; reflexivity|]. exists [41]%N, [32]%N. split; [reflexivity|]. split; (constructor; [left; vm_compute; reflexivity|constructor]).
  - unfold may_begin, s_mark, separator, terminator, full_stop. vm_compute. intuition discriminate.
  - exists [40]%N, 121%N, []. split; [reflexivity|]. split; [vm_compute; reflexivity|]. constructor; [|constructor]. unfold separator, terminator, full_stop. vm_compute. intuition discriminate.
Qed.
Example C90_one_case : Forall (fun c => ~ terminator c /\ ~ separator c) [97; 44; 32; 66; 0x2014; 49]%N.
Proof. repeat (constructor; [unfold terminator, full_stop, separator; vm_compute; intuition discriminate|]). constructor. Qed.
(** "Oh! ", then "o"; "Mr. ", then "X" *)
Example C90_breaks_case : ends_spaced [79; 104; 33; 32]%N /\ may_begin 111%N /\ ~ ends_full_stop [79; 104; 33; 32]%N /\ ends_spaced [77; 114; 46; 32]%N /\ ends_full_stop [77; 114; 46; 32]%N /\ ~ goes_on_small [88]%N.
Proof.
  assert (SP : forall p t, terminator t -> ends_spaced (p ++ [t; 32])%N).
  { intros p t Ht. exists p, t, [], [32]%N. split; [reflexivity|]. split; [exact Ht|]. split; [constructor|]. split; [constructor; [left; vm_compute; reflexivity|constructor]|]. apply Exists_cons_hd. vm_compute. reflexivity. }
  split; [apply (SP [79; 104] 33)%N; right; vm_compute; reflexivity|]. split; [unfold may_begin, s_mark, separator, terminator, full_stop; vm_compute; intuition discriminate|]. split; [|split; [apply (SP [77; 114] 46)%N; left; vm_compute; reflexivity|split]].
  - intros (p & t & cs & E & Ft & _). assert (A : forallb (fun c => negb (sb_beq (SB c) SB_ATerm)) [79; 104; 33; 32]%N = true) by (vm_compute; reflexivity). rewrite forallb_forall in A. specialize (A t). rewrite E in A. specialize (A ltac:(apply in_or_app; right; left; reflexivity)). unfold full_stop in Ft. rewrite Ft in A. discriminate A.
  - exists [77; 114]%N, 46%N, [32]%N. split; [reflexivity|]. split; [vm_compute; reflexivity|]. exists [], [32]%N. split; [reflexivity|]. split; [constructor|]. constructor; [left; vm_compute; reflexivity|constructor].
  - intros (u & l & v & E & El & _). destruct u as [|? [|? u]]; try discriminate E. injection E as <- _. vm_compute in El. discriminate El.
Qed.
(** A terminator does not always end a sentence: "3.5", "e.g. this"; and after "!" the next may begin with a small letter. *)
Theorem C90_terminator_refuted : exists s s' s'', scalars s /\ scalars s' /\ scalars s'' /\
  (exists p t r y, s = p ++ t :: r ++ [y] /\ terminator t /\ tokens sentences_api 20 (Sentences.FromBytes (encode s)) = Ok [encode s])
  /\ tokens sentences_api 20 (Sentences.FromBytes (encode (s' ++ s''))) = Ok [encode s'; encode s''] /\ goes_on_small s''.
Proof.
  exists [51; 46; 53]%N, [79; 104; 33; 32]%N, [111]%N. split; [repeat (constructor; [unfold scalar; lia|]); constructor|]. split; [repeat (constructor; [unfold scalar; lia|]); constructor|]. split; [repeat (constructor; [unfold scalar; lia|]); constructor|].
  split; [exists [51]%N, 46%N, [], 53%N; split; [reflexivity|]; split; [left; vm_compute; reflexivity|vm_compute; reflexivity]|]. split; [vm_compute; reflexivity|]. exists [], 111%N, []. split; [reflexivity|]. split; [vm_compute; reflexivity|constructor].
Qed.
Print Assumptions C90_terminator_refuted.
