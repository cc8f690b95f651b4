(** C86: words may be found between the spaces, and graphemes between ASCII characters. *)
From Verif Require Import Base SpecUtf8 SpecIter SpecApi SpecRules SpecUcd SpecWords SpecGraphemes SpecSpace RuleFacts SegFacts Conform ApiInst PropConform PropPieces SpaceFacts.
From Verif Require Graphemes Words Sentences Phrases.

(** Words: the words before the spaces, the spaces as one token, the words after. *)
Theorem C86_words : forall b s a fuel, scalars b -> all_spaces s -> s <> [] -> scalars a -> ends_without is_space b -> begins_without (fun c => is_space c \/ word_mark c) a ->
  length (encode (b ++ s ++ a)) < fuel ->
  exists lb la, tokens words_api fuel (Words.FromBytes (encode b)) = Ok lb /\ tokens words_api fuel (Words.FromBytes (encode a)) = Ok la
    /\ tokens words_api fuel (Words.FromBytes (encode (b ++ s ++ a))) = Ok (lb ++ [encode s] ++ la).
Proof.
  intros b s a fuel Sb Hs Ns Sa Eb Ba Hf. pose proof (space_scalar s Hs) as Ss.
  destruct (cut_three (fun fuel d => tokens words_api fuel (Words.FromBytes d)) _ C06_words_are_uax29 C48_words_plain b s a fuel Sb Ss Sa Ns) as (lb & ls & la & E1 & E2 & E3 & E4); [| |exact Hf|].
  - intros Nb. destruct (exists_last Nb) as (b' & x & ->). destruct s as [|y s]; [contradiction|]. inversion Hs as [|? ? Iy _]; subst. cbn [app]. apply w_before; [|exact Iy]. intros Q. exact (Eb b' x eq_refl (spaces_all x Q)).
  - intros Na. destruct a as [|y a]; [contradiction|]. destruct (exists_last Ns) as (s' & x & ->). unfold all_spaces in Hs. apply Forall_app in Hs as [_ Hs]. inversion Hs as [|? ? Ix _]; subst. pose proof (Ba y a eq_refl) as N.
    apply w_after; [exact Ix|intros Q; apply N; left; exact (spaces_all y Q)|intros Q; apply N; right; exact Q].
  - exists lb, la. split; [exact E1|]. split; [exact E3|]. destruct (C06_words_are_uax29 s fuel Ss) as (l & E & _ & U); [rewrite !encode_app, !app_length in Hf; lia|].
    rewrite <- (U _ (spaces_word s Hs Ns)) in E. rewrite E in E2. injection E2 as <-. exact E4.
Qed.
Print Assumptions C86_words.
(** Graphemes: every space by itself. *)
Theorem C86_graphemes : forall b s a fuel, scalars b -> all_spaces s -> s <> [] -> scalars a -> ends_without prepended b -> begins_without cluster_mark a ->
  length (encode (b ++ s ++ a)) < fuel ->
  exists lb la, tokens graphemes_api fuel (Graphemes.FromBytes (encode b)) = Ok lb /\ tokens graphemes_api fuel (Graphemes.FromBytes (encode a)) = Ok la
    /\ tokens graphemes_api fuel (Graphemes.FromBytes (encode (b ++ s ++ a))) = Ok (lb ++ map (fun c => encode [c]) s ++ la).
Proof.
  intros b s a fuel Sb Hs Ns Sa Eb Ba Hf. pose proof (space_scalar s Hs) as Ss.
  destruct (cut_three (fun fuel d => tokens graphemes_api fuel (Graphemes.FromBytes d)) _ C05_graphemes_are_uax29 C48_graphemes b s a fuel Sb Ss Sa Ns) as (lb & ls & la & E1 & E2 & E3 & E4); [| |exact Hf|].
  - intros Nb. destruct (exists_last Nb) as (b' & x & ->). destruct s as [|y s]; [contradiction|]. inversion Hs as [|? ? Iy _]; subst. cbn [app]. apply g_before; [exact (Eb b' x eq_refl)|exact (space_g y Iy)].
  - intros Na. destruct a as [|y a]; [contradiction|]. destruct (exists_last Ns) as (s' & x & ->). unfold all_spaces in Hs. apply Forall_app in Hs as [_ Hs]. inversion Hs as [|? ? Ix _]; subst.
    apply g_after; [exact (space_g x Ix)|exact (Ba y a eq_refl)].
  - exists lb, la. split; [exact E1|]. split; [exact E3|]. destruct (C05_graphemes_are_uax29 s fuel Ss) as (l & E & _ & U); [rewrite !encode_app, !app_length in Hf; lia|].
    rewrite <- (U _ (spaces_g s Hs)) in E. rewrite E in E2. injection E2 as <-. rewrite map_map in E4. exact E4.
Qed.
Print Assumptions C86_graphemes.
(** Graphemes: a text may be cut between any two ASCII characters that are not CR LF. *)
Theorem C86_graphemes_ascii : forall b x y a fuel, scalars b -> scalars a -> (x < 128)%N -> (y < 128)%N -> ~ (x = 13 /\ y = 10)%N -> length (encode ((b ++ [x]) ++ y :: a)) < fuel ->
  exists lb la, tokens graphemes_api fuel (Graphemes.FromBytes (encode (b ++ [x]))) = Ok lb /\ tokens graphemes_api fuel (Graphemes.FromBytes (encode (y :: a))) = Ok la
    /\ tokens graphemes_api fuel (Graphemes.FromBytes (encode ((b ++ [x]) ++ y :: a))) = Ok (lb ++ la).
Proof.
  intros b x y a fuel Sb Sa Lx Ly N Hf. apply (cut_at (fun fuel d => tokens graphemes_api fuel (Graphemes.FromBytes d)) _ C05_graphemes_are_uax29 C48_graphemes); [| | |exact Hf].
  - apply Forall_app. split; [exact Sb|]. constructor; [left; lia|constructor].
  - constructor; [left; lia|exact Sa].
  - intros _ _. exact (g_ascii b x y a Lx Ly N).
Qed.
Print Assumptions C86_graphemes_ascii.

(** "can't", two spaces, "3.5" *)
Example C86_case : all_spaces [32; 0x3000]%N /\ ends_without is_space [99; 97; 110; 39; 116]%N /\ begins_without (fun c => is_space c \/ word_mark c) [51; 46; 53]%N
  /\ ends_without prepended [99; 97; 110; 39; 116]%N /\ begins_without cluster_mark [51; 46; 53]%N
  /\ tokens words_api 30 (Words.FromBytes (encode ([99; 97; 110; 39; 116] ++ [32; 0x3000] ++ [51; 46; 53])%N)) = Ok (map encode [[99; 97; 110; 39; 116]; [32; 0x3000]; [51; 46; 53]]%N).
Proof.
  split; [repeat (constructor; [vm_compute; tauto|]); constructor|].
  split; [intros t' c E; change [99; 97; 110; 39; 116]%N with ([99; 97; 110; 39] ++ [116])%N in E; apply app_inj_tail in E as [_ <-]; vm_compute; intuition discriminate|].
  split; [intros c t' E; injection E as <- _; intros [Q|Q]; [vm_compute in Q; intuition discriminate|unfold word_mark in Q; vm_compute in Q; intuition discriminate]|].
  split; [intros t' c E; change [99; 97; 110; 39; 116]%N with ([99; 97; 110; 39] ++ [116])%N in E; apply app_inj_tail in E as [_ <-]; unfold prepended; vm_compute; discriminate|].
  split; [intros c t' E; injection E as <- _; unfold cluster_mark; vm_compute; intuition discriminate|]. vm_compute. reflexivity.
Qed.
(** The list of spaces is that of the standard. *)
Theorem C86_spaces : forall c, In c spaces <-> WB c = WB_WSegSpace.
Proof. intros c. split; [intros I; exact (proj1 (space_wb c I))|exact (spaces_all c)]. Qed.
Print Assumptions C86_spaces.

(** Sentences and phrases reach over spaces: "a b" is one of each. And a combining mark after a space belongs to it. *)
Theorem C86_refuted : exists b a, scalars b /\ scalars a /\
  tokens sentences_api 20 (Sentences.FromBytes (encode (b ++ [32%N] ++ a))) = Ok [encode (b ++ [32%N] ++ a)] /\ tokens phrases_api 20 (Phrases.FromBytes (encode (b ++ [32%N] ++ a))) = Ok [encode (b ++ [32%N] ++ a)]
  /\ tokens words_api 20 (Words.FromBytes (encode (b ++ [32%N] ++ 0x301%N :: a))) = Ok [encode b; encode [32; 0x301]%N; encode a].
Proof. exists [97]%N, [98]%N. split; [constructor; [left; lia|constructor]|]. split; [constructor; [left; lia|constructor]|]. repeat split; vm_compute; reflexivity. Qed.
Print Assumptions C86_refuted.
