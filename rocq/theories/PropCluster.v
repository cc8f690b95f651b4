(** C65: grapheme clusters are the longest matches of the regular expression of UAX #29. *)
From Verif Require Import Base SpecUtf8 SpecIter SpecApi SpecRules SpecGraphemes SpecCluster SegFacts NestFacts GenTestsFacts ApiInst ClusterFacts ClusterCut ClusterAscii PropConform.
From Verif Require Graphemes.

(** The tokens of a text of scalar values are what one gets by taking the longest match of the regular expression again and again, and there is only one way to do that. *)
Theorem C65_longest : forall cps fuel, scalars cps -> length (encode cps) < fuel ->
  exists segs, tokens graphemes_api fuel (Graphemes.FromBytes (encode cps)) = Ok (map encode segs)
    /\ longest_matches extended_grapheme_cluster cps segs
    /\ forall segs', longest_matches extended_grapheme_cluster cps segs' -> segs' = segs.
Proof.
  intros cps fuel Hs Hf. destruct (C05_graphemes_are_uax29 cps fuel Hs Hf) as (segs & E & Sg & _). exists segs.
  pose proof (segments_longest segs cps Hs Sg) as Lm. split; [exact E|]. split; [exact Lm|]. exact (longest_unique _ _ _ Lm).
Qed.
Print Assumptions C65_longest.

(** A text is one token exactly when all of it matches. *)
Theorem C65_one : forall s fuel, scalars s -> length (encode s) < fuel ->
  (tokens graphemes_api fuel (Graphemes.FromBytes (encode s)) = Ok [encode s] <-> matches extended_grapheme_cluster s).
Proof.
  intros s fuel Hs Hf. rewrite (cluster_iff s Hs). split.
  - intros E. assert (Sg : segmentation grapheme_decides s [s]) by (apply (segments_of s fuel); auto). pose proof (Forall_inv (proj1 (proj2 Sg))) as Hn.
    split; [exact Hn|]. apply one_segment; auto.
  - intros (Hn & G). apply (tokens_of s fuel [s] Hs Hf). apply one_segment; auto.
Qed.
Print Assumptions C65_one.

(** ASCII text: every byte is a token, except that CR LF is one token. *)
Theorem C65_ascii : forall d fuel, Forall (fun c => (c < 128)%N) d -> length d < fuel -> tokens graphemes_api fuel (Graphemes.FromBytes d) = Ok (ascii_cut d).
Proof.
  intros d fuel F Hf. pose proof (ascii_encode d F) as E. pose proof (ascii_scalars d F) as Hs.
  destruct (C65_longest d fuel Hs ltac:(rewrite E; exact Hf)) as (segs & Et & _ & U). rewrite <- (U _ (ascii_longest _ d (le_n _) F)), E in Et. rewrite Et. f_equal.
  assert (X : Forall (Forall ascii) (ascii_cut d)).
  { apply Forall_concat_inv. rewrite (ascii_cut_concat _ d (le_n _)). exact F. }
  clear - X. induction X as [|s l Hs X IH]; [reflexivity|]. cbn [map]. rewrite IH, (ascii_encode s Hs). reflexivity.
Qed.
Print Assumptions C65_ascii.
Example C65_ascii_case : Forall (fun c => (c < 128)%N) [72; 105; 13; 10; 10; 13; 35]%N /\ ascii_cut [72; 105; 13; 10; 10; 13; 35]%N = [[72]; [105]; [13; 10]; [10]; [13]; [35]]%N.
Proof. split; [repeat (constructor; [lia|]); constructor|reflexivity]. Qed.

(** Two prepended marks, family of three with a skin tone, a spacing mark; KSSA with virama; CR LF; a Hangul syllable of four jamo; three regional indicators. *)
Definition texts65 : list text := [[0x600; 0x600; 0x1F469; 0x1F3FB; 0x200D; 0x1F466; 0x903]; [0x915; 0x94D; 0x200D; 0x937; 0x93F]; [13; 10]; [0x1100; 0x1100; 0x1161; 0x11A8]; [0x1F1E6; 0x1F1E7]; [0x1F1E8]]%N.
Example C65_case : scalars (concat texts65) /\ length (encode (concat texts65)) < 100
  /\ tokens graphemes_api 100 (Graphemes.FromBytes (encode (concat texts65))) = Ok (map encode texts65) /\ longest_matches extended_grapheme_cluster (concat texts65) texts65.
Proof.
  assert (Hs : scalars (concat texts65)) by (repeat (constructor; [unfold scalar; lia|]); constructor).
  assert (Hf : length (encode (concat texts65)) < 100) by (vm_compute; lia).
  assert (Ht : tokens graphemes_api 100 (Graphemes.FromBytes (encode (concat texts65))) = Ok (map encode texts65)) by (vm_compute; reflexivity).
  repeat split; auto. apply segments_longest; [exact Hs|]. apply (segments_of _ 100); auto. repeat (constructor; [repeat (constructor; [unfold scalar; lia|]); constructor|]). constructor.
Qed.
