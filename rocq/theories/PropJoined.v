(** C34 - C36: what words.Joiners do to the boundaries. *)
From Verif Require Import Base ListFacts SpecUtf8 SpecUcd SpecIter SpecApi SpecRules SpecWords SpecJoined SpecNest SpecJoiners ApiInst JoinersBounds NestFacts.
From Verif Require Words.
Import Words.

(** ** C34: joiners only join *)
Theorem C34_iterator : forall j cps fuel, scalars cps -> length (encode cps) < fuel -> exists l l',
  tokens words_api fuel (FromBytes (encode cps)) = Ok l /\ tokens words_api fuel (setJoiners (FromBytes (encode cps)) j) = Ok l'
  /\ made_of l' l /\ forall k, boundary l' k -> boundary l k.
Proof. exact joiners_coarser. Qed.
Print Assumptions C34_iterator.
(** The split function given to a Scanner. *)
Theorem C34_splitfunc : forall j cps, scalars cps -> exists l l', tokens_by (joinersSplitFunc None) (encode cps) l
  /\ tokens_by (joinersSplitFunc j) (encode cps) l' /\ made_of l' l.
Proof. exact split_coarser. Qed.
Print Assumptions C34_splitfunc.
(** "a-b #c" with - in the middle and # leading *)
Definition hyphen_hash : option Joiners := Some {| Middle := [45]; Leading := [35] |}%N.
Example C34_case : scalars [97; 45; 98; 32; 35; 99]%N
  /\ tokens words_api 20 (FromBytes (encode [97; 45; 98; 32; 35; 99]%N)) = Ok [[97]; [45]; [98]; [32]; [35]; [99]]%N
  /\ tokens words_api 20 (setJoiners (FromBytes (encode [97; 45; 98; 32; 35; 99]%N)) hyphen_hash) = Ok [[97; 45; 98]; [32]; [35; 99]]%N.
Proof. split; [repeat (constructor; [unfold scalar; lia|]); constructor|]. split; vm_compute; reflexivity. Qed.

(** ** C35: middle joiners *)
(** With middle joiners only (and not the space) the tokens are exactly the segments under the extended rules. *)
Theorem C35_exact : forall middle cps fuel, ~ In 0x20%N middle -> scalars cps -> length (encode cps) < fuel ->
  exists segs, tokens words_api fuel (setJoiners (FromBytes (encode cps)) (Some {| Middle := middle; Leading := [] |})) = Ok (map encode segs)
    /\ segmentation (joined_decides (listed middle)) cps segs.
Proof. exact middle_exact. Qed.
Print Assumptions C35_exact.
(** Whatever the joiners and the text around: no boundary on either side of a middle joiner between two letters or two digits. *)
Theorem C35_context : forall jj p u r v q fuel, scalars (p ++ u :: r :: v :: q) -> length (encode (p ++ u :: r :: v :: q)) < fuel ->
  In r (Middle jj) -> r <> 0x20%N -> line_end r = false -> (letter u /\ letter v) \/ (digit u /\ digit v) ->
  exists l, tokens words_api fuel (setJoiners (FromBytes (encode (p ++ u :: r :: v :: q))) (Some jj)) = Ok l
    /\ ~ boundary l (length (encode (p ++ [u]))) /\ ~ boundary l (length (encode (p ++ [u; r]))).
Proof. exact middle_joins. Qed.
Print Assumptions C35_context.
(** Two words of letters and digits, the characters next to the joiner alike: one token. *)
Theorem C35_one_token : forall jj us u r v vs fuel, scalars (us ++ u :: r :: v :: vs) -> length (encode (us ++ u :: r :: v :: vs)) < fuel ->
  In r (Middle jj) -> r <> 0x20%N -> line_end r = false -> (letter u /\ letter v) \/ (digit u /\ digit v) ->
  Forall (fun c => letter c \/ digit c) us -> Forall (fun c => letter c \/ digit c) vs ->
  tokens words_api fuel (setJoiners (FromBytes (encode (us ++ u :: r :: v :: vs))) (Some jj)) = Ok [encode (us ++ u :: r :: v :: vs)].
Proof. exact middle_one. Qed.
Print Assumptions C35_one_token.
(** "ab-çd" *)
Example C35_case : ~ In 0x20%N [45]%N /\ scalars ([97] ++ 98 :: 45 :: 231 :: [100])%N /\ letter 98 /\ letter 231 /\ letter 97 /\ letter 100 /\ line_end 45 = false
  /\ tokens words_api 20 (setJoiners (FromBytes (encode [97; 98; 45; 231; 100]%N)) hyphen_hash) = Ok [[97; 98; 45; 195; 167; 100]]%N.
Proof.
  split; [intros [H|[]]; discriminate|]. split; [repeat (constructor; [unfold scalar; lia|]); constructor|].
  repeat (split; [left; vm_compute; reflexivity|]). split; vm_compute; reflexivity.
Qed.
(** The stronger reading, a letter on one side and a digit on the other, is false: "a-1". *)
Theorem C35_mixed_refuted : exists jj u r v, In r (Middle jj) /\ letter u /\ digit v /\ r <> 0x20%N /\ line_end r = false
  /\ tokens words_api 10 (setJoiners (FromBytes (encode [u; r; v])) (Some jj)) = Ok [encode [u]; encode [r]; encode [v]].
Proof.
  exists {| Middle := [45]%N; Leading := [] |}, 97%N, 45%N, 49%N. split; [left; reflexivity|]. split; [left; vm_compute; reflexivity|].
  split; [vm_compute; reflexivity|]. split; [discriminate|]. split; vm_compute; reflexivity.
Qed.
Print Assumptions C35_mixed_refuted.
(** So it is for the space in an Iterator: "a b" *)
Theorem C35_space_refuted : exists jj u v, In 0x20%N (Middle jj) /\ letter u /\ letter v
  /\ tokens words_api 10 (setJoiners (FromBytes (encode [u; 0x20%N; v])) (Some jj)) = Ok [encode [u]; [0x20%N]; encode [v]].
Proof. exists {| Middle := [32]%N; Leading := [] |}, 97%N, 98%N. split; [left; reflexivity|]. split; [left; vm_compute; reflexivity|]. split; [left|]; vm_compute; reflexivity. Qed.
Print Assumptions C35_space_refuted.
(** And for line ends. *)
Theorem C35_line_end_refuted : exists jj u r v, In r (Middle jj) /\ letter u /\ letter v /\ line_end r = true
  /\ tokens words_api 10 (setJoiners (FromBytes (encode [u; r; v])) (Some jj)) = Ok [encode [u]; encode [r]; encode [v]].
Proof. exists {| Middle := [10]%N; Leading := [] |}, 97%N, 10%N, 98%N. split; [left; reflexivity|]. split; [left; vm_compute; reflexivity|]. split; [left; vm_compute; reflexivity|]. split; vm_compute; reflexivity. Qed.
Print Assumptions C35_line_end_refuted.

(** ** C36: leading joiners *)
(** If a token begins at a leading joiner, no boundary lies between it and the end of the letters and digits that follow. *)
Theorem C36_context : forall jj b r w q fuel, scalars (b ++ r :: w ++ q) -> length (encode (b ++ r :: w ++ q)) < fuel ->
  In r (Leading jj) -> ignored r = false -> Forall (fun c => letter c \/ digit c) w ->
  exists l, tokens words_api fuel (setJoiners (FromBytes (encode (b ++ r :: w ++ q))) (Some jj)) = Ok l
    /\ (boundary l (length (encode b)) -> forall w1 w2, w = w1 ++ w2 -> w2 <> [] -> ~ boundary l (length (encode (b ++ r :: w1)))).
Proof. exact leading_joins. Qed.
Print Assumptions C36_context.
Theorem C36_one_token : forall jj r w fuel, scalars (r :: w) -> length (encode (r :: w)) < fuel ->
  In r (Leading jj) -> ignored r = false -> Forall (fun c => letter c \/ digit c) w ->
  tokens words_api fuel (setJoiners (FromBytes (encode (r :: w))) (Some jj)) = Ok [encode (r :: w)].
Proof. exact leading_one. Qed.
Print Assumptions C36_one_token.
(** "x #a1 #": the token begins at the joiner *)
Example C36_case : scalars ([120; 32] ++ 35 :: [97; 49] ++ [32; 35])%N /\ ignored 35 = false /\ letter 97 /\ digit 49
  /\ tokens words_api 20 (setJoiners (FromBytes (encode ([120; 32] ++ 35 :: [97; 49] ++ [32; 35])%N)) hyphen_hash) = Ok [[120]; [32]; [35; 97; 49]; [32]; [35]]%N
  /\ boundary [[120]; [32]; [35; 97; 49]; [32]; [35]]%N (length (encode [120; 32]%N)).
Proof.
  split; [repeat (constructor; [unfold scalar; lia|]); constructor|]. split; [vm_compute; reflexivity|]. split; [left; vm_compute; reflexivity|]. split; [vm_compute; reflexivity|].
  split; [vm_compute; reflexivity|]. exists [[120]; [32]]%N, [[35; 97; 49]; [32]; [35]]%N. split; reflexivity.
Qed.
(** A combining mark among the leading joiners does not attach: U+0301 "a". *)
Theorem C36_ignored_refuted : exists jj r c, In r (Leading jj) /\ ignored r = true /\ letter c
  /\ tokens words_api 10 (setJoiners (FromBytes (encode [r; c])) (Some jj)) = Ok [encode [r]; encode [c]].
Proof. exists {| Middle := []; Leading := [0x301]%N |}, 0x301%N, 97%N. split; [left; reflexivity|]. split; [vm_compute; reflexivity|]. split; [left; vm_compute; reflexivity|]. vm_compute; reflexivity. Qed.
Print Assumptions C36_ignored_refuted.
