(** C75: changing the case and cutting can be done in either order. *)
From Verif Require Import Base ListFacts SpecUtf8 SpecIter SpecApi SpecUcd SpecRules ApiInst ConformApi SpecSame SameFacts SameRules SpecNest NestFacts TextFacts SpecCaseTables SpecCase CaseFacts.
From Verif Require Graphemes Words Sentences.

(** The tokens of the mapped text are the tokens of the text, mapped. *)
Definition cased_alike (A : api) (f : list N -> list N) (of : list N -> Prop) : Prop := forall t fuel, scalars t -> of t -> length (encode t) < fuel -> length (encode (f t)) < fuel ->
  exists segs, concat segs = t /\ tokens A fuel (a_new A (encode t)) = Ok (map encode segs) /\ tokens A fuel (a_new A (encode (f t))) = Ok (map (fun s => encode (f s)) segs).
Definition all_three (f : list N -> list N) (of : list N -> Prop) : Prop := cased_alike graphemes_api f of /\ cased_alike words_api f of /\ cased_alike phrases_api f of.

Lemma three : forall but l (of : list N -> Prop), table_check but l = true -> (forall t, of t -> without but t) -> all_three (map (by_table l)) of.
Proof.
  intros but l of H OF. pose proof (by_table_scalar but l H) as S. split; [|split]; intros t fuel St O L L'.
  - apply (mapped_tokens _ _ _ _ g_segments g_sym g_resp S t fuel St); auto. eapply Forall_impl; [|exact (OF t O)]. intros c N1. exact (proj1 (by_table_same but l H c N1)).
  - apply (mapped_tokens _ _ _ _ w_segments w_sym w_resp S t fuel St); auto. eapply Forall_impl; [|exact (OF t O)]. intros c N1. exact (proj2 (by_table_same but l H c N1)).
  - apply (mapped_tokens _ _ _ _ p_segments w_sym p_resp S t fuel St); auto. eapply Forall_impl; [|exact (OF t O)]. intros c N1. exact (proj2 (by_table_same but l H c N1)).
Qed.

Theorem C75_lower : all_three lowered (without [circled_capital_m]). Proof. exact (three _ _ _ lower_checked (fun t H => H)). Qed.
Print Assumptions C75_lower.
Theorem C75_upper : all_three uppered (without [circled_small_m; iota_below]). Proof. exact (three _ _ _ upper_checked (fun t H => H)). Qed.
Print Assumptions C75_upper.
Theorem C75_title : all_three titled (without [circled_small_m; iota_below]). Proof. exact (three _ _ _ title_checked (fun t H => H)). Qed.
Print Assumptions C75_title.

(** Sentences: small letters only join, capitals only part. *)
Definition joined_only (A : api) (f : list N -> list N) : Prop := forall t fuel, scalars t -> length (encode t) < fuel -> length (encode (f t)) < fuel ->
  exists segs l, concat segs = t /\ tokens A fuel (a_new A (encode t)) = Ok (map encode segs) /\ tokens A fuel (a_new A (encode (f t))) = Ok l
    /\ made_of l (map (fun s => encode (f s)) segs).
Definition parted_only (A : api) (f : list N -> list N) : Prop := forall t fuel, scalars t -> without [iota_below] t -> length (encode t) < fuel -> length (encode (f t)) < fuel ->
  exists segs l, concat segs = t /\ tokens A fuel (a_new A (encode t)) = Ok (map encode segs) /\ tokens A fuel (a_new A (encode (f t))) = Ok l
    /\ made_of (map (fun s => encode (f s)) segs) l.

Lemma rel_map : forall (R : N -> N -> Prop) f t, Forall (fun c => R c (f c)) t -> Forall2 R t (map f t).
Proof. intros R f t F. induction F; constructor; assumption. Qed.
Lemma rel_map' : forall (R : N -> N -> Prop) f t, Forall (fun c => R (f c) c) t -> Forall2 R (map f t) t.
Proof. intros R f t F. induction F; constructor; assumption. Qed.
Theorem C75_sentences_lower : joined_only sentences_api lowered.
Proof.
  intros t fuel S L L'. assert (S' : scalars (lowered t)) by (apply Forall_map; eapply Forall_impl; [|exact S]; exact (by_table_scalar _ _ lower_checked)).
  destruct (s_segments t fuel S L) as (segs & T & G). destruct (s_segments _ fuel S' L') as (segs' & T' & G'). exists segs, (map encode segs').
  split; [exact (proj1 G)|]. split; [exact T|]. split; [exact T'|]. apply (merged _ _ t segs segs' G G'). intros b a _.
  apply s_raises; apply rel_map; apply Forall_forall; intros c _; apply lower_lowers.
Qed.
Print Assumptions C75_sentences_lower.
Lemma parts : forall but l, table_check but l = true -> raises_check l = true -> parted_only sentences_api (map (by_table l)).
Proof.
  intros but l H K t fuel S N1 L L'. assert (S' : scalars (map (by_table l) t)) by (apply Forall_map; eapply Forall_impl; [|exact S]; exact (by_table_scalar _ _ H)).
  destruct (s_segments t fuel S L) as (segs & T & G). destruct (s_segments _ fuel S' L') as (segs' & T' & G'). exists segs, (map encode segs').
  split; [exact (proj1 G)|]. split; [exact T|]. split; [exact T'|]. apply (parted _ _ t segs segs' G G'). intros b a E. subst t. unfold without in N1. apply Forall_app in N1. destruct N1 as (Nb & Na).
  apply s_raises; apply rel_map'; (eapply Forall_impl; [|eassumption]); intros c N1; apply (raises l K); intros ->; apply N1; left; reflexivity.
Qed.
Theorem C75_sentences_upper : parted_only sentences_api uppered. Proof. exact (parts _ _ upper_checked upper_sb). Qed.
Print Assumptions C75_sentences_upper.
Theorem C75_sentences_title : parted_only sentences_api titled. Proof. exact (parts _ _ title_checked title_sb). Qed.
Print Assumptions C75_sentences_title.

(** The exceptions are needed, each of them. *)
Lemma differs : forall A f of t n l m, cased_alike A f of -> scalars t -> of t -> length (encode t) < n -> length (encode (f t)) < n ->
  tokens A n (a_new A (encode t)) = Ok l -> tokens A n (a_new A (encode (f t))) = Ok m -> length l <> length m -> False.
Proof. intros A f of t n l m H S O L L' T T' N1. destruct (H t n S O L L') as (segs & _ & X & Y). rewrite T in X. rewrite T' in Y. injection X as ->. injection Y as ->. apply N1. rewrite !map_length. reflexivity. Qed.
Ltac scalars_now := repeat constructor; left; reflexivity.
Ltac without_now := repeat (apply Forall_cons || apply Forall_nil); intros X; cbn in X; repeat destruct X as [X|X]; try discriminate X; contradiction.
Ltac small := apply Nat.ltb_lt; vm_compute; reflexivity.
Theorem C75_exceptions_refuted :
  (~ cased_alike graphemes_api lowered (fun _ => True) /\ ~ cased_alike words_api lowered (fun _ => True) /\ ~ cased_alike phrases_api lowered (fun _ => True))
  /\ (~ cased_alike graphemes_api uppered (without [iota_below]) /\ ~ cased_alike words_api uppered (without [iota_below]) /\ ~ cased_alike phrases_api uppered (without [iota_below]))
  /\ (~ cased_alike graphemes_api uppered (without [circled_small_m]) /\ ~ cased_alike words_api uppered (without [circled_small_m]) /\ ~ cased_alike phrases_api uppered (without [circled_small_m])).
Proof.
  split; [|split]; (split; [|split]); intros H.
  - apply (differs _ _ _ [0x24C2; 0x200D; 0x24C2]%N 20 [[226; 147; 130; 226; 128; 141; 226; 147; 130]]%N [[226; 147; 156; 226; 128; 141]; [226; 147; 156]]%N H); [scalars_now|exact I|small|small|vm_compute; reflexivity|vm_compute; reflexivity|discriminate].
  - apply (differs _ _ _ [0x21; 0x200D; 0x24C2]%N 20 [[33; 226; 128; 141; 226; 147; 130]]%N [[33; 226; 128; 141]; [226; 147; 156]]%N H); [scalars_now|exact I|small|small|vm_compute; reflexivity|vm_compute; reflexivity|discriminate].
  - apply (differs _ _ _ [0x21; 0x200D; 0x24C2]%N 20 [[33; 226; 128; 141; 226; 147; 130]]%N [[33; 226; 128; 141]; [226; 147; 156]]%N H); [scalars_now|exact I|small|small|vm_compute; reflexivity|vm_compute; reflexivity|discriminate].
  - apply (differs _ _ _ [0x24DC; 0x200D; 0x24DC]%N 20 [[226; 147; 156; 226; 128; 141]; [226; 147; 156]]%N [[226; 147; 130; 226; 128; 141; 226; 147; 130]]%N H); [scalars_now|without_now|small|small|vm_compute; reflexivity|vm_compute; reflexivity|discriminate].
  - apply (differs _ _ _ [0x21; 0x200D; 0x24DC]%N 20 [[33; 226; 128; 141]; [226; 147; 156]]%N [[33; 226; 128; 141; 226; 147; 130]]%N H); [scalars_now|without_now|small|small|vm_compute; reflexivity|vm_compute; reflexivity|discriminate].
  - apply (differs _ _ _ [0x21; 0x200D; 0x24DC]%N 20 [[33; 226; 128; 141]; [226; 147; 156]]%N [[33; 226; 128; 141; 226; 147; 130]]%N H); [scalars_now|without_now|small|small|vm_compute; reflexivity|vm_compute; reflexivity|discriminate].
  - apply (differs _ _ _ [0x61; 0x345]%N 20 [[97; 205; 133]]%N [[65]; [206; 153]]%N H); [scalars_now|without_now|small|small|vm_compute; reflexivity|vm_compute; reflexivity|discriminate].
  - apply (differs _ _ _ [0x21; 0x345]%N 20 [[33; 205; 133]]%N [[33]; [206; 153]]%N H); [scalars_now|without_now|small|small|vm_compute; reflexivity|vm_compute; reflexivity|discriminate].
  - apply (differs _ _ _ [0x21; 0x345]%N 20 [[33; 205; 133]]%N [[33]; [206; 153]]%N H); [scalars_now|without_now|small|small|vm_compute; reflexivity|vm_compute; reflexivity|discriminate].
Qed.
Print Assumptions C75_exceptions_refuted.

(** Beside the theorems: "Ça va. Ǆ", the capital DZ with caron, in small letters, in capitals and in title case. *)
Example C75_case : let t := [0xC7; 0x61; 0x20; 0x76; 0x61; 0x2E; 0x20; 0x1C4]%N in scalars t /\ without [circled_capital_m] t /\ without [circled_small_m; iota_below] t
  /\ lowered t = [0xE7; 0x61; 0x20; 0x76; 0x61; 0x2E; 0x20; 0x1C6]%N /\ uppered t = [0xC7; 0x41; 0x20; 0x56; 0x41; 0x2E; 0x20; 0x1C4]%N
  /\ titled (lowered t) = [0xC7; 0x41; 0x20; 0x56; 0x41; 0x2E; 0x20; 0x1C5]%N
  /\ tokens words_api 20 (Words.FromBytes (encode t)) = Ok [[195; 135; 97]; [32]; [118; 97]; [46]; [32]; [199; 132]]%N
  /\ tokens words_api 20 (Words.FromBytes (encode (lowered t))) = Ok [[195; 167; 97]; [32]; [118; 97]; [46]; [32]; [199; 134]]%N
  /\ tokens sentences_api 20 (Sentences.FromBytes (encode t)) = Ok [[195; 135; 97; 32; 118; 97; 46; 32]; [199; 132]]%N
  /\ tokens sentences_api 20 (Sentences.FromBytes (encode (lowered t))) = Ok [[195; 167; 97; 32; 118; 97; 46; 32; 199; 134]]%N.
Proof. cbv zeta. split; [scalars_now|]. split; [without_now|]. split; [without_now|]. repeat split; vm_compute; reflexivity. Qed.
