(** How much data a split function must be given before it returns a token.  The common part, over the abstract loop: [d] is what the function was given, [d ++ e] all of the data. *)
From Verif Require Import Base ListFacts Trie Engine SpecJoiners AnsiCuts Append.

Definition near (d : bytes) (n : nat) : Prop := length d <= n + 3.
Lemma near_shift : forall d a n, near (skipn a d) n -> near d (a + n).
Proof. intros d a n H. unfold near in *. rewrite skipn_length in H. lia. Qed.

Section Prompt.
  Variable E : eng.
  Variable mu : e_St E -> bytes -> nat.
  Hypothesis LK : lk_ok (e_lk E).
  Hypothesis SHORT : forall d v, e_lk E d = Ok (v, 0) -> length d <= 3.
  Hypothesis RU : rules_ok E mu.
  Variable Sq : e_St E -> bytes -> Prop.
  Variable W : bytes -> Prop.

  Definition lands_in (d e : bytes) (dec : edec (e_St E)) : Prop :=
    match dec with EJoin adv st' => near d adv \/ adv <= length d /\ Sq st' (skipn adv d) | EBreak => W d | _ => True end.

  Hypothesis H1 : forall st d e v w dec, Sq st d -> d <> [] -> e_lk E d = Ok (v, w) -> w <> 0 -> e_rules E st v (d ++ e) w true = Ok dec -> lands_in d e dec.
  Hypothesis H2 : forall st d e v w dec, d <> [] -> e_lk E d = Ok (v, w) -> w <> 0 -> e_rules E st v d w false = Ok EMore -> e_rules E st v (d ++ e) w true = Ok dec -> lands_in d e dec.

  Definition near_or_W (d : bytes) (n : nat) : Prop := near d n \/ (n <= length d /\ W (skipn n d)).
  Lemma near_or_W_shift : forall d a n, a <= length d -> near_or_W (skipn a d) n -> near_or_W d (a + n).
  Proof.
    intros d a n Ha [H | (Hn & HW)]; [left; apply near_shift; exact H|]. right. rewrite skipn_length in Hn. split; [lia|].
    rewrite skipn_skipn in HW. replace (a + n) with (n + a) by lia. exact HW.
  Qed.
  Lemma near_more : forall d a n, near d a -> near d (a + n). Proof. unfold near. intros. lia. Qed.

  Lemma quiet_in : forall fuel d e st n, Sq st d -> eloop E fuel (d ++ e) true st = Ok (Some n) -> near_or_W d n.
  Proof.
    induction fuel as [|fuel IH]; intros d e st n HS H; [discriminate|].
    destruct d as [|c d0]; [left; unfold near; cbn; lia|].
    set (d := c :: d0) in *. assert (Hd : d <> []) by discriminate.
    destruct (LK d Hd) as (v & w & Hl & Hw & HL). destruct (Nat.eq_dec w 0) as [->|E0]. { left. unfold near. pose proof (SHORT _ _ Hl). lia. }
    cbn [eloop] in H. change (is_nil (d ++ e)) with false in H. cbv iota in H. rewrite (HL E0 e) in H. cbn [bind] in H. rewrite (proj2 (Nat.eqb_neq _ _) E0) in H.
    destruct (RU st v (d ++ e) w ltac:(discriminate) (HL E0 e) E0) as (T & _). destruct (T true) as (dec & Hr & Hj & _). rewrite Hr in H. cbn [bind] in H.
    pose proof (H1 st d e v w dec HS Hd Hl E0 Hr) as HLa. destruct dec as [adv st'| | |]; cbn [lands_in] in HLa.
    - destruct (Hj _ _ eq_refl) as (Ha & _). rewrite slice_from_ok in H by lia. cbn [bind] in H.
      destruct (eloop E fuel (skipn adv (d ++ e)) true st') as [[m|]| |] eqn:Er; try discriminate. cbn [bind option_map] in H. injection H as <-.
      destruct HLa as [HN|(Hle & HS')]; [left; apply near_more; exact HN|]. rewrite skipn_app_le in Er by lia. apply near_or_W_shift; [exact Hle|]. exact (IH _ _ _ _ HS' Er).
    - injection H as <-. right. split; [lia|exact HLa].
    - assert (Hn : n = length (d ++ e)) by congruence. left. unfold near. rewrite Hn, app_length. lia.
    - discriminate.
  Qed.
  Lemma asked_in : forall fuel fuel' d e st n, eloop E fuel d false st = Ok None -> eloop E fuel' (d ++ e) true st = Ok (Some n) -> near_or_W d n.
  Proof.
    induction fuel as [|fuel IH]; intros fuel' d e st n HF H; [discriminate|]. destruct fuel' as [|fuel']; [discriminate|].
    destruct d as [|c d0]; [left; unfold near; cbn; lia|].
    set (d := c :: d0) in *. assert (Hd : d <> []) by discriminate.
    destruct (LK d Hd) as (v & w & Hl & Hw & HL). destruct (Nat.eq_dec w 0) as [->|E0]. { left. unfold near. pose proof (SHORT _ _ Hl). lia. }
    cbn [eloop] in H, HF. change (is_nil (d ++ e)) with false in H. change (is_nil d) with false in HF. cbv iota in H, HF. rewrite (HL E0 e) in H. rewrite Hl in HF. cbn [bind] in H, HF. rewrite (proj2 (Nat.eqb_neq _ _) E0) in H, HF.
    destruct (RU st v d w Hd Hl E0) as (T & S). destruct (T false) as (dec & Hr & Hj & _ & He). rewrite Hr in HF. cbn [bind] in HF.
    destruct dec as [adv st'| | |].
    - rewrite (S _ Hr ltac:(discriminate) e true) in H. cbn [bind] in H.
      destruct (Hj _ _ eq_refl) as (Ha & _). rewrite slice_from_ok in H by (rewrite app_length; lia). rewrite slice_from_ok in HF by lia. cbn [bind] in H, HF.
      destruct (eloop E fuel' (skipn adv (d ++ e)) true st') as [[m|]| |] eqn:Er; try discriminate. cbn [bind option_map] in H. injection H as <-.
      destruct (eloop E fuel (skipn adv d) false st') as [[k|]| |] eqn:Ef; try discriminate. rewrite skipn_app_le in Er by lia.
      apply near_or_W_shift; [exact Ha|]. exact (IH _ _ _ _ _ Ef Er).
    - discriminate.
    - specialize (He eq_refl). discriminate.
    - clear T S He Hj. destruct (RU st v (d ++ e) w ltac:(discriminate) (HL E0 e) E0) as (T & _). destruct (T true) as (dec & Hr2 & Hj & _). rewrite Hr2 in H. cbn [bind] in H.
      pose proof (H2 st d e v w dec Hd Hl E0 Hr Hr2) as HLa. destruct dec as [adv st'| | |]; cbn [lands_in] in HLa.
      + destruct (Hj _ _ eq_refl) as (Ha & _). rewrite slice_from_ok in H by lia. cbn [bind] in H.
        destruct (eloop E fuel' (skipn adv (d ++ e)) true st') as [[m|]| |] eqn:Er; try discriminate. cbn [bind option_map] in H. injection H as <-.
        destruct HLa as [HN|(Hle & HS')]; [left; apply near_more; exact HN|]. rewrite skipn_app_le in Er by lia. apply near_or_W_shift; [exact Hle|]. exact (quiet_in _ _ _ _ _ HS' Er).
      + injection H as <-. right. split; [lia|exact HLa].
      + assert (Hn : n = length (d ++ e)) by congruence. left. unfold near. rewrite Hn, app_length. lia.
      + discriminate.
  Qed.

  Hypothesis LK0 : lk_ok (e_lk0 E).
  Hypothesis SHORT0 : forall d v, e_lk0 E d = Ok (v, 0) -> length d <= 3.
  Variable fuel : bytes -> nat.
  Lemma asked_first : forall d e n tok, d <> [] -> esplit E fuel d false = Ok e_more -> esplit E fuel (d ++ e) true = Ok (e_done n tok) -> near_or_W d n.
  Proof.
    intros d e n tok Hd HF H. assert (Hde : d ++ e <> []) by (destruct d; [congruence|discriminate]). unfold esplit in HF, H. rewrite (is_nil_false d Hd) in HF. rewrite (is_nil_false _ Hde) in H.
    destruct (LK0 d Hd) as (v & w & Hl & Hw & HL). destruct (Nat.eq_dec w 0) as [->|E0]. { left. unfold near. pose proof (SHORT0 _ _ Hl). lia. }
    rewrite Hl in HF. rewrite (HL E0 e) in H. cbn [bind] in HF, H. rewrite (proj2 (Nat.eqb_neq _ _) E0) in H, HF.
    rewrite slice_from_ok in HF by lia. rewrite slice_from_ok in H by (rewrite app_length; lia). cbn [bind] in HF, H.
    destruct (eloop E (fuel (d ++ e)) (skipn w (d ++ e)) true (e_init E v)) as [[m|]| |] eqn:Er; try discriminate.
    cbn [bind] in H. destruct (slice_to (d ++ e) (w + m)) as [tk| |]; try discriminate. cbn [bind] in H. unfold e_done in H. injection H as H _.
    assert (n = w + m) as -> by lia.
    destruct (eloop E (fuel d) (skipn w d) false (e_init E v)) as [[k|]| |] eqn:Ef; try discriminate.
    { cbn [bind] in HF. destruct (slice_to d (w + k)); discriminate. }
    apply near_or_W_shift; [exact Hw|]. rewrite skipn_app_le in Er by lia. exact (asked_in _ _ _ _ _ _ Ef Er).
  Qed.
  (** A text that begins with a complete character, after which the loop is in a quiet state. *)
  Lemma quiet_first : forall d e n tok v w, e_lk0 E d = Ok (v, w) -> w <> 0 -> d <> [] -> Sq (e_init E v) (skipn w d) -> esplit E fuel (d ++ e) true = Ok (e_done n tok) -> near_or_W d n.
  Proof.
    intros d e n tok v w Hl E0 Hd HS H. assert (Hde : d ++ e <> []) by (destruct d; [congruence|discriminate]). unfold esplit in H. rewrite (is_nil_false _ Hde) in H.
    destruct (LK0 d Hd) as (v' & w' & Hl' & Hw & HL). rewrite Hl in Hl'. injection Hl' as <- <-.
    rewrite (HL E0 e) in H. cbn [bind] in H. rewrite (proj2 (Nat.eqb_neq _ _) E0) in H. rewrite slice_from_ok in H by (rewrite app_length; lia). cbn [bind] in H.
    destruct (eloop E (fuel (d ++ e)) (skipn w (d ++ e)) true (e_init E v)) as [[m|]| |] eqn:Er; try discriminate.
    cbn [bind] in H. destruct (slice_to (d ++ e) (w + m)) as [tk| |]; try discriminate. cbn [bind] in H. unfold e_done in H. injection H as H _.
    assert (n = w + m) as -> by lia. apply near_or_W_shift; [exact Hw|]. rewrite skipn_app_le in Er by lia. exact (quiet_in _ _ _ _ _ HS Er).
  Qed.
End Prompt.

(** What this means for a split function: asked for more, the data given is within the next [k] tokens, except for a character cut short. *)
Definition prompt (k : nat) (f : splitfun) : Prop := forall d e l, f d false = Ok e_more -> tokens_by f (d ++ e) l -> length d <= length (concat (firstn k l)) + 3.
Lemma prompt_two : forall f (W : bytes -> Prop), well_behaved f ->
  (forall d e n, d <> [] -> f d false = Ok e_more -> f (d ++ e) true = Ok (e_done n (firstn n (d ++ e))) -> near_or_W W d n) ->
  (forall d e n, W d -> d <> [] -> f (d ++ e) true = Ok (e_done n (firstn n (d ++ e))) -> near d n) -> prompt 2 f.
Proof.
  intros f W WB A B d e l HM HT. destruct d as [|c d0]; [cbn; lia|]. set (d := c :: d0) in *. assert (Hd : d <> []) by discriminate.
  inversion HT as [HE|x n l1 Hf Hn Ht HE]; subst. destruct (A d e n Hd HM Hf) as [H|(Hle & HW)].
  { cbn [firstn concat]. rewrite app_length, firstn_length. unfold near in H. lia. }
  rewrite skipn_app_le in Ht by exact Hle. cbn [firstn concat]. rewrite !app_length. rewrite firstn_length, app_length. rewrite app_length in Hn.
  destruct (Nat.eq_dec n (length d)) as [->|NE]; [lia|].
  inversion Ht as [HE|x m l2 Hf2 Hn2 Ht2 HE]; subst. { symmetry in HE. apply (f_equal (@length N)) in HE. rewrite app_length, skipn_length in HE. cbn [length] in HE. lia. }
  assert (HN : skipn n d <> []). { intros E0. apply (f_equal (@length N)) in E0. rewrite skipn_length in E0. cbn [length] in E0. lia. }
  pose proof (B _ _ _ HW HN Hf2) as H. unfold near in H. rewrite skipn_length in H. cbn [concat app]. rewrite app_length, firstn_length. lia.
Qed.
Lemma prompt_one : forall f, well_behaved f ->
  (forall d e n, d <> [] -> f d false = Ok e_more -> f (d ++ e) true = Ok (e_done n (firstn n (d ++ e))) -> near d n) -> prompt 1 f.
Proof.
  intros f WB A d e l HM HT. destruct d as [|c d0]; [cbn; lia|]. set (d := c :: d0) in *. assert (Hd : d <> []) by discriminate.
  inversion HT as [HE|x n l1 Hf Hn Ht HE]; subst. pose proof (A d e n Hd HM Hf) as H.
  cbn [firstn concat]. rewrite app_length, firstn_length. unfold near in H. lia.
Qed.
