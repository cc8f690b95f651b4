(** The properties of Hangul syllables and of conjoining jamo. *)
From Verif Require Import Base ListFacts SpecUcd UcdNear SpecHangul.
Local Open Scope N_scope.

(** ** The properties of syllables and of conjoining jamo *)
Definition conjoining (c : N) : bool := (0x1100 <=? c) && (c <? 0x1200).
Definition sp (c : N) : bool := syllable c || conjoining c.
Definition span (lo : N) (n : nat) : list N := map (fun i => lo + N.of_nat i) (seq 0 n).
Lemma in_span : forall lo n x, lo <= x -> x < lo + N.of_nat n -> In x (span lo n).
Proof. intros lo n x H1 H2. apply in_map_iff. exists (N.to_nat (x - lo)). split; [rewrite N2Nat.id; lia|]. apply in_seq. lia. Qed.
(** Properties from tables. *)
Record tables := { t_g : list (N * N * gcb); t_i : list (N * N * incb); t_w : list (N * N * wb); t_s : list (N * N * sb); t_e : list (N * N * bool) }.
Definition narrow (lo hi : N) (t : tables) : tables := {| t_g := near lo hi (t_g t); t_i := near lo hi (t_i t); t_w := near lo hi (t_w t); t_s := near lo hi (t_s t); t_e := near lo hi (t_e t) |}.
Definition all_tables : tables := {| t_g := gcb_table; t_i := incb_table; t_w := wb_table; t_s := sb_table; t_e := extpict_table |}.
Definition plain_props (t : tables) (c : N) : bool :=
  wb_beq (range_value WB_Other (t_w t) c) WB_ALetter && negb (range_value false (t_e t) c) && incb_beq (range_value InCB_Other (t_i t) c) InCB_Other && sb_beq (range_value SB_Other (t_s t) c) SB_OLetter.
Definition tg (t : tables) (c : N) : gcb := range_value GCB_Other (t_g t) c.
Lemma narrow_props : forall t lo hi c, lo <= c -> c <= hi -> plain_props t c = plain_props (narrow lo hi t) c /\ tg t c = tg (narrow lo hi t) c.
Proof. intros t lo hi c H1 H2. unfold plain_props, tg, narrow. cbn [t_g t_i t_w t_s t_e]. rewrite <- !(near_value _ _ _ lo hi c H1 H2). split; reflexivity. Qed.

Definition jamo_class (c : N) : gcb := if c <? 0x1160 then GCB_L else if c <? 0x11A8 then GCB_V else GCB_T.
Definition jamo_props (t : tables) (c : N) : bool := plain_props t c && gcb_beq (tg t c) (jamo_class c).
Lemma all_jamo : forallb (jamo_props (narrow 0x1100 0x11FF all_tables)) (span 0x1100 256) = true. Proof. vm_compute. reflexivity. Qed.
Definition syllable_props (t : tables) (c : N) : bool := plain_props t c &&
  match jamo c with
  | [l; v] => gcb_beq (tg t c) GCB_LV && (0x1100 <=? l) && (l <? 0x1160) && (0x1160 <=? v) && (v <? 0x11A8)
  | [l; v; e] => gcb_beq (tg t c) GCB_LVT && (0x1100 <=? l) && (l <? 0x1160) && (0x1160 <=? v) && (v <? 0x11A8) && (0x11A8 <=? e) && (e <? 0x1200)
  | _ => false
  end.
Definition block_props (ts : tables) (k : N) : bool := let lo := SBase + 28 * k in let t := narrow lo (lo + 27) ts in forallb (syllable_props t) (span lo 28).
Lemma all_blocks : forallb (block_props (narrow SBase (SBase + SCount) all_tables)) (span 0 399) = true. Proof. vm_compute. reflexivity. Qed.

Lemma narrow_jamo : forall T lo hi c, lo <= c -> c <= hi -> jamo_props (narrow lo hi T) c = true -> jamo_props T c = true.
Proof. intros T lo hi c H1 H2. unfold jamo_props. destruct (narrow_props T lo hi c H1 H2) as (E1 & E2). rewrite E1, E2. auto. Qed.
Lemma narrow_syllable : forall T lo hi c, lo <= c -> c <= hi -> syllable_props (narrow lo hi T) c = true -> syllable_props T c = true.
Proof. intros T lo hi c H1 H2. unfold syllable_props. destruct (narrow_props T lo hi c H1 H2) as (E1 & E2). rewrite E1, E2. auto. Qed.
Lemma jamo_ok_gen : forall T lo hi n, N.of_nat n + lo = hi + 1 -> forallb (jamo_props (narrow lo hi T)) (span lo n) = true -> forall c, lo <= c -> c <= hi -> jamo_props T c = true.
Proof. intros T lo hi n E A c H1 H2. rewrite forallb_forall in A. apply (narrow_jamo T lo hi c H1 H2), A, in_span; lia. Qed.
Lemma jamo_ok : forall c, 0x1100 <= c -> c <= 0x11FF -> jamo_props all_tables c = true.
Proof. exact (jamo_ok_gen all_tables 0x1100 0x11FF 256 eq_refl all_jamo). Qed.
Lemma block_ok : forall T B n, forallb (block_props T) (span 0 n) = true -> B = SBase -> forall c, B <= c -> c < B + 28 * N.of_nat n -> syllable_props T c = true.
Proof.
  intros T B n A EB c H1 H2. rewrite forallb_forall in A.
  pose proof (N.div_mod (c - B) 28 ltac:(discriminate)) as DM. pose proof (N.mod_lt (c - B) 28 ltac:(discriminate)) as ML. generalize dependent ((c - B) / 28). intros k DM. revert ML DM. generalize ((c - B) mod 28). intros m ML DM.
  assert (K : k < N.of_nat n) by lia. specialize (A k (in_span 0 n k (N.le_0_l k) K)). unfold block_props in A. cbv zeta in A. rewrite <- EB in A.
  assert (L1 : B + 28 * k <= c) by lia. assert (L2 : c <= B + 28 * k + 27) by lia. rewrite forallb_forall in A. apply (narrow_syllable T _ _ c L1 L2), A, in_span; [exact L1|]. change (N.of_nat 28) with 28. lia.
Qed.
Lemma syllable_ok : forall c, syllable c = true -> syllable_props all_tables c = true.
Proof.
  intros c H. unfold syllable in H. apply andb_prop in H. destruct H as (H1 & H2). apply N.leb_le in H1. apply N.ltb_lt in H2.
  refine (narrow_syllable all_tables SBase (SBase + SCount) c H1 _ (block_ok _ SBase 399 all_blocks eq_refl c H1 H2)). apply N.lt_le_incl. exact H2.
Qed.

(** What the rules see of a syllable or a conjoining jamo. *)
Definition plain_char (c : N) : Prop := WB c = WB_ALetter /\ ExtPict c = false /\ InCB c = InCB_Other /\ SB c = SB_OLetter.
Lemma plain_of : forall c, plain_props all_tables c = true -> plain_char c.
Proof.
  intros c H. unfold plain_props in H. cbn [t_g t_i t_w t_s t_e all_tables] in H. apply andb_prop in H. destruct H as (H & H4). apply andb_prop in H. destruct H as (H & H3). apply andb_prop in H. destruct H as (H1 & H2).
  repeat split; [apply internal_wb_dec_bl; exact H1|apply negb_true_iff; exact H2|apply internal_incb_dec_bl; exact H3|apply internal_sb_dec_bl; exact H4].
Qed.
Lemma between : forall lo hi c, (lo <=? c) = true -> (c <? hi) = true -> lo <= c < hi.
Proof. intros lo hi c A B. apply N.leb_le in A. apply N.ltb_lt in B. lia. Qed.
Lemma jamo_is : forall c, 0x1100 <= c < 0x1200 -> sp c = true /\ plain_char c /\ GCB c = jamo_class c.
Proof.
  intros c (H1 & H2). assert (C : conjoining c = true) by (unfold conjoining; apply andb_true_intro; split; [apply N.leb_le|apply N.ltb_lt]; assumption).
  pose proof (jamo_ok c H1 ltac:(lia)) as J. unfold jamo_props in J. apply andb_prop in J. destruct J as (J1 & J2). split; [unfold sp; rewrite C; apply orb_true_r|]. split; [exact (plain_of c J1)|]. apply internal_gcb_dec_bl. exact J2.
Qed.
Inductive hangul : N -> Prop :=
| h_jamo : forall c, jamo c = [c] -> GCB c = GCB_L \/ GCB c = GCB_V \/ GCB c = GCB_T -> plain_char c -> hangul c
| h_lv : forall c l v, jamo c = [l; v] -> GCB c = GCB_LV -> GCB l = GCB_L -> GCB v = GCB_V -> sp l = true -> sp v = true -> plain_char c -> plain_char l -> plain_char v -> hangul c
| h_lvt : forall c l v t, jamo c = [l; v; t] -> GCB c = GCB_LVT -> GCB l = GCB_L -> GCB v = GCB_V -> GCB t = GCB_T -> sp l = true -> sp v = true -> sp t = true ->
    plain_char c -> plain_char l -> plain_char v -> plain_char t -> hangul c.
Lemma class_L : forall c, c < 0x1160 -> jamo_class c = GCB_L.
Proof. intros c H. unfold jamo_class. apply N.ltb_lt in H. rewrite H. reflexivity. Qed.
Lemma class_V : forall c, 0x1160 <= c < 0x11A8 -> jamo_class c = GCB_V.
Proof. intros c (H1 & H2). unfold jamo_class. apply N.ltb_ge in H1. apply N.ltb_lt in H2. rewrite H1, H2. reflexivity. Qed.
Lemma class_T : forall c, 0x11A8 <= c -> jamo_class c = GCB_T.
Proof. intros c H. unfold jamo_class. assert (H1 : 0x1160 <= c) by lia. apply N.ltb_ge in H, H1. rewrite H, H1. reflexivity. Qed.
Lemma sp_hangul : forall c, sp c = true -> hangul c.
Proof.
  intros c H. unfold sp in H. apply orb_prop in H. destruct (syllable c) eqn:E.
  - clear H. pose proof (syllable_ok c E) as H. unfold syllable_props in H. apply andb_prop in H. destruct H as (P & H). apply plain_of in P. destruct (jamo c) as [|l [|v [|t [|]]]] eqn:J; try discriminate.
    + repeat match type of H with _ && _ = true => let X := fresh "X" in apply andb_prop in H; destruct H as (H & X) end.
      destruct (between 0x1100 0x1160 l ltac:(assumption) ltac:(assumption)) as (L1 & L2). destruct (between 0x1160 0x11A8 v ltac:(assumption) ltac:(assumption)) as (V1 & V2).
      destruct (jamo_is l ltac:(lia)) as (l1 & l2 & l3). destruct (jamo_is v ltac:(lia)) as (v1 & v2 & v3). rewrite (class_L l L2) in l3. rewrite (class_V v (conj V1 V2)) in v3.
      apply (h_lv c l v J); auto. apply internal_gcb_dec_bl. exact H.
    + repeat match type of H with _ && _ = true => let X := fresh "X" in apply andb_prop in H; destruct H as (H & X) end.
      destruct (between 0x1100 0x1160 l ltac:(assumption) ltac:(assumption)) as (L1 & L2). destruct (between 0x1160 0x11A8 v ltac:(assumption) ltac:(assumption)) as (V1 & V2). destruct (between 0x11A8 0x1200 t ltac:(assumption) ltac:(assumption)) as (T1 & T2).
      destruct (jamo_is l ltac:(lia)) as (l1 & l2 & l3). destruct (jamo_is v ltac:(lia)) as (v1 & v2 & v3). destruct (jamo_is t ltac:(lia)) as (t1 & t2 & t3). rewrite (class_L l L2) in l3. rewrite (class_V v (conj V1 V2)) in v3. rewrite (class_T t T1) in t3.
      apply (h_lvt c l v t J); auto. apply internal_gcb_dec_bl. exact H.
  - destruct H as [H|H]; [discriminate|]. unfold conjoining in H. apply andb_prop in H. destruct H as (H1 & H2). apply N.leb_le in H1. apply N.ltb_lt in H2. destruct (jamo_is c (conj H1 H2)) as (_ & P & G).
    apply h_jamo; [unfold jamo; rewrite E; reflexivity| |exact P]. rewrite G. unfold jamo_class. destruct (c <? 0x1160); [auto|]. destruct (c <? 0x11A8); auto.
Qed.
