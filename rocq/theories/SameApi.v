(** From characters of the same classes to tokens, and maps of bytes. *)
From Verif Require Import Base ListFacts SpecUtf8 SpecIter SpecApi SpecUcd UcdNear SpecRules SegFacts SpecIll IllFacts SpecSame SameFacts SameRules.

Lemma map_len : forall (R : N -> N -> Prop) (a b : list text), Forall2 (Forall2 R) a b -> map (@length N) a = map (@length N) b.
Proof. intros R a b F. induction F as [|x y a b H F IH]; [reflexivity|]. cbn [map]. rewrite IH, (rel_length _ _ _ H). reflexivity. Qed.
Lemma map_len_map : forall (g : bytes -> N) (l : list (list bytes)), map (@length N) (map (map g) l) = map (@length bytes) l.
Proof. intros g l. rewrite map_map. apply map_ext. intros s. apply map_length. Qed.
Lemma rel_map : forall (R : N -> N -> Prop) (us us' : list bytes), Forall2 (fun u u' => R (character u) (character u')) us us' -> Forall2 R (map character us) (map character us').
Proof. intros R us us' F. induction F; constructor; auto. Qed.

(** Pieces of the same lengths. *)
Lemma same_lengths : forall (R : N -> N -> Prop), (forall x y, R x y -> R y x) -> forall D : text -> text -> op -> Prop, (forall b a o b' a', Forall2 R b b' -> Forall2 R a a' -> D b a o -> D b' a' o) ->
  forall cps segs cps' segs', segmentation D cps segs -> segmentation D cps' segs' -> Forall2 R cps cps' -> map (@length N) segs = map (@length N) segs'.
Proof.
  intros R sy D HD cps segs cps' segs' S1 S2 F. destruct (seg_resp R sy D HD cps segs cps' S1 F) as (s & G & S3). rewrite <- (segmentation_unique _ _ _ _ S3 S2). exact (map_len _ _ _ G).
Qed.

(** A letter after the text. *)
Lemma letter_lengths : forall (segs segs' : list (list bytes)) (full full' : list text), Forall (fun s => s <> []) segs -> Forall (fun s => s <> []) segs' ->
  (full = map (map character) segs ++ [[97%N]] \/ exists s0 s, segs = s0 ++ [s] /\ full = map (map character) s0 ++ [map character s ++ [97%N]]) ->
  (full' = map (map character) segs' ++ [[97%N]] \/ exists s0 s, segs' = s0 ++ [s] /\ full' = map (map character) s0 ++ [map character s ++ [97%N]]) ->
  map (@length N) full = map (@length N) full' -> map (@length bytes) segs = map (@length bytes) segs'.
Proof.
  assert (NE : forall (s0 : list (list bytes)) s, Forall (fun s => s <> []) (s0 ++ [s]) -> s <> []).
  { intros s0 s F. apply Forall_app in F. destruct F as (_ & F). exact (Forall_inv F). }
  assert (L : forall (s0 : list (list bytes)) (s : list bytes), map (@length N) (map (map character) s0 ++ [map character s ++ [97%N]]) = map (@length bytes) s0 ++ [S (length s)]).
  { intros s0 s. rewrite map_app, map_len_map. cbn [map]. rewrite app_length, map_length. cbn [length]. rewrite Nat.add_comm. reflexivity. }
  intros segs segs' full full' F F' [->|(s0 & s & -> & ->)] [->|(s0' & s' & -> & ->)] E; rewrite ?L, ?map_app, ?map_len_map in E; cbn [map length] in E; apply app_inj_tail in E; destruct E as (E1 & E2).
  - exact E1.
  - apply NE in F'. destruct s'; [congruence|discriminate].
  - apply NE in F. destruct s; [congruence|discriminate].
  - rewrite !map_app, E1. cbn [map]. congruence.
Qed.

Lemma with_tail_map : forall (f : N -> N) l tail, map (map f) (with_tail l tail) = with_tail (map (map f) l) (map f tail).
Proof.
  intros f. induction l as [|t l IH]; intros tail; [destruct tail; reflexivity|]. destruct l as [|t' l]; [cbn [map with_tail]; rewrite map_app; reflexivity|].
  change (with_tail (t :: t' :: l) tail) with (t :: with_tail (t' :: l) tail). cbn [map]. rewrite IH. reflexivity.
Qed.
(** The grouping of [map g us] with the same lengths. *)
Lemma regroup_map : forall (g : bytes -> bytes) (segs segs' : list (list bytes)) us, concat segs = us -> concat segs' = map g us -> map (@length bytes) segs = map (@length bytes) segs' -> segs' = map (map g) segs.
Proof.
  intros g. induction segs as [|s segs IH]; intros segs' us E E' L; destruct segs' as [|s' segs']; try discriminate; [reflexivity|]. cbn [map] in L. injection L as L1 L2. cbn [concat] in E, E'. subst us.
  rewrite map_app in E'. assert (H : s' = map g s /\ concat segs' = map g (concat segs)).
  { clear - E' L1. revert s' L1 E'. induction s as [|x s IHs]; intros [|x' s'] L E; cbn in *; try discriminate; [auto|]. injection E as -> E. destruct (IHs s' ltac:(lia) E) as (-> & H). auto. }
  destruct H as (-> & H). cbn [map]. f_equal. exact (IH segs' _ eq_refl H L2).
Qed.
Lemma concat_map_map : forall (f : N -> N) (s : list bytes), concat (map (map f) s) = map f (concat s).
Proof. intros f s. symmetry. apply concat_map. Qed.

(** ** Maps of bytes *)
Definition asciis : list N := map N.of_nat (seq 0 128).
Lemma ascii_forall : forall q : N -> bool, forallb q asciis = true -> forall c, (c < 128)%N -> q c = true.
Proof.
  intros q H c Hc. rewrite forallb_forall in H. apply H. unfold asciis. apply in_map_iff. exists (N.to_nat c). split; [apply N2Nat.id|]. apply in_seq. lia.
Qed.

Definition ascii_keep (f : N -> N) : Prop := (forall c, (c < 128)%N -> (f c < 128)%N) /\ (forall c, (128 <= c)%N -> f c = c).
Lemma keep_announced : forall f, ascii_keep f -> forall c, announced (f c) = announced c.
Proof.
  intros f (A & B) c. destruct (N.lt_ge_cases c 128) as [H|H]; [|rewrite B by exact H; reflexivity]. specialize (A c H). unfold announced.
  destruct (N.ltb_spec (f c) 0xC2) as [|?]; [|lia]. destruct (N.ltb_spec c 0xC2) as [|?]; [|lia]. reflexivity.
Qed.
Lemma keep_cont : forall f, ascii_keep f -> forall c, continuation (f c) = continuation c.
Proof.
  intros f (A & B) c. destruct (N.lt_ge_cases c 128) as [H|H]; [|rewrite B by exact H; reflexivity]. specialize (A c H). unfold continuation.
  destruct (N.leb_spec 0x80 (f c)) as [|?]; [lia|]. destruct (N.leb_spec 0x80 c) as [|?]; [lia|]. reflexivity.
Qed.
Lemma keep_conts : forall f, ascii_keep f -> forall n d, continuations n (map f d) = map f (continuations n d).
Proof. intros f K. induction n as [|n IH]; intros [|c d]; try reflexivity. cbn [continuations map]. rewrite (keep_cont f K). destruct (continuation c); [|reflexivity]. cbn [map]. rewrite IH. reflexivity. Qed.
Lemma keep_first : forall f, ascii_keep f -> forall d, first_unit (map f d) = option_map (map f) (first_unit d).
Proof.
  intros f K [|c d]; [reflexivity|]. cbn [first_unit map]. rewrite (keep_announced f K), (keep_conts f K). cbn [length]. rewrite map_length. destruct (announced c <=? _); reflexivity.
Qed.
Lemma keep_units : forall f, ascii_keep f -> forall d us tail, units d us tail -> units (map f d) (map (map f) us) (map f tail).
Proof.
  intros f K d us tail U. induction U as [tail E|u d us tail E U IH]; cbn [map].
  - apply units_end. rewrite (keep_first f K), E. reflexivity.
  - rewrite map_app. apply units_more; [|exact IH]. rewrite <- map_app, (keep_first f K), E. reflexivity.
Qed.
(** A unit is one byte below 128, or has none. *)
Lemma unit_bytes : forall u d, first_unit (u ++ d) = Some u -> (exists c, u = [c] /\ (c < 128)%N) \/ Forall (fun c => (128 <= c)%N) u.
Proof.
  intros u d. destruct (u ++ d) as [|c r]; [discriminate|]. cbn [first_unit]. destruct (announced c <=? _); [|discriminate]. intros E. injection E as <-.
  destruct (N.lt_ge_cases c 128) as [H|H].
  - left. exists c. split; [|exact H]. unfold announced. destruct (N.ltb_spec c 0xC2) as [|?]; [|lia]. reflexivity.
  - right. constructor; [exact H|]. generalize (announced c - 1) as n. clear. intros n. revert r. induction n as [|n IH]; intros [|c r]; cbn [continuations]; try constructor.
    destruct (continuation c) eqn:E; constructor; [|apply IH]. unfold continuation in E. apply andb_prop in E. destruct E as (E & _). apply N.leb_le in E. exact E.
Qed.
Lemma char_ascii : forall c, (c < 128)%N -> character [c] = c.
Proof. intros c H. apply N.eqb_eq. revert c H. apply ascii_forall. vm_compute. reflexivity. Qed.
Lemma keep_chars : forall f (R : N -> N -> Prop), ascii_keep f -> (forall c, R c c) -> (forall c, (c < 128)%N -> R c (f c)) ->
  forall d us tail, units d us tail -> Forall2 (fun u u' => R (character u) (character u')) us (map (map f) us).
Proof.
  intros f R (A & B) Rr Ra d us tail U. induction U as [tail E|u d us tail E U IH]; cbn [map]; constructor; [|exact IH].
  destruct (unit_bytes u d E) as [(c & -> & H)|F].
  - cbn [map]. rewrite (char_ascii c H), (char_ascii (f c) (A c H)). apply Ra. exact H.
  - replace (map f u) with u; [apply Rr|]. symmetry. erewrite map_ext_in; [apply map_id|]. intros c Hc. apply B. exact (proj1 (Forall_forall _ _) F c Hc).
Qed.

Lemma renames_keep : forall f, renames f -> ascii_keep f.
Proof.
  intros f H. split; intros c Hc; specialize (H c); unfold lower_byte, upper_byte, digit_byte in H;
    repeat match goal with H : context [N.leb ?a ?b] |- _ => destruct (N.leb_spec a b) in H end; cbn in H; try discriminate; lia.
Qed.
Lemma case_keep : forall f, renames_in_case f -> ascii_keep f.
Proof.
  intros f H. split; intros c Hc; specialize (H c); unfold lower_byte, upper_byte, digit_byte in H;
    repeat match goal with H : context [N.leb ?a ?b] |- _ => destruct (N.leb_spec a b) in H end; cbn in H; try discriminate; lia.
Qed.

(** What the tables say of ASCII: the classes of two characters that may replace each other. *)
Definition agree (c d : N) : bool := gcb_beq (GCB c) (GCB d) && incb_beq (InCB c) (InCB d) && Bool.eqb (ExtPict c) (ExtPict d) && wb_beq (WB c) (WB d).
Lemma agree_same : forall c d, agree c d = true -> same_grapheme c d /\ same_word c d.
Proof.
  intros c d H. unfold agree in H. apply andb_prop in H. destruct H as (H & H4). apply andb_prop in H. destruct H as (H & H3). apply andb_prop in H. destruct H as (H1 & H2).
  apply internal_gcb_dec_bl in H1. apply internal_incb_dec_bl in H2. apply eqb_prop in H3. apply internal_wb_dec_bl in H4. unfold same_grapheme, same_word. auto.
Qed.
Lemma agree_intro : forall c d, same_grapheme c d -> WB c = WB d -> agree c d = true.
Proof. intros c d (A & B & C) D. unfold agree. rewrite A, B, C, D, internal_gcb_dec_lb, internal_incb_dec_lb, eqb_reflx, internal_wb_dec_lb; reflexivity. Qed.
(** Letters are like a, digits like 0. *)
Lemma like_a : forall c, (c < 128)%N -> (lower_byte c || upper_byte c = true -> agree c 97 = true) /\ (digit_byte c = true -> agree c 48 = true).
Proof.
  intros c H. unfold agree. rewrite (GCB_ascii c H), (InCB_ascii c H), (ExtPict_ascii c H), (WB_ascii c H), (GCB_ascii 97%N eq_refl), (InCB_ascii 97%N eq_refl), (ExtPict_ascii 97%N eq_refl), (WB_ascii 97%N eq_refl), (GCB_ascii 48%N eq_refl), (InCB_ascii 48%N eq_refl), (ExtPict_ascii 48%N eq_refl), (WB_ascii 48%N eq_refl).
  assert (A : forall p q, (p = true -> q = true) <-> implb p q = true) by (intros [] []; cbn; intuition congruence). rewrite !A. apply andb_prop. revert c H. apply ascii_forall. vm_compute. reflexivity.
Qed.
Lemma like_case : forall c, (c < 128)%N -> (lower_byte c = true -> SB c = SB 97%N) /\ (upper_byte c = true -> SB c = SB 65%N) /\ (digit_byte c = true -> SB c = SB 48%N).
Proof.
  intros c H. rewrite (SB_ascii c H), (SB_ascii 97%N eq_refl), (SB_ascii 65%N eq_refl), (SB_ascii 48%N eq_refl).
  assert (B : forall p k l, implb p (sb_beq k l) = true -> p = true -> k = l) by (intros p k l X ->; apply internal_sb_dec_bl; exact X).
  assert (A : let v := range_value SB_Other sb_ascii in implb (lower_byte c) (sb_beq (v c) (v 97%N)) && implb (upper_byte c) (sb_beq (v c) (v 65%N)) && implb (digit_byte c) (sb_beq (v c) (v 48%N)) = true).
  { revert c H. apply ascii_forall. vm_compute. reflexivity. }
  cbv zeta in A. apply andb_prop in A. destruct A as (A & A3). apply andb_prop in A. destruct A as (A1 & A2). repeat split; apply B; assumption.
Qed.
Lemma letters_agree : forall x y, (x < 128)%N -> (y < 128)%N -> implb ((lower_byte x || upper_byte x) && (lower_byte y || upper_byte y) || digit_byte x && digit_byte y) (agree x y) = true.
Proof.
  intros x y Hx Hy. destruct (like_a x Hx) as (X1 & X2). destruct (like_a y Hy) as (Y1 & Y2). assert (T : forall d, agree x d = true -> agree y d = true -> agree x y = true).
  { intros d A B. apply agree_same in A, B. destruct A as ((A1 & A2 & A3) & A4 & _), B as ((B1 & B2 & B3) & B4 & _). apply agree_intro; [repeat split|]; congruence. }
  destruct (lower_byte x || upper_byte x), (lower_byte y || upper_byte y), (digit_byte x), (digit_byte y); cbn [andb orb implb]; try reflexivity; first [exact (T _ (X1 eq_refl) (Y1 eq_refl))|exact (T _ (X2 eq_refl) (Y2 eq_refl))].
Qed.
Lemma cases_agree : forall x y, (x < 128)%N -> (y < 128)%N -> implb (lower_byte x && lower_byte y || upper_byte x && upper_byte y || digit_byte x && digit_byte y) (sb_beq (SB x) (SB y)) = true.
Proof.
  intros x y Hx Hy. destruct (like_case x Hx) as (X1 & X2 & X3). destruct (like_case y Hy) as (Y1 & Y2 & Y3). assert (T : forall k, SB x = k -> SB y = k -> sb_beq (SB x) (SB y) = true) by (intros k A B; rewrite A, B; apply internal_sb_dec_lb; reflexivity).
  destruct (lower_byte x), (lower_byte y), (upper_byte x), (upper_byte y), (digit_byte x), (digit_byte y); cbn [andb orb implb]; try reflexivity;
    first [exact (T _ (X1 eq_refl) (Y1 eq_refl))|exact (T _ (X2 eq_refl) (Y2 eq_refl))|exact (T _ (X3 eq_refl) (Y3 eq_refl))].
Qed.

Lemma agree_refl : forall c, agree c c = true.
Proof. intros c. unfold agree. rewrite internal_gcb_dec_lb, internal_incb_dec_lb, eqb_reflx, internal_wb_dec_lb; reflexivity. Qed.
Lemma renames_agree : forall f, renames f -> forall c, (c < 128)%N -> agree c (f c) = true.
Proof.
  intros f H c Hc. pose proof (proj1 (renames_keep f H) c Hc) as Hf. pose proof (letters_agree c (f c) Hc Hf) as A. specialize (H c).
  destruct (lower_byte c || upper_byte c); [rewrite H in A; exact A|]. destruct (digit_byte c); [rewrite H, orb_true_r in A; exact A|]. rewrite H. apply agree_refl.
Qed.
Lemma case_agree : forall f, renames_in_case f -> forall c, (c < 128)%N -> same_sentence c (f c).
Proof.
  intros f H c Hc. pose proof (proj1 (case_keep f H) c Hc) as Hf. pose proof (cases_agree c (f c) Hc Hf) as A. specialize (H c). unfold same_sentence.
  destruct (lower_byte c); [rewrite H in A; apply internal_sb_dec_bl; exact A|]. destruct (upper_byte c); [rewrite H in A; apply internal_sb_dec_bl; exact A|].
  destruct (digit_byte c); [rewrite H, orb_true_r in A; apply internal_sb_dec_bl; exact A|]. rewrite H. reflexivity.
Qed.
