(** Comparing range tables: they are walked through together, from one point to the next, where the points include all ends of ranges, so that the tables are constant in between. *)
From Verif Require Import Base SpecUcd SpecUcd15 SpecSince.
Local Open Scope N_scope.

Fixpoint above {A : Type} (b : N) (t : list (N * N * A)) : bool :=
  match t with [] => true | (lo, hi, _) :: r => (b <=? lo) && (lo <=? hi) && above (hi + 1) r end.
Fixpoint drop_to {A : Type} (p : N) (t : list (N * N * A)) : list (N * N * A) :=
  match t with [] => [] | (_, hi, _) :: r => if hi <? p then drop_to p r else t end.
(** The value from [p] up to the next point, if it is the same all the way; [t] has no range that ends before [p]. *)
Definition stretch {A : Type} (d : A) (t : list (N * N * A)) (p : N) (next : list N) : option A :=
  match t, next with
  | [], _ => Some d
  | (lo, hi, v) :: _, q :: _ => if lo <=? p then (if q <=? hi + 1 then Some v else None) else (if q <=? lo then Some d else None)
  | _, [] => None
  end.
Lemma above_low : forall A (d : A) t b c, above b t = true -> c < b -> range_value d t c = d.
Proof.
  intros A d t. induction t as [|((lo, hi), v) t IH]; intros b c H L; [reflexivity|]. cbn [above] in H. apply andb_prop in H. destruct H as (H & H3). apply andb_prop in H. destruct H as (H1 & H2). apply N.leb_le in H1, H2.
  cbn [range_value]. destruct (N.leb_spec lo c); [lia|]. cbn [andb]. apply (IH (hi + 1)); [exact H3|lia].
Qed.
Lemma drop_value : forall A (d : A) p t c, p <= c -> range_value d (drop_to p t) c = range_value d t c.
Proof.
  intros A d p t c L. induction t as [|((lo, hi), v) t IH]; [reflexivity|]. cbn [drop_to]. destruct (N.ltb_spec hi p); [|reflexivity]. rewrite IH. cbn [range_value]. destruct (N.leb_spec c hi); [lia|]. rewrite andb_false_r. reflexivity.
Qed.
Lemma drop_above : forall A p (t : list (N * N * A)) b, above b t = true -> exists b', above b' (drop_to p t) = true.
Proof.
  intros A p t. induction t as [|((lo, hi), v) t IH]; intros b H; [exists 0; reflexivity|]. cbn [drop_to]. destruct (hi <? p); [|exists b; exact H]. cbn [above] in H. apply andb_prop in H. exact (IH _ (proj2 H)).
Qed.
Lemma drop_head : forall A p (t : list (N * N * A)), match drop_to p t with (_, hi, _) :: _ => p <= hi | [] => True end.
Proof. intros A p t. induction t as [|((lo, hi), v) t IH]; [exact I|]. cbn [drop_to]. destruct (N.ltb_spec hi p); [exact IH|exact H]. Qed.
Lemma stretch_ok : forall A (d : A) t b p next c v, above b t = true -> match t with (_, hi, _) :: _ => p <= hi | [] => True end -> p <= c -> match next with q :: _ => c < q | [] => True end ->
  stretch d t p next = Some v -> range_value d t c = v.
Proof.
  intros A d t b p next c v H HP L N S. destruct t as [|((lo, hi), x) t]; cbn [stretch] in S; [injection S as <-; reflexivity|]. destruct next as [|q next]; [discriminate|].
  cbn [above] in H. apply andb_prop in H. destruct H as (H & H3). apply andb_prop in H. destruct H as (H1 & H2). apply N.leb_le in H1, H2. cbn [range_value]. destruct (N.leb_spec lo p).
  - destruct (N.leb_spec q (hi + 1)); [|discriminate]. injection S as <-. destruct (N.leb_spec lo c); [|lia]. destruct (N.leb_spec c hi); [reflexivity|lia].
  - destruct (N.leb_spec q lo); [|discriminate]. injection S as <-. destruct (N.leb_spec lo c); [lia|]. apply (above_low _ _ _ (hi + 1)); [exact H3|lia].
Qed.
Section Walk.
  Context {A B C D : Type} (da : A) (db : B) (dc : C) (dd : D) (Q : A -> B -> C -> D -> bool).
  Fixpoint walk (ta : list (N * N * A)) (tb : list (N * N * B)) (tc : list (N * N * C)) (td : list (N * N * D)) (ps : list N) : bool :=
    match ps with
    | [] => true
    | p :: r =>
      let ta := drop_to p ta in let tb := drop_to p tb in let tc := drop_to p tc in let td := drop_to p td in
      match stretch da ta p r, stretch db tb p r, stretch dc tc p r, stretch dd td p r with
      | Some a, Some b, Some c, Some d => Q a b c d && walk ta tb tc td r
      | _, _, _, _ => false
      end
    end.
  Lemma walk_ok : forall ps ta tb tc td b1 b2 b3 b4, above b1 ta = true -> above b2 tb = true -> above b3 tc = true -> above b4 td = true -> walk ta tb tc td ps = true ->
    forall c, match ps with p :: _ => p <= c | [] => False end -> Q (range_value da ta c) (range_value db tb c) (range_value dc tc c) (range_value dd td c) = true.
  Proof.
    induction ps as [|p r IH]; intros ta tb tc td b1 b2 b3 b4 H1 H2 H3 H4 W c L; [destruct L|]. cbn [walk] in W. cbv zeta in W.
    destruct (drop_above _ p _ _ H1) as (b1' & K1). destruct (drop_above _ p _ _ H2) as (b2' & K2). destruct (drop_above _ p _ _ H3) as (b3' & K3). destruct (drop_above _ p _ _ H4) as (b4' & K4).
    pose proof (drop_head _ p ta) as P1. pose proof (drop_head _ p tb) as P2. pose proof (drop_head _ p tc) as P3. pose proof (drop_head _ p td) as P4.
    rewrite <- (drop_value _ da p ta c L), <- (drop_value _ db p tb c L), <- (drop_value _ dc p tc c L), <- (drop_value _ dd p td c L).
    generalize dependent (drop_to p ta). generalize dependent (drop_to p tb). generalize dependent (drop_to p tc). generalize dependent (drop_to p td). clear ta tb tc td b1 b2 b3 b4 H1 H2 H3 H4. intros td K4 P4 tc K3 P3 tb K2 P2 ta W K1 P1.
    destruct (stretch da ta p r) as [va|] eqn:E1; [|discriminate]. destruct (stretch db tb p r) as [vb|] eqn:E2; [|discriminate]. destruct (stretch dc tc p r) as [vc|] eqn:E3; [|discriminate]. destruct (stretch dd td p r) as [vd|] eqn:E4; [|discriminate].
    apply andb_prop in W. destruct W as (W & WR).
    assert (N : (match r with q :: _ => q <= c | [] => False end) \/ (match r with q :: _ => c < q | [] => True end)) by (destruct r; [right; exact I|lia]). destruct N as [N|N]; [exact (IH _ _ _ _ _ _ _ _ K1 K2 K3 K4 WR c N)|].
    rewrite (stretch_ok _ _ _ _ _ _ _ _ K1 P1 L N E1), (stretch_ok _ _ _ _ _ _ _ _ K2 P2 L N E2), (stretch_ok _ _ _ _ _ _ _ _ K3 P3 L N E3), (stretch_ok _ _ _ _ _ _ _ _ K4 P4 L N E4). exact W.
  Qed.
  Lemma everywhere : forall ps ta tb tc td, above 0 ta && above 0 tb && above 0 tc && above 0 td && walk ta tb tc td (0 :: ps) = true ->
    forall c, Q (range_value da ta c) (range_value db tb c) (range_value dc tc c) (range_value dd td c) = true.
  Proof.
    intros ps ta tb tc td H c. apply andb_prop in H. destruct H as (H & W). apply andb_prop in H. destruct H as (H & H4). apply andb_prop in H. destruct H as (H & H3). apply andb_prop in H. destruct H as (H1 & H2).
    exact (walk_ok _ _ _ _ _ _ _ _ _ H1 H2 H3 H4 W c (N.le_0_l c)).
  Qed.
End Walk.

(** The points: the ends of all the ranges, in order. *)
Definition ends {A : Type} (t : list (N * N * A)) : list N := flat_map (fun e : N * N * A => [fst (fst e); snd (fst e) + 1]) t.
Fixpoint insert_all (fuel : nat) (l m : list N) : list N :=
  match fuel with
  | O => []
  | S fuel => match l, m with [], _ => m | _, [] => l | x :: l', y :: m' => if x <? y then x :: insert_all fuel l' m else if y <? x then y :: insert_all fuel l m' else insert_all fuel l m' end
  end.
Definition both (l m : list N) : list N := insert_all (length l + length m + 1) l m.
(** Changed characters count as ranges of one. *)
Definition singles {A : Type} (t : list (N * A)) : list (N * N * option A) := map (fun e : N * A => (fst e, fst e, Some (snd e))) t.
Lemma changed_single : forall A (old : N -> A) t c, or_changed old t c = match range_value None (singles t) c with Some v => v | None => old c end.
Proof.
  intros A old t c. unfold or_changed. induction t as [|(x, v) t IH]; [reflexivity|]. cbn [find singles map range_value fst snd]. destruct (N.eqb_spec x c) as [E|E].
  - subst x. rewrite N.leb_refl. reflexivity.
  - destruct (N.leb_spec x c), (N.leb_spec c x); cbn [andb]; try exact IH. exfalso; lia.
Qed.
Definition or_old {A : Type} (o : option A) (a : A) : A := match o with Some v => v | None => a end.

Definition g_check (c : N) : bool := negb (Encoded15 c) || gcb_beq (GCB c) (or_changed GCB15 gcb_changes c).
Definition w_check (c : N) : bool := negb (Encoded15 c) || wb_beq (WB c) (or_changed WB15 wb_changes c).
Definition s_check (c : N) : bool := negb (Encoded15 c) || sb_beq (SB c) (or_changed SB15 sb_changes c).
Definition x_check (c : N) : bool := negb (Encoded15 c) || Bool.eqb (ExtPict c) (ExtPict15 c && Emoji15 c).
Definition b_check (c : N) : bool := Bool.eqb (BleveIdeographic c) (wb_beq (WB c) WB_Katakana || Han15 c || Hiragana15 c).
Definition i_check (c : N) : bool := Bool.eqb (incb_beq (InCB c) InCB_Extend || incb_beq (InCB c) InCB_Linker) ((gcb_beq (GCB c) GCB_Extend || gcb_beq (GCB c) GCB_ZWJ) && negb (c =? 0x200C)).

Definition g_points : list N := Eval vm_compute in both (ends encoded15_table) (both (ends gcb_table) (both (ends gcb15_table) (ends (singles gcb_changes)))).
Definition w_points : list N := Eval vm_compute in both (ends encoded15_table) (both (ends wb_table) (both (ends wb15_table) (ends (singles wb_changes)))).
Definition s_points : list N := Eval vm_compute in both (ends encoded15_table) (both (ends sb_table) (both (ends sb15_table) (ends (singles sb_changes)))).
Definition x_points : list N := Eval vm_compute in both (ends encoded15_table) (both (ends extpict_table) (both (ends extpict15_table) (ends emoji15_table))).
Definition b_points : list N := Eval vm_compute in both (ends ideographic_table) (both (ends wb_table) (both (ends han15_table) (ends hiragana15_table))).
Definition joiner_table : list (N * N * bool) := [(0x200C, 0x200C, true)].
Definition i_points : list N := Eval vm_compute in both (ends incb_table) (both (ends gcb_table) (ends joiner_table)).
Lemma g_all : forall c, g_check c = true.
Proof.
  intros c. unfold g_check. rewrite changed_single. apply (everywhere false GCB_Other GCB_Other None (fun e a b o => negb e || gcb_beq a (or_old o b)) g_points encoded15_table gcb_table gcb15_table (singles gcb_changes)). vm_compute. reflexivity.
Qed.
Lemma w_all : forall c, w_check c = true.
Proof.
  intros c. unfold w_check. rewrite changed_single. apply (everywhere false WB_Other WB_Other None (fun e a b o => negb e || wb_beq a (or_old o b)) w_points encoded15_table wb_table wb15_table (singles wb_changes)). vm_compute. reflexivity.
Qed.
Lemma s_all : forall c, s_check c = true.
Proof.
  intros c. unfold s_check. rewrite changed_single. apply (everywhere false SB_Other SB_Other None (fun e a b o => negb e || sb_beq a (or_old o b)) s_points encoded15_table sb_table sb15_table (singles sb_changes)). vm_compute. reflexivity.
Qed.
Lemma x_all : forall c, x_check c = true.
Proof. apply (everywhere false false false false (fun e a b m => negb e || Bool.eqb a (b && m)) x_points encoded15_table extpict_table extpict15_table emoji15_table). vm_compute. reflexivity. Qed.
Lemma b_all : forall c, b_check c = true.
Proof. apply (everywhere false WB_Other false false (fun i w h k => Bool.eqb i (wb_beq w WB_Katakana || h || k)) b_points ideographic_table wb_table han15_table hiragana15_table). vm_compute. reflexivity. Qed.
Lemma i_all : forall c, i_check c = true.
Proof.
  intros c. unfold i_check. assert (E : (c =? 0x200C) = range_value false joiner_table c) by (cbn [range_value joiner_table]; destruct (N.eqb_spec c 0x200C), (N.leb_spec 0x200C c), (N.leb_spec c 0x200C); cbn [andb]; try reflexivity; exfalso; lia). rewrite E.
  apply (everywhere InCB_Other GCB_Other false tt (fun i g j _ => Bool.eqb (incb_beq i InCB_Extend || incb_beq i InCB_Linker) ((gcb_beq g GCB_Extend || gcb_beq g GCB_ZWJ) && negb j)) i_points incb_table gcb_table joiner_table []). vm_compute. reflexivity.
Qed.
