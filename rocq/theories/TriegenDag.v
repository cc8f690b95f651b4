(** Running the generator without visiting a shared block twice: the blocks of a trie are given in the order in which the generator
    allocates them, with a check that this is the order. *)
From Verif Require Import Base Trie SpecUtf8 ListFacts SpecTriegen Triegen SpecTrieHash TriegenFacts TriegenBuild TriegenExt.
Local Open Scope N_scope.

Definition isz (v : N) : bool := v =? 0.

Section Hash.
  Variable H : list N -> N.
  Variable VB : list (list N).
  Variable IB : list (nat * list N).

  Definition vblock (v : N) : list N := nth (N.to_nat (v - 1)) VB [].
  Definition ient (i : N) : nat * list N := nth (N.to_nat (i - 2)) IB (0%nat, []).
  Definition irow (i : N) : list N := snd (ient i).
  Definition ilev (i : N) : nat := fst (ient i).


  (** The hash of the node a handle stands for; each is computed once. *)
  Section Tables.
    Variable HV H1 H2 : list N.
    Definition hash (k : nat) (v : N) : N :=
      if isz v then 0 else match k with O => nth (N.to_nat (v - 1)) HV 0 | 1%nat => nth (N.to_nat (v - 2)) H1 0 | _ => nth (N.to_nat (v - 2)) H2 0 end.
  End Tables.
  Definition HV : list N := map H VB.
  Definition level1 (HV : list N) : list N := map (fun e => if Nat.eqb (fst e) 1 then H (map (hash HV [] [] 0) (snd e)) else 0) IB.
  Definition level2 (H1 : list N) : list N := map (fun e => if Nat.eqb (fst e) 2 then H (map (hash [] H1 [] 1) (snd e)) else 0) IB.
  Notation h := (hash HV (level1 HV) (level2 (level1 HV))).

  Lemma hash_leaf : forall v, 1 <= v <= N.of_nat (length VB) -> h 0 v = H (vblock v).
  Proof.
    intros v L. unfold hash, isz. rewrite (proj2 (N.eqb_neq v 0)) by lia. unfold HV, vblock. rewrite (nth_indep _ 0 (H [])) by (rewrite map_length; lia). apply map_nth.
  Qed.
  Lemma hash_zero : forall A B C A' B' C' k, hash A B C k 0 = hash A' B' C' k 0. Proof. reflexivity. Qed.
  Lemma hash_row : forall k i, (k <= 1)%nat -> 2 <= i <= N.of_nat (length IB) + 1 -> ilev i = S k -> h (S k) i = H (map (h k) (irow i)).
  Proof.
    intros k i Lk L E. assert (Li : (N.to_nat (i - 2) < length IB)%nat) by lia. unfold hash at 1, isz. rewrite (proj2 (N.eqb_neq i 0)) by lia. unfold irow, ilev, ient in *.
    destruct k as [|[|k]]; [| |lia].
    - unfold level1 at 1. rewrite (nth_indep _ 0 ((fun e => if Nat.eqb (fst e) 1 then H (map (hash HV [] [] 0) (snd e)) else 0) (0%nat, []))) by (rewrite map_length; exact Li).
      rewrite (map_nth (fun e => if Nat.eqb (fst e) 1 then H (map (hash HV [] [] 0) (snd e)) else 0)). rewrite E. cbn [Nat.eqb]. reflexivity.
    - unfold level2 at 1. rewrite (nth_indep _ 0 ((fun e => if Nat.eqb (fst e) 2 then H (map (hash [] (level1 HV) [] 1) (snd e)) else 0) (0%nat, []))) by (rewrite map_length; exact Li).
      rewrite (map_nth (fun e => if Nat.eqb (fst e) 2 then H (map (hash [] (level1 HV) [] 1) (snd e)) else 0)). rewrite E. cbn [Nat.eqb]. reflexivity.
  Qed.

End Hash.

Section Dag.
  Variable H : list N -> N.
  (** The values below 0x80; the value blocks with handles 1, 2, ...; the index blocks with handles 2, 3, ..., each with the depth of
      its node; the row of the root. *)
  Variable ascii : list N.
  Variable VB : list (list N).
  Variable IB : list (nat * list N).
  Variable root : list N.

  Notation vblock := (vblock VB).
  Notation irow := (irow IB).
  Notation ilev := (ilev IB).
  Notation ient := (ient IB).
  (** The node a handle stands for. *)
  Fixpoint den (k : nat) (v : N) : option node :=
    if isz v then None else match k with O => Some (Node [] (vblock v)) | S j => Some (Node (map (den j) (irow v)) []) end.
  Fixpoint droot (p : nat) (l : list N) : list (option node) := match l with [] => [] | v :: r => den (depth p) v :: droot (S p) r end.
  Definition T : node := Node (droot 0 root) ascii.

  Notation HV := (HV H VB).
  Notation level1 := (level1 H IB).
  Notation level2 := (level2 H IB).
  Notation h := (hash HV (level1 HV) (level2 (level1 HV))).
  Definition hidx (i : N) : N := h (ilev i) i.

  (** The order of allocation: the next value block and the next index block. *)
  Definition state : Type := N * N.
  Fixpoint visits (f : N -> state -> option state) (l : list N) (st : state) : option state :=
    match l with [] => Some st | v :: r => match f v st with Some st' => visits f r st' | None => None end end.
  Fixpoint visit (k : nat) (v : N) (st : state) : option state :=
    if isz v then Some st else
    match k with
    | O => if v <? fst st then Some st else if (v =? fst st) && (v <=? N.of_nat (length VB)) then Some (fst st + 1, snd st) else None
    | S j =>
      if v <? snd st then (if (2 <=? v) && Nat.eqb (ilev v) k then Some st else None)
      else match visits (visit j) (irow v) st with
           | Some st' => if (v =? snd st') && (v <=? N.of_nat (length IB) + 1) && Nat.eqb (ilev v) k then Some (fst st', snd st' + 1) else None
           | None => None
           end
    end.
  Fixpoint visit_root (p : nat) (l : list N) (st : state) : option state :=
    match l with [] => Some st | v :: r => match visit (depth p) v st with Some st' => visit_root (S p) r st' | None => None end end.

  Definition seen (st : state) (k : nat) (v : N) : Prop :=
    match k with O => 1 <= v < fst st | S _ => 2 <= v < snd st /\ ilev v = k end.
  Definition le_st (a b : state) : Prop := fst a <= fst b /\ snd a <= snd b.
  Record closed (st : state) : Prop := {
    cl_v : 1 <= fst st <= N.of_nat (length VB) + 1;
    cl_i : 2 <= snd st <= N.of_nat (length IB) + 2;
    cl_rows : forall i k, seen st (S k) i -> forall c, In c (irow i) -> c <> 0 -> seen st k c }.

  Hypothesis VB_ok : Forall (fun b => length b = 64%nat) VB.
  Hypothesis IB_ok : Forall (fun e => length (snd e) = 64%nat) IB.
  Hypothesis HV_inj : forall v v', 1 <= v <= N.of_nat (length VB) -> 1 <= v' <= N.of_nat (length VB) -> h 0 v = h 0 v' -> v = v'.
  Hypothesis HV_nz : forall v, 1 <= v <= N.of_nat (length VB) -> h 0 v <> 0.
  Hypothesis HI_inj : forall i i', 2 <= i <= N.of_nat (length IB) + 1 -> 2 <= i' <= N.of_nat (length IB) + 1 -> hidx i = hidx i' -> i = i'.
  Hypothesis HI_nz : forall i, 2 <= i <= N.of_nat (length IB) + 1 -> hidx i <> 0.

  Lemma seen_le : forall a b k v, le_st a b -> seen a k v -> seen b k v.
  Proof. intros a b [|k] v [L1 L2] S; unfold seen in *; [lia|]. destruct S as [S E]. split; [lia|exact E]. Qed.
  Lemma le_refl : forall a, le_st a a. Proof. intros a. unfold le_st. lia. Qed.
  Lemma le_trans : forall a b c, le_st a b -> le_st b c -> le_st a c. Proof. unfold le_st. intros. lia. Qed.
  Lemma seen_nz : forall st k v, seen st k v -> isz v = false.
  Proof. intros st [|k] v S; unfold seen, isz in *; apply N.eqb_neq; lia. Qed.

  Lemma vblock_len : forall v, 1 <= v <= N.of_nat (length VB) -> length (vblock v) = 64%nat.
  Proof. intros v L. rewrite Forall_forall in VB_ok. apply VB_ok. unfold vblock. apply nth_In. lia. Qed.
  Lemma irow_len : forall i, 2 <= i <= N.of_nat (length IB) + 1 -> length (irow i) = 64%nat.
  Proof. intros i L. rewrite Forall_forall in IB_ok. apply IB_ok. unfold ient. apply nth_In. lia. Qed.
  Definition zero3 : list (list N) := [firstn 64 ascii; skipn 64 ascii; repeat 0 64].
  Record sim (st : state) (b : builder) : Prop := {
    sim_values : b_values b = zero3 ++ firstn (N.to_nat (fst st - 1)) VB;
    sim_index : b_index b = [[]; []; []; []] ++ map snd (firstn (N.to_nat (snd st - 2)) IB);
    sim_v : forall v, 1 <= v < fst st -> find (h 0 v) (b_vidx b) = Some v;
    sim_v' : forall x v, find x (b_vidx b) = Some v -> x = 0 \/ exists v', 1 <= v' < fst st /\ x = h 0 v';
    sim_i : forall i, 2 <= i < snd st -> find (hidx i) (b_iidx b) = Some i;
    sim_i' : forall x v, find x (b_iidx b) = Some v -> x = 0 \/ exists i, 2 <= i < snd st /\ x = hidx i;
    sim_max : b_maxHandle b = fst st - 1 }.

  Lemma not_first : forall st b, sim st b -> Nat.eqb (length (b_index b)) rootBlockOffset = false.
  Proof. intros st b S. rewrite (sim_index st b S). reflexivity. Qed.

  Lemma offs_seen : forall j (st : state) b row, (forall c, In c row -> c <> 0 -> exists n, den j c = Some n /\ computeOffsets H n b = (h j c, c, b)) ->
    offs H (map (den j) row) b = (map (h j) row, row, b).
  Proof.
    intros j st b. induction row as [|c row IH]; intros C; [reflexivity|]. cbn [map]. destruct (N.eq_dec c 0) as [->|Hc].
    - replace (den j 0) with (@None node) by (destruct j; reflexivity). cbn [offs]. rewrite IH by (intros c I; apply C; right; exact I). reflexivity.
    - destruct (C c (or_introl eq_refl) Hc) as (n & En & Ec). rewrite En. cbn [offs]. rewrite Ec, IH by (intros c' I; apply C; right; exact I). reflexivity.
  Qed.

  Lemma nil_len : forall (A : Type) (l : list A), length l = 64%nat -> is_nil l = false.
  Proof. intros A [|x l] E; [discriminate E|reflexivity]. Qed.

  Lemma seen_ok : forall k st b v, (k <= 2)%nat -> closed st -> sim st b -> seen st k v -> exists n, den k v = Some n /\ computeOffsets H n b = (h k v, v, b).
  Proof.
    induction k as [|k IH]; intros st b v Lk C S Sv; pose proof (seen_nz _ _ _ Sv) as Z; cbn [den]; rewrite Z; eexists; (split; [reflexivity|]); rewrite computeOffsets_eq; cbv zeta; rewrite (not_first st b S).
    - cbn [seen] in Sv. pose proof (cl_v st C) as B. cbn [offs]. cbn [is_nil negb app andb]. rewrite (nil_len _ _ (vblock_len v ltac:(lia))).
      rewrite <- (hash_leaf H VB IB v) by lia. rewrite (sim_v st b S v Sv). reflexivity.
    - destruct Sv as [Sv El]. pose proof (cl_i st C) as B.
      rewrite (offs_seen k st b (irow v)).
      + cbn [is_nil]. assert (Lr : length (irow v) = 64%nat) by (apply irow_len; lia). rewrite (nil_len _ (map (den k) (irow v))) by (rewrite map_length; exact Lr). cbn [andb negb].
        rewrite app_nil_r. rewrite <- (hash_row H VB IB k v) by (lia || exact El). pose proof (sim_i st b S v Sv) as F. unfold hidx in F. rewrite El in F. rewrite F. reflexivity.
      + intros c Ic Hc. apply (IH st b c); [lia|exact C|exact S|]. apply (cl_rows st C v k); [split; [exact Sv|exact El]|exact Ic|exact Hc].
  Qed.

  Definition post (k : nat) (v : N) (st : state) (b : builder) (st' : state) : Prop :=
    closed st' /\ le_st st st' /\ (v <> 0 -> seen st' k v /\ exists n b', den k v = Some n /\ computeOffsets H n b = (h k v, v, b') /\ sim st' b') /\ (v = 0 -> st' = st).

  Lemma offs_visits : forall j, (forall v st b st', closed st -> sim st b -> visit j v st = Some st' -> post j v st b st') ->
    forall row st b st', closed st -> sim st b -> visits (visit j) row st = Some st' ->
    exists b', offs H (map (den j) row) b = (map (h j) row, row, b') /\ sim st' b' /\ closed st' /\ le_st st st' /\ forall c, In c row -> c <> 0 -> seen st' j c.
  Proof.
    intros j V. induction row as [|c row IH]; intros st b st' C S E.
    - injection E as <-. exists b. split; [reflexivity|]. split; [exact S|]. split; [exact C|]. split; [apply le_refl|]. intros c [].
    - cbn [visits] in E. destruct (visit j c st) as [st1|] eqn:E1; [|discriminate E]. destruct (V c st b st1 C S E1) as (C1 & L1 & Nz & Zr). cbn [map].
      destruct (N.eq_dec c 0) as [->|Hc].
      + rewrite (Zr eq_refl) in *. destruct (IH st b st' C S E) as (b' & Eo & S' & C' & L' & Se). exists b'. replace (den j 0) with (@None node) by (destruct j; reflexivity). cbn [offs]. rewrite Eo.
        split; [reflexivity|]. split; [exact S'|]. split; [exact C'|]. split; [exact L'|]. intros c [<-|I] H0; [contradiction H0; reflexivity|exact (Se c I H0)].
      + destruct (Nz Hc) as (Sc & n & b1 & En & Ec & S1). destruct (IH st1 b1 st' C1 S1 E) as (b' & Eo & S' & C' & L' & Se). exists b'. rewrite En. cbn [offs]. rewrite Ec, Eo.
        split; [reflexivity|]. split; [exact S'|]. split; [exact C'|]. split; [exact (le_trans _ _ _ L1 L')|]. intros c' [<-|I] H0; [exact (seen_le st1 st' j c L' Sc)|exact (Se c' I H0)].
  Qed.

  Lemma firstn_snoc : forall (A : Type) (l : list A) d i, (i < length l)%nat -> firstn (S i) l = firstn i l ++ [nth i l d].
  Proof. intros A. induction l as [|x l IH]; intros d [|i] L; cbn [length] in L; try lia; [reflexivity|]. cbn [firstn nth app]. rewrite <- (IH d i) by lia. reflexivity. Qed.

  Lemma visit_ok : forall k v st b st', (k <= 2)%nat -> closed st -> sim st b -> visit k v st = Some st' -> post k v st b st'.
  Proof.
    induction k as [|k IH]; intros v st b st' Lk C S E; cbn [visit] in E; destruct (isz v) eqn:Z.
    - injection E as <-. split; [exact C|]. split; [apply le_refl|]. split; [|reflexivity]. intros Hv. apply N.eqb_eq in Z. contradiction.
    - apply N.eqb_neq in Z. destruct (N.ltb_spec v (fst st)) as [L|L].
      + injection E as <-. assert (Sv : seen st 0 v) by (cbn [seen]; lia). split; [exact C|]. split; [apply le_refl|]. split; [|contradiction]. intros _. split; [exact Sv|].
        destruct (seen_ok 0 st b v ltac:(lia) C S Sv) as (n & En & Ec). exists n, b. repeat split; assumption || apply S.
      + destruct ((v =? fst st) && (v <=? N.of_nat (length VB))) eqn:Q; [|discriminate E]. injection E as <-. apply andb_true_iff in Q as [Q1 Q2]. apply N.eqb_eq in Q1. apply N.leb_le in Q2.
        pose proof (cl_v st C) as Bv. pose proof (cl_i st C) as Bi.
        assert (L' : le_st st (fst st + 1, snd st)) by (unfold le_st; cbn [fst snd]; lia).
        assert (C' : closed (fst st + 1, snd st)).
        { constructor; cbn [fst snd]; [lia|exact Bi|]. intros i j Si c Ic Hc. apply (seen_le st _ j c L'). apply (cl_rows st C i j); [exact Si|exact Ic|exact Hc]. }
        split; [exact C'|]. split; [exact L'|]. split; [|contradiction]. intros _. split; [cbn [seen fst]; lia|].
        cbn [den]. rewrite (proj2 (N.eqb_neq v 0) Z : isz v = false). eexists. eexists. split; [reflexivity|]. rewrite computeOffsets_eq. cbv zeta. rewrite (not_first st b S).
        cbn [offs is_nil negb app andb]. rewrite (nil_len _ _ (vblock_len v ltac:(lia))). rewrite <- (hash_leaf H VB IB v) by lia.
        assert (Fn : find (h 0 v) (b_vidx b) = None).
        { destruct (find (h 0 v) (b_vidx b)) as [x|] eqn:F; [|reflexivity]. destruct (sim_v' st b S _ _ F) as [Q|(v' & Lv & Q)]; [exfalso; exact (HV_nz v ltac:(lia) Q)|].
          apply HV_inj in Q; [|lia|lia]. lia. }
        rewrite Fn. assert (Lb : N.of_nat (length (b_values b) - blockOffset) = v).
        { rewrite (sim_values st b S), app_length, firstn_length. unfold zero3, blockOffset. cbn [length]. lia. }
        rewrite Lb. split; [reflexivity|]. constructor; cbn [b_values b_index b_vidx b_iidx b_maxHandle fst snd].
        * rewrite (sim_values st b S), <- app_assoc. f_equal. replace (N.to_nat (fst st + 1 - 1)) with (Datatypes.S (N.to_nat (fst st - 1))) by lia. rewrite (firstn_snoc _ VB []) by lia. unfold vblock. rewrite Q1. reflexivity.
        * exact (sim_index st b S).
        * intros x Lx. cbn [find]. destruct (N.eqb_spec (h 0 v) (h 0 x)) as [Q|Q]; [apply HV_inj in Q; [congruence|lia|lia]|]. apply (sim_v st b S). assert (x <> v) by congruence. lia.
        * intros x w F. cbn [find] in F. destruct (N.eqb_spec (h 0 v) x) as [<-|Q]; [right; exists v; split; [lia|reflexivity]|].
          destruct (sim_v' st b S x w F) as [R|(v' & Lv & R)]; [left; exact R|right; exists v'; split; [lia|exact R]].
        * exact (sim_i st b S).
        * exact (sim_i' st b S).
        * rewrite (sim_max st b S). lia.
    - injection E as <-. split; [exact C|]. split; [apply le_refl|]. split; [|reflexivity]. intros Hv. apply N.eqb_eq in Z. contradiction.
    - apply N.eqb_neq in Z. destruct (N.ltb_spec v (snd st)) as [L|L].
      + destruct ((2 <=? v) && Nat.eqb (ilev v) (Datatypes.S k)) eqn:Q; [|discriminate E]. injection E as <-. apply andb_true_iff in Q as [Q1 Q2]. apply N.leb_le in Q1. apply Nat.eqb_eq in Q2.
        assert (Sv : seen st (Datatypes.S k) v) by (split; [lia|exact Q2]). split; [exact C|]. split; [apply le_refl|]. split; [|contradiction]. intros _. split; [exact Sv|].
        destruct (seen_ok (Datatypes.S k) st b v Lk C S Sv) as (n & En & Ec). exists n, b. repeat split; assumption || apply S.
      + destruct (visits (visit k) (irow v) st) as [st1|] eqn:Ev; [|discriminate E].
        destruct ((v =? snd st1) && (v <=? N.of_nat (length IB) + 1) && Nat.eqb (ilev v) (Datatypes.S k)) eqn:Q; [|discriminate E]. injection E as <-.
        apply andb_true_iff in Q as [Q Q3]. apply andb_true_iff in Q as [Q1 Q2]. apply N.eqb_eq in Q1. apply N.leb_le in Q2. apply Nat.eqb_eq in Q3.
        destruct (offs_visits k (fun v st b st' C S => IH v st b st' ltac:(lia) C S) (irow v) st b st1 C S Ev) as (b1 & Eo & S1 & C1 & L1 & Se).
        pose proof (cl_v st1 C1) as Bv. pose proof (cl_i st1 C1) as Bi.
        assert (L' : le_st st1 (fst st1, snd st1 + 1)) by (unfold le_st; cbn [fst snd]; lia).
        assert (C' : closed (fst st1, snd st1 + 1)).
        { constructor; cbn [fst snd]; [exact Bv|lia|]. intros i j [Si Ei] c Ic Hc. cbn [snd] in Si. apply (seen_le st1 _ j c L'). destruct (N.eq_dec i v) as [->|Hi].
          - rewrite Q3 in Ei. injection Ei as <-. exact (Se c Ic Hc).
          - apply (cl_rows st1 C1 i j); [split; [lia|exact Ei]|exact Ic|exact Hc]. }
        split; [exact C'|]. split; [exact (le_trans _ _ _ L1 L')|]. split; [|contradiction]. intros _. split; [split; [cbn [snd]; lia|exact Q3]|].
        cbn [den]. rewrite (proj2 (N.eqb_neq v 0) Z : isz v = false). eexists. eexists. split; [reflexivity|]. rewrite computeOffsets_eq. cbv zeta. rewrite (not_first st b S), Eo.
        assert (Lr : length (irow v) = 64%nat) by (apply irow_len; lia). rewrite (nil_len _ (map (den k) (irow v))) by (rewrite map_length; exact Lr). cbn [is_nil andb negb].
        rewrite app_nil_r, <- (hash_row H VB IB k v) by (lia || exact Q3).
        assert (Hh : h (Datatypes.S k) v = hidx v) by (unfold hidx; rewrite Q3; reflexivity). rewrite Hh.
        assert (Fn : find (hidx v) (b_iidx b1) = None).
        { destruct (find (hidx v) (b_iidx b1)) as [x|] eqn:F; [|reflexivity]. destruct (sim_i' st1 b1 S1 _ _ F) as [Q|(v' & Lv & Q)]; [exfalso; exact (HI_nz v ltac:(lia) Q)|].
          apply HI_inj in Q; [|lia|lia]. lia. }
        rewrite Fn. assert (Lb : N.of_nat (length (b_index b1) - blockOffset) = v).
        { rewrite (sim_index st1 b1 S1), app_length, map_length, firstn_length. unfold blockOffset. cbn [length]. lia. }
        rewrite Lb. split; [reflexivity|]. constructor; cbn [b_values b_index b_vidx b_iidx b_maxHandle fst snd].
        * exact (sim_values st1 b1 S1).
        * rewrite (sim_index st1 b1 S1), <- app_assoc. f_equal. replace (N.to_nat (snd st1 + 1 - 2)) with (Datatypes.S (N.to_nat (snd st1 - 2))) by lia. rewrite (firstn_snoc _ IB (0%nat, [])) by lia.
          rewrite map_app. cbn [map]. unfold irow, ient. rewrite Q1. reflexivity.
        * exact (sim_v st1 b1 S1).
        * exact (sim_v' st1 b1 S1).
        * intros x Lx. cbn [find]. destruct (N.eqb_spec (hidx v) (hidx x)) as [Q|Q]; [apply HI_inj in Q; [congruence|lia|lia]|]. apply (sim_i st1 b1 S1). assert (x <> v) by congruence. lia.
        * intros x w F. cbn [find] in F. destruct (N.eqb_spec (hidx v) x) as [<-|Q]; [right; exists v; split; [lia|reflexivity]|].
          destruct (sim_i' st1 b1 S1 x w F) as [R|(v' & Lv & R)]; [left; exact R|right; exists v'; split; [lia|exact R]].
        * exact (sim_max st1 b1 S1).
  Qed.

  Lemma depth_le : forall p, (depth p <= 2)%nat.
  Proof. intros p. unfold depth. destruct (p <? 32)%nat; [lia|]. destruct (p <? 48)%nat; lia. Qed.

  Fixpoint rmax (h : nat -> N -> N) (p : nat) (l : list N) : list N := match l with [] => [] | v :: r => h (depth p) v :: rmax h (S p) r end.
  Notation hroot := (rmax h).

  Lemma offs_root : forall row p st b st', closed st -> sim st b -> visit_root p row st = Some st' ->
    exists b', offs H (droot p row) b = (hroot p row, row, b') /\ sim st' b' /\ closed st' /\ le_st st st' /\ forall q c, nth_error row q = Some c -> c <> 0 -> seen st' (depth (p + q)) c.
  Proof.
    induction row as [|c row IH]; intros p st b st' C S E.
    - injection E as <-. exists b. split; [reflexivity|]. split; [exact S|]. split; [exact C|]. split; [apply le_refl|]. intros [|q] c Q; discriminate Q.
    - cbn [visit_root] in E. destruct (visit (depth p) c st) as [st1|] eqn:E1; [|discriminate E]. destruct (visit_ok (depth p) c st b st1 (depth_le p) C S E1) as (C1 & L1 & Nz & Zr). cbn [droot rmax].
      destruct (N.eq_dec c 0) as [->|Hc].
      + rewrite (Zr eq_refl) in *. destruct (IH (Datatypes.S p) st b st' C S E) as (b' & Eo & S' & C' & L' & Se). exists b'. replace (den (depth p) 0) with (@None node) by (destruct (depth p); reflexivity). cbn [offs]. rewrite Eo.
        split; [reflexivity|]. split; [exact S'|]. split; [exact C'|]. split; [exact L'|]. intros [|q] c Q H0; cbn [nth_error] in Q; [injection Q as <-; contradiction H0; reflexivity|]. rewrite Nat.add_succ_r. exact (Se q c Q H0).
      + destruct (Nz Hc) as (Sc & n & b1 & En & Ec & S1). destruct (IH (Datatypes.S p) st1 b1 st' C1 S1 E) as (b' & Eo & S' & C' & L' & Se). exists b'. rewrite En. cbn [offs]. rewrite Ec, Eo.
        split; [reflexivity|]. split; [exact S'|]. split; [exact C'|]. split; [exact (le_trans _ _ _ L1 L')|]. intros [|q] c' Q H0; cbn [nth_error] in Q.
        * injection Q as <-. rewrite Nat.add_0_r. exact (seen_le st1 st' _ c L' Sc).
        * rewrite Nat.add_succ_r. exact (Se q c' Q H0).
  Qed.

  Hypothesis root_ok : length root = 64%nat.
  Hypothesis ascii_ok : length ascii = 128%nat.
  Hypothesis order : visit_root 0 root (1, 2) = Some (N.of_nat (length VB) + 1, N.of_nat (length IB) + 2).

  Lemma droot_len : forall l p, length (droot p l) = length l.
  Proof. induction l as [|v l IH]; intros p; [reflexivity|]. cbn [droot length]. rewrite IH. reflexivity. Qed.

  Lemma closed0 : closed (1, 2).
  Proof. constructor; cbn [fst snd]; [lia|lia|]. intros i k [Si _]. cbn [snd] in Si. lia. Qed.

  Lemma build_T : buildTrie H T = (H (hroot 0 root ++ ascii), {| b_index := [[]; []; []; root] ++ map snd IB; b_values := zero3 ++ VB;
     b_iidx := b_iidx (snd (buildTrie H T)); b_vidx := b_vidx (snd (buildTrie H T)); b_maxHandle := N.of_nat (length VB) |}).
  Proof.
    unfold buildTrie, T. rewrite computeOffsets_eq. cbv zeta. cbn [b_index builder0 length Nat.eqb rootBlockOffset app b_values b_iidx b_vidx b_maxHandle values].
    change (firstn blockSize ascii) with (firstn 64 ascii). change (skipn blockSize ascii) with (skipn 64 ascii). change (repeat 0 blockSize) with (repeat 0 64).
    set (b0 := {| b_index := [[]; []; []; []] |}).
    assert (S0 : sim (1, 2) b0).
    { constructor; cbn [b0 b_index b_values b_iidx b_vidx b_maxHandle fst snd]; try reflexivity; try (intros; lia); intros x v F; left; cbn [find] in F; destruct (N.eqb_spec 0 x); [congruence|discriminate F|congruence|discriminate F]. }
    destruct (offs_root root 0 (1, 2) b0 _ closed0 S0 order) as (b1 & Eo & S1 & C1 & _ & _). rewrite Eo.
    rewrite (nil_len _ (droot 0 root)) by (rewrite droot_len; exact root_ok). cbn [andb negb]. cbn [find]. rewrite N.eqb_refl. cbn [snd b_iidx b_vidx].
    f_equal. pose proof (sim_index _ _ S1) as Ei. pose proof (sim_values _ _ S1) as Evs. pose proof (sim_max _ _ S1) as Em. cbn [fst snd] in Ei, Evs, Em.
    replace (N.to_nat (N.of_nat (length IB) + 2 - 2)) with (length IB) in Ei by lia. replace (N.to_nat (N.of_nat (length VB) + 1 - 1)) with (length VB) in Evs by lia. rewrite firstn_all in Ei, Evs.
    rewrite Ei, Evs, Em. cbn [app firstn skipn]. f_equal. lia.
  Qed.

  (** ** The trie itself *)
  Definition fin : state := (N.of_nat (length VB) + 1, N.of_nat (length IB) + 2).
  Lemma final : closed fin /\ forall q c, nth_error root q = Some c -> c <> 0 -> seen fin (depth q) c.
  Proof.
    set (b0 := {| b_index := [[]; []; []; []]; b_values := zero3; b_iidx := [(0, 0)]; b_vidx := [(0, 0)]; b_maxHandle := 0 |}).
    assert (S0 : sim (1, 2) b0).
    { constructor; cbn [b0 b_index b_values b_iidx b_vidx b_maxHandle fst snd]; try reflexivity; try (intros; lia); intros x v F; left; cbn [find] in F; destruct (N.eqb_spec 0 x); [congruence|discriminate F|congruence|discriminate F]. }
    destruct (offs_root root 0 (1, 2) b0 _ closed0 S0 order) as (b1 & _ & _ & C1 & _ & Se). split; [exact C1|exact Se].
  Qed.

  Lemma den_seen : forall k v n, (k <= 2)%nat -> seen fin k v -> den k v = Some n ->
    nhash H n = h k v /\ is_leaf n = Nat.eqb k 0 /\ wf k n /\
    forall c, In (Some c) (children n) -> exists j w, k = S j /\ seen fin j w /\ den j w = Some c.
  Proof.
    destruct final as [C _]. induction k as [|k IH]; intros v n Lk Sv En; pose proof (seen_nz _ _ _ Sv) as Z; cbn [den] in En; rewrite Z in En; injection En as <-.
    - cbn [seen fin fst] in Sv. pose proof (vblock_len v ltac:(lia)) as L. split; [|split; [reflexivity|split; [split; [reflexivity|exact L]|intros c []]]].
      rewrite nhash_eq, (nil_len _ _ L). cbn [is_nil andb hashes app]. symmetry. apply (hash_leaf H VB IB). lia.
    - pose proof Sv as Sv'. destruct Sv as [Sv El]. cbn [fin snd] in Sv. assert (L : length (irow v) = 64%nat) by (apply irow_len; lia).
      assert (Kid : forall c, In (Some c) (map (den k) (irow v)) -> exists w, In w (irow v) /\ seen fin k w /\ den k w = Some c).
      { intros c Ic. apply in_map_iff in Ic as (w & Ew & Iw). exists w. split; [exact Iw|]. split; [|exact Ew]. apply (cl_rows fin C v k Sv' w Iw). intros ->. destruct k; discriminate Ew. }
      split; [|split; [|split]].
      + rewrite nhash_eq, (nil_len _ (map (den k) (irow v))) by (rewrite map_length; exact L). cbn [andb]. rewrite app_nil_r. rewrite (hash_row H VB IB k v) by (lia || exact El). f_equal.
        assert (G : forall row, (forall w, In w row -> w <> 0 -> seen fin k w) -> hashes H (map (den k) row) = map (h k) row).
        { induction row as [|w row IHr]; intros Se; [reflexivity|]. cbn [map]. destruct (N.eq_dec w 0) as [->|Hw].
          - replace (den k 0) with (@None node) by (destruct k; reflexivity). cbn [hashes]. rewrite IHr by (intros w I; apply Se; right; exact I). reflexivity.
          - pose proof (Se w (or_introl eq_refl) Hw) as Sw. assert (Ew : exists n, den k w = Some n) by (pose proof (seen_nz _ _ _ Sw) as Zw; destruct k; cbn [den]; rewrite Zw; eexists; reflexivity).
            destruct Ew as (n & Ew). rewrite Ew. cbn [hashes]. rewrite IHr by (intros w' I; apply Se; right; exact I). f_equal. exact (proj1 (IH w n ltac:(lia) Sw Ew)). }
        apply G. intros w Iw Hw. exact (cl_rows fin C v k Sv' w Iw Hw).
      + unfold is_leaf. cbn [children]. rewrite nil_len by (rewrite map_length; exact L). reflexivity.
      + split; [reflexivity|]. cbn [children]. split; [rewrite map_length; exact L|]. intros p c Ep. apply nth_error_In in Ep. destruct (Kid c Ep) as (w & _ & Sw & Ew). exact (proj1 (proj2 (proj2 (IH w c ltac:(lia) Sw Ew)))).
      + cbn [children]. intros c Ic. destruct (Kid c Ic) as (w & _ & Sw & Ew). exists k, w. split; [reflexivity|]. split; assumption.
  Qed.

  Lemma nth_droot : forall l p q oc, nth_error (droot p l) q = Some oc -> exists v, nth_error l q = Some v /\ oc = den (depth (p + q)) v.
  Proof.
    induction l as [|v l IH]; intros p [|q] oc E; cbn [droot nth_error] in *; try discriminate E.
    - injection E as <-. exists v. rewrite Nat.add_0_r. split; reflexivity.
    - destruct (IH (Datatypes.S p) q oc E) as (w & A & B). exists w. rewrite Nat.add_succ_r. split; assumption.
  Qed.

  Lemma root_child : forall q c, nth_error (children T) q = Some (Some c) -> exists v, nth_error root q = Some v /\ v <> 0 /\ seen fin (depth q) v /\ den (depth q) v = Some c.
  Proof.
    intros q c E. cbn [T children] in E. apply nth_droot in E as (v & Ev & Ed). exists v. split; [exact Ev|]. cbn [Nat.add] in Ed. assert (v <> 0) by (intros ->; destruct (depth q); discriminate Ed).
    split; [assumption|]. split; [|symmetry; exact Ed]. exact (proj2 final q v Ev ltac:(assumption)).
  Qed.

  Lemma wf_T : wf_root T.
  Proof.
    split; [exact ascii_ok|]. split; [cbn [T children]; rewrite droot_len; exact root_ok|]. intros q c E. destruct (root_child q c E) as (v & _ & _ & Sv & Ed). exact (proj1 (proj2 (proj2 (den_seen _ _ _ (depth_le q) Sv Ed)))).
  Qed.

  Lemma below_seen : forall n c, below n c -> forall k v, (k <= 2)%nat -> seen fin k v -> den k v = Some c -> exists j w, (j <= 2)%nat /\ seen fin j w /\ den j w = Some n.
  Proof.
    intros n c B. induction B as [|ch vs c Hc B IH]; intros k v Lk Sv E; [exists k, v; split; [exact Lk|split; assumption]|].
    destruct (proj2 (proj2 (proj2 (den_seen k v _ Lk Sv E))) c Hc) as (j & w & -> & Sw & Ew). apply (IH j w); [lia|exact Sw|exact Ew].
  Qed.

  Lemma distinct_T : distinct H T.
  Proof.
    intros c Hc. apply In_nth_error in Hc as (q & Eq). destruct (root_child q c Eq) as (v & _ & _ & Sv & Ed).
    assert (Nz : forall j w, (j <= 2)%nat -> seen fin j w -> h j w <> 0).
    { intros [|j] w Lj Sw; [apply HV_nz; cbn [seen fin fst] in Sw; lia|]. destruct Sw as [Sw El]. cbn [fin snd] in Sw. pose proof (HI_nz w ltac:(lia)) as Q. unfold hidx in Q. rewrite El in Q. exact Q. }
    split.
    - intros n B. destruct (below_seen n c B _ v (depth_le q) Sv Ed) as (j & w & Lj & Sw & Ew). rewrite (proj1 (den_seen j w n Lj Sw Ew)). exact (Nz j w Lj Sw).
    - intros c' n n' Hc' B B' L E. apply In_nth_error in Hc' as (q' & Eq'). destruct (root_child q' c' Eq') as (v' & _ & _ & Sv' & Ed').
      destruct (below_seen n c B _ v (depth_le q) Sv Ed) as (j & w & Lj & Sw & Ew). destruct (below_seen n' c' B' _ v' (depth_le q') Sv' Ed') as (j' & w' & Lj' & Sw' & Ew').
      destruct (den_seen j w n Lj Sw Ew) as (Hn & Ln & _). destruct (den_seen j' w' n' Lj' Sw' Ew') as (Hn' & Ln' & _). rewrite Hn, Hn' in E. rewrite Ln, Ln' in L.
      destruct j as [|j], j' as [|j']; try discriminate L.
      + cbn [seen fin fst] in Sw, Sw'. apply HV_inj in E; [|lia|lia]. subst w'. congruence.
      + destruct Sw as [Sw El]. destruct Sw' as [Sw' El']. cbn [fin snd] in Sw, Sw'. assert (Q : hidx w = hidx w') by (unfold hidx; rewrite El, El'; exact E). apply HI_inj in Q; [|lia|lia]. subst w'. rewrite El in El'. injection El' as ->. congruence.
  Qed.

  (** ** No superfluous nodes *)
  Hypothesis VB_full : Forall (fun b => exists i, nth i b 0 <> 0) VB.
  Hypothesis IB_full : Forall (fun e => exists i, nth i (snd e) 0 <> 0) IB.
  Hypothesis root_full : forall q, nth q root 0 <> 0 -> (2 <= q < 56)%nat.

  Lemma full_den : forall k v n, (k <= 2)%nat -> seen fin k v -> den k v = Some n -> full k n.
  Proof.
    induction k as [|k IH]; intros v n Lk Sv En; destruct (den_seen _ v n Lk Sv En) as (_ & _ & W & _); pose proof (seen_nz _ _ _ Sv) as Z; cbn [den] in En; rewrite Z in En; injection En as <-.
    - split; [exact W|]. cbn [values]. cbn [seen fin fst] in Sv. rewrite Forall_forall in VB_full. apply VB_full. apply nth_In. lia.
    - split; [exact W|]. cbn [children]. pose proof (proj1 final) as C. pose proof Sv as Sv'. destruct Sv as [Sv El]. cbn [fin snd] in Sv.
      assert (Kid : forall p oc, nth_error (map (den k) (irow v)) p = Some oc -> exists w, nth_error (irow v) p = Some w /\ oc = den k w).
      { intros p oc E. rewrite nth_error_map in E. destruct (nth_error (irow v) p) as [w|]; [|discriminate E]. injection E as <-. exists w. split; reflexivity. }
      split.
      + rewrite Forall_forall in IB_full. assert (F : exists i, nth i (irow v) 0 <> 0) by (apply IB_full; apply nth_In; lia). destruct F as (p & Hp).
        assert (Ep : nth_error (irow v) p = Some (nth p (irow v) 0)). { rewrite nth_of_error in *. destruct (nth_error (irow v) p); [reflexivity|contradiction Hp; reflexivity]. }
        set (w := nth p (irow v) 0) in *. assert (Zw : isz w = false) by (apply N.eqb_neq; exact Hp). assert (Ew : exists c, den k w = Some c) by (destruct k; cbn [den]; rewrite Zw; eexists; reflexivity).
        destruct Ew as (c & Ew). exists p, c. rewrite nth_error_map, Ep. cbn [option_map]. rewrite Ew. reflexivity.
      + intros p c E. destruct (Kid p _ E) as (w & Ew & Ec). apply (IH w c); [lia| |symmetry; exact Ec]. apply (cl_rows fin C v k Sv' w (nth_error_In _ _ Ew)). intros ->. destruct k; discriminate Ec.
  Qed.

  Lemma full_T : full_root T.
  Proof.
    split; [exact wf_T|]. intros q c E. destruct (root_child q c E) as (v & Ev & Hv & Sv & Ed). split; [exact (full_den _ v c (depth_le q) Sv Ed)|].
    apply root_full. rewrite nth_of_error, Ev. exact Hv.
  Qed.

  (** ** The greatest value *)
  Definition mx (l : list N) : N := fold_left N.max l 0.
  Notation M0 := (TriegenDag.HV mx VB).
  Notation M1 := (TriegenDag.level1 mx IB M0).
  Notation M2 := (TriegenDag.level2 mx IB M1).
  Notation dmax := (hash M0 M1 M2).

  Lemma fold_max : forall l m, fold_left N.max l m = N.max m (mx l).
  Proof.
    unfold mx. induction l as [|x l IH]; intros m; cbn [fold_left]; [lia|]. rewrite IH, (IH (N.max 0 x)). lia.
  Qed.
  Lemma maxValue_eq : forall ch vs m, maxValue (Node ch vs) m = fold_left N.max vs ((fix go l m := match l with [] => m | None :: r => go r m | Some c :: r => go r (maxValue c m) end) ch m).
  Proof. reflexivity. Qed.
  Definition omax (oc : option node) (x : N) : Prop := match oc with None => x = 0 | Some n => forall m, maxValue n m = N.max m x end.
  Lemma go_max : forall l ms, Forall2 omax l ms -> forall m, (fix go l m := match l with [] => m | None :: r => go r m | Some c :: r => go r (maxValue c m) end) l m = N.max m (mx ms).
  Proof.
    intros l ms F. induction F as [|oc x l ms O F IH]; intros m; [unfold mx; cbn [fold_left]; lia|]. unfold mx. cbn [fold_left]. rewrite fold_max. destruct oc as [n|]; cbn [omax] in O.
    - rewrite O, IH. lia.
    - subst x. rewrite IH. lia.
  Qed.
  Lemma max_den : forall k v, (v <> 0 -> seen fin k v) -> (k <= 2)%nat -> omax (den k v) (dmax k v).
  Proof.
    induction k as [|k IH]; intros v Sv Lk; cbn [den]; destruct (isz v) eqn:Z; try (unfold hash; rewrite Z; reflexivity); apply N.eqb_neq in Z; specialize (Sv Z); cbn [omax]; intros m; rewrite maxValue_eq.
    - cbn [seen fin fst] in Sv. rewrite fold_max. f_equal. rewrite (hash_leaf mx VB IB) by lia. reflexivity.
    - cbn [fold_left]. pose proof Sv as [Sv' El]. cbn [fin snd] in Sv'. rewrite (hash_row mx VB IB k v) by (lia || exact El). apply go_max. assert (G : forall row, (forall w, In w row -> w <> 0 -> seen fin k w) -> Forall2 omax (map (den k) row) (map (dmax k) row)).
      { induction row as [|w row IHr]; intros Se; [constructor|]. constructor; [apply IH; [apply Se; left; reflexivity|lia]|]. apply IHr. intros w' I. apply Se. right. exact I. }
      apply G. intros w Iw Hw. exact (cl_rows fin (proj1 final) v k Sv w Iw Hw).
  Qed.
  Lemma max_T : maxValue T 0 = N.max (mx (rmax dmax 0 root)) (mx ascii).
  Proof.
    unfold T. rewrite maxValue_eq, fold_max. f_equal.
    assert (G : forall l p, (forall q c, nth_error l q = Some c -> c <> 0 -> seen fin (depth (p + q)) c) -> Forall2 omax (droot p l) (rmax dmax p l)).
    { induction l as [|v l IHl]; intros p Se; [constructor|]. cbn [droot rmax]. constructor.
      - apply max_den; [|apply depth_le]. intros Hv. specialize (Se 0%nat v eq_refl Hv). rewrite Nat.add_0_r in Se. exact Se.
      - apply IHl. intros q c E Hc. specialize (Se (Datatypes.S q) c E Hc). rewrite Nat.add_succ_r in Se. exact Se. }
    rewrite (go_max _ _ (G root 0%nat (proj2 final))). lia.
  Qed.

  Lemma Gen_T : Gen H T = {|
    g_values := arr_of (N.of_nat (length (zero3 ++ VB) * 64)) (print_blocks (zero3 ++ VB));
    g_index := arr_of (N.of_nat (length ([[]; []; []; root] ++ map snd IB) * 64)) (print_blocks ([[]; []; []; root] ++ map snd IB));
    g_size := N.of_nat (length ([[]; []; []; root] ++ map snd IB) * 64) * intSize (N.max (N.of_nat (length VB) + 1) (N.of_nat (length ([[]; []; []; root] ++ map snd IB) - 1 - 2)))
      + N.of_nat (length (zero3 ++ VB) * 64) * intSize (N.max (mx (rmax dmax 0 root)) (mx ascii));
    g_checksum := H (hroot 0 root ++ ascii) |}.
  Proof. unfold Gen. rewrite build_T. unfold tables, Size. cbn [b_index b_values b_maxHandle fst snd]. rewrite max_T. reflexivity. Qed.
End Dag.
