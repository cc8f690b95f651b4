(** Facts about computeOffsets: every node of the trie ends up as a block of the tables. *)
From Verif Require Import Base Trie SpecUtf8 ListFacts SpecTriegen Triegen SpecTrieHash TriegenFacts.
Local Open Scope N_scope.

Section Hash.
  Variable H : list N -> N.

  Notation nhash := (nhash H).
  Notation hashes := (hashes H).
  Notation distinct := (distinct H).
  Lemma nhash_eq : forall ch vs, nhash (Node ch vs) = if is_nil ch && is_nil vs then 0 else H (hashes ch ++ vs).
  Proof. reflexivity. Qed.

  Fixpoint offs (l : list (option node)) (b : builder) : list N * list N * builder :=
    match l with
    | [] => ([], [], b)
    | None :: r => let '(hs, row, b') := offs r b in (0 :: hs, 0 :: row, b')
    | Some c :: r =>
      let '(h, i, b') := computeOffsets H c b in
      let '(hs, row, b'') := offs r b' in (h :: hs, i :: row, b'')
    end.

  Lemma computeOffsets_eq : forall ch vs b, computeOffsets H (Node ch vs) b =
      let first := Nat.eqb (length (b_index b)) rootBlockOffset in
      let b0 := if first then {| b_index := b_index b ++ [[]]; b_values := b_values b; b_iidx := b_iidx b; b_vidx := b_vidx b; b_maxHandle := b_maxHandle b |} else b in
      let '(hs, row, b1) := offs ch b0 in
      let hash := if is_nil ch && is_nil vs then 0 else H (hs ++ vs) in
      let b2 := if first then {| b_index := firstn rootBlockOffset (b_index b1) ++ row :: skipn (S rootBlockOffset) (b_index b1); b_values := b_values b1;
                                 b_iidx := (hash, N.of_nat (rootBlockOffset - blockOffset)) :: b_iidx b1; b_vidx := b_vidx b1; b_maxHandle := b_maxHandle b1 |} else b1 in
      if negb (is_nil ch) then
        match find hash (b_iidx b2) with
        | Some v => (hash, v, b2)
        | None =>
          let v := N.of_nat (length (b_index b2) - blockOffset) in
          (hash, v, {| b_index := b_index b2 ++ [row]; b_values := b_values b2; b_iidx := (hash, v) :: b_iidx b2; b_vidx := b_vidx b2; b_maxHandle := b_maxHandle b2 |})
        end
      else
        match find hash (b_vidx b2) with
        | Some v => (hash, v, b2)
        | None =>
          let v := N.of_nat (length (b_values b2) - blockOffset) in
          (hash, v, {| b_index := b_index b2; b_values := b_values b2 ++ [vs]; b_iidx := b_iidx b2; b_vidx := (hash, v) :: b_vidx b2; b_maxHandle := N.max (b_maxHandle b2) v |})
        end.
  Proof. reflexivity. Qed.

  Section Inside.
    (** The set of nodes that are stored. *)
    Variable T : node -> Prop.
    Hypothesis T_child : forall ch vs c, T (Node ch vs) -> In (Some c) ch -> T c.
    Hypothesis T_zero : forall n, T n -> nhash n <> 0.
    Hypothesis T_inj : forall n n', T n -> T n' -> is_leaf n = is_leaf n' -> nhash n = nhash n' -> n = n'.

    (** Block i of the tables stands for node n of depth k. *)
    Fixpoint repr (k : nat) (b : builder) (n : node) (i : N) : Prop :=
      match k with
      | O => nth_error (b_values b) (N.to_nat i + 2) = Some (values n)
      | S j => 2 <= i /\ exists row, nth_error (b_index b) (N.to_nat i + 2) = Some row /\ length row = length (children n) /\
          forall p oc, nth_error (children n) p = Some oc ->
            match oc with None => nth p row 0 = 0 | Some c => repr j b c (nth p row 0) end
      end.

    Definition extends (b b' : builder) : Prop :=
      (forall j x, nth_error (b_values b) j = Some x -> nth_error (b_values b') j = Some x) /\
      (forall j x, j <> 3%nat -> nth_error (b_index b) j = Some x -> nth_error (b_index b') j = Some x).
    Lemma extends_refl : forall b, extends b b. Proof. intros b. split; auto. Qed.
    Lemma extends_trans : forall a b c, extends a b -> extends b c -> extends a c.
    Proof. intros a b c [A1 A2] [B1 B2]. split; auto. Qed.

    Lemma repr_extends : forall k b b' n i, extends b b' -> repr k b n i -> repr k b' n i.
    Proof.
      induction k as [|k IH]; intros b b' n i X R.
      - exact (proj1 X _ _ R).
      - destruct R as (G & row & E & L & C). split; [exact G|]. exists row. split; [apply (proj2 X); [lia|exact E]|]. split; [exact L|].
        intros p oc Ep. specialize (C p oc Ep). destruct oc; [apply (IH b); assumption|exact C].
    Qed.

    Record inv (b : builder) : Prop := {
      inv_len : (4 <= length (b_index b))%nat;
      inv_vlen : (3 <= length (b_values b))%nat;
      inv_i : forall h i, find h (b_iidx b) = Some i -> h <> 0 -> exists n k, T n /\ is_leaf n = false /\ nhash n = h /\ wf (S k) n /\ repr (S k) b n i;
      inv_v : forall h i, find h (b_vidx b) = Some i -> h <> 0 -> exists n, T n /\ is_leaf n = true /\ nhash n = h /\ repr 0 b n i
    }.

    Lemma wf_leaf : forall k n, wf k n -> is_leaf n = Nat.eqb k 0.
    Proof.
      intros [|k] n W; unfold is_leaf.
      - destruct W as [W _]. rewrite W. reflexivity.
      - destruct W as (_ & W & _). destruct (children n); [discriminate W|reflexivity].
    Qed.

    Lemma nth_error_snoc : forall A (l : list A) x, nth_error (l ++ [x]) (length l) = Some x.
    Proof. intros A l x. rewrite nth_error_app2, Nat.sub_diag by lia. reflexivity. Qed.
    Lemma nth_error_snoc_old : forall A (l : list A) x j y, nth_error l j = Some y -> nth_error (l ++ [x]) j = Some y.
    Proof. intros A l x j y E. rewrite nth_error_app1; [exact E|]. apply nth_error_Some. rewrite E. discriminate. Qed.

    Lemma repr_depth : forall k j b n i, wf k n -> wf j n -> repr k b n i -> repr j b n i.
    Proof.
      induction k as [|k IH]; intros [|j] b n i Wk Wj R.
      - exact R.
      - apply wf_leaf in Wk. apply wf_leaf in Wj. rewrite Wk in Wj. discriminate.
      - apply wf_leaf in Wk. apply wf_leaf in Wj. rewrite Wk in Wj. discriminate.
      - destruct R as (G & row & E & L & C). split; [exact G|]. exists row. split; [exact E|]. split; [exact L|].
        intros p oc Ep. specialize (C p oc Ep). destruct oc as [c|]; [|exact C]. apply (IH j b c (nth p row 0)); [exact (proj2 (proj2 Wk) p c Ep)|exact (proj2 (proj2 Wj) p c Ep)|exact C].
    Qed.

    Definition post (k : nat) (n : node) (b : builder) (r : N * N * builder) : Prop :=
      let '(h, i, b') := r in h = nhash n /\ inv b' /\ extends b b' /\ repr k b' n i.

    Lemma inv_extends_i : forall b b' h, inv b -> extends b b' -> (forall i, find h (b_iidx b) = Some i -> h <> 0 -> exists n k, T n /\ is_leaf n = false /\ nhash n = h /\ wf (S k) n /\ repr (S k) b' n i).
    Proof. intros b b' h I X i F Z. destruct (inv_i b I h i F Z) as (n & k & A & B & C & W & D). exists n, k. repeat (split; [assumption|]). exact (repr_extends (S k) b b' n i X D). Qed.
    Lemma inv_extends_v : forall b b' h, inv b -> extends b b' -> (forall i, find h (b_vidx b) = Some i -> h <> 0 -> exists n, T n /\ is_leaf n = true /\ nhash n = h /\ repr 0 b' n i).
    Proof. intros b b' h I X i F Z. destruct (inv_v b I h i F Z) as (n & A & B & C & D). exists n. repeat (split; [assumption|]). apply (repr_extends 0 b); assumption. Qed.

    Lemma offs_ok : forall l d, (forall p n b, wf (d p) n -> T n -> inv b -> post (d p) n b (computeOffsets H n b)) ->
      forall b, (forall p c, nth_error l p = Some (Some c) -> T c /\ wf (d p) c) -> inv b ->
      let '(hs, row, b') := offs l b in hs = hashes l /\ inv b' /\ extends b b' /\ length row = length l /\
        forall p oc, nth_error l p = Some oc -> match oc with None => nth p row 0 = 0 | Some c => repr (d p) b' c (nth p row 0) end.
    Proof.
      induction l as [|[c|] l IHl]; intros d IH b HT I; cbn [offs].
      - split; [reflexivity|]. split; [exact I|]. split; [apply extends_refl|]. split; [reflexivity|]. intros [|p] oc E; discriminate E.
      - destruct (HT 0%nat c eq_refl) as [Tc Wc]. pose proof (IH 0%nat c b Wc Tc I) as Pc. destruct (computeOffsets H c b) as [[h i] b1]. destruct Pc as (-> & I1 & X1 & R1).
        specialize (IHl (fun p => d (S p)) (fun p => IH (S p)) b1 (fun p c0 Hc => HT (S p) c0 Hc) I1). destruct (offs l b1) as [[hs row] b2]. destruct IHl as (-> & I2 & X2 & L2 & C2).
        split; [reflexivity|]. split; [exact I2|]. split; [apply (extends_trans _ b1); assumption|]. split; [cbn [length]; lia|].
        intros [|p] oc E; cbn [nth_error nth] in *; [injection E as <-; apply (repr_extends (d 0%nat) b1); assumption|apply C2; exact E].
      - specialize (IHl (fun p => d (S p)) (fun p => IH (S p)) b (fun p c0 Hc => HT (S p) c0 Hc) I). destruct (offs l b) as [[hs row] b2]. destruct IHl as (-> & I2 & X2 & L2 & C2).
        split; [reflexivity|]. split; [exact I2|]. split; [exact X2|]. split; [cbn [length]; lia|].
        intros [|p] oc E; cbn [nth_error nth] in *; [injection E as <-; reflexivity|apply C2; exact E].
    Qed.

    Lemma compute_ok : forall k n b, wf k n -> T n -> inv b -> post k n b (computeOffsets H n b).
    Proof.
      induction k as [|k IH]; intros [ch vs] b W Tn I; rewrite computeOffsets_eq; cbv zeta.
      - assert (F : Nat.eqb (length (b_index b)) rootBlockOffset = false) by (apply Nat.eqb_neq; pose proof (inv_len b I); unfold rootBlockOffset; lia). rewrite F.
        destruct W as [Wc Wv]. cbn [children values] in Wc, Wv. subst ch. cbn [offs]. cbn [is_nil negb].
        assert (Hv : is_nil vs = false) by (destruct vs; [discriminate Wv|reflexivity]). rewrite Hv. cbn [andb app].
        assert (Hh : nhash (Node [] vs) = H vs) by (rewrite nhash_eq, Hv; reflexivity).
        pose proof (T_zero _ Tn) as Z. rewrite Hh in Z.
        destruct (find (H vs) (b_vidx b)) as [i|] eqn:Fd.
        + destruct (inv_v b I _ _ Fd Z) as (n' & Tn' & Lf & Hn' & R). assert (n' = Node [] vs) by (apply T_inj; [assumption|assumption|rewrite Lf; reflexivity|congruence]). subst n'.
          split; [symmetry; exact Hh|]. split; [exact I|]. split; [apply extends_refl|exact R].
        + set (v := N.of_nat (length (b_values b) - blockOffset)).
          set (b' := {| b_index := b_index b; b_values := b_values b ++ [vs]; b_iidx := b_iidx b; b_vidx := (H vs, v) :: b_vidx b; b_maxHandle := N.max (b_maxHandle b) v |}).
          assert (X : extends b b') by (split; [intros j x E; apply nth_error_snoc_old; exact E|intros j x _ E; exact E]).
          assert (R : repr 0 b' (Node [] vs) v).
          { cbn [repr b' b_values values]. unfold v, blockOffset. rewrite Nnat.Nat2N.id. pose proof (inv_vlen b I). replace (length (b_values b) - 2 + 2)%nat with (length (b_values b)) by lia. apply nth_error_snoc. }
          split; [symmetry; exact Hh|]. split; [|split; assumption]. constructor; cbn [b' b_index b_values b_iidx b_vidx].
          * exact (inv_len b I).
          * rewrite app_length. cbn [length]. pose proof (inv_vlen b I). lia.
          * intros h i Fh Zh. exact (inv_extends_i b b' h I X i Fh Zh).
          * intros h i Fh Zh. cbn [find] in Fh. destruct (N.eqb_spec (H vs) h) as [<-|_]; [|exact (inv_extends_v b b' h I X i Fh Zh)].
            injection Fh as <-. exists (Node [] vs). repeat split; assumption.
      - assert (F : Nat.eqb (length (b_index b)) rootBlockOffset = false) by (apply Nat.eqb_neq; pose proof (inv_len b I); unfold rootBlockOffset; lia). rewrite F.
        destruct W as (Wv & Wl & Wc) eqn:EW. clear EW. cbn [children values] in Wv, Wl, Wc. subst vs.
        assert (HT : forall p c, nth_error ch p = Some (Some c) -> T c /\ wf k c).
        { intros p c Hp. split; [exact (T_child _ _ _ Tn (nth_error_In _ _ Hp))|]. exact (Wc p c Hp). }
        pose proof (offs_ok ch (fun _ => k) (fun _ => IH) b HT I) as P. destruct (offs ch b) as [[hs row] b1]. destruct P as (-> & I1 & X1 & L1 & C1).
        assert (Hc : is_nil ch = false) by (destruct ch; [discriminate Wl|reflexivity]). rewrite Hc. cbn [andb negb].
        assert (Hh : nhash (Node ch []) = H (hashes ch ++ [])) by (rewrite nhash_eq, Hc; reflexivity). rewrite <- Hh. set (h := nhash (Node ch [])) in *.
        pose proof (T_zero _ Tn) as Z. fold h in Z. 
        assert (Wn : wf (S k) (Node ch [])) by (split; [reflexivity|split; assumption]).
        destruct (find h (b_iidx b1)) as [i|] eqn:Fd.
        + destruct (inv_i b1 I1 _ _ Fd Z) as (n' & k' & Tn' & Lf & Hn' & W' & R). assert (n' = Node ch []) by (apply T_inj; [assumption|assumption|rewrite Lf; unfold is_leaf; cbn [children]; rewrite Hc; reflexivity|exact Hn']). subst n'.
          split; [reflexivity|]. split; [exact I1|]. split; [exact X1|]. exact (repr_depth (S k') (S k) b1 _ i W' Wn R).
        + set (v := N.of_nat (length (b_index b1) - blockOffset)).
          set (b' := {| b_index := b_index b1 ++ [row]; b_values := b_values b1; b_iidx := (h, v) :: b_iidx b1; b_vidx := b_vidx b1; b_maxHandle := b_maxHandle b1 |}).
          assert (X : extends b1 b') by (split; [intros j x E; exact E|intros j x _ E; apply nth_error_snoc_old; exact E]).
          assert (R : repr (S k) b' (Node ch []) v).
          { pose proof (inv_len b1 I1). cbn [repr]. split; [unfold v, blockOffset; lia|]. exists row. split.
            - unfold v, blockOffset. rewrite Nnat.Nat2N.id. replace (length (b_index b1) - 2 + 2)%nat with (length (b_index b1)) by lia. apply nth_error_snoc.
            - split; [exact L1|]. cbn [children]. intros p oc E. specialize (C1 p oc E). destruct oc; [apply (repr_extends k b1); assumption|exact C1]. }
          split; [reflexivity|]. split; [|split; [apply (extends_trans _ b1); assumption|exact R]]. constructor; cbn [b' b_index b_values b_iidx b_vidx].
          * rewrite app_length. cbn [length]. pose proof (inv_len b1 I1). lia.
          * exact (inv_vlen b1 I1).
          * intros h' i Fh Zh. cbn [find] in Fh. destruct (N.eqb_spec h h') as [<-|_]; [|exact (inv_extends_i b1 b' h' I1 X i Fh Zh)].
            injection Fh as <-. exists (Node ch []), k. split; [exact Tn|]. split; [unfold is_leaf; cbn [children]; exact Hc|]. split; [reflexivity|]. split; assumption.
          * intros h' i Fh Zh. exact (inv_extends_v b1 b' h' I1 X i Fh Zh).
    Qed.
  End Inside.

  Lemma below_trans : forall c t, below c t -> forall n, below n c -> below n t.
  Proof. intros c t B. induction B as [|ch vs c' Hc B IH]; intros n Bn; [exact Bn|]. apply (below_child n ch vs c' Hc). apply IH. exact Bn. Qed.

  Section Root.
    Variable t : node.
    Hypothesis W : wf_root t.
    Hypothesis D : distinct t.
    Let T (n : node) : Prop := exists c, In (Some c) (children t) /\ below n c.

    Lemma root_ok : let '(h, b) := buildTrie H t in h = nhash t /\
      exists row, nth_error (b_index b) 3 = Some row /\ length row = 64%nat /\
        (forall p oc, nth_error (children t) p = Some oc -> match oc with None => nth p row 0 = 0 | Some c => repr (depth p) b c (nth p row 0) end) /\
        (forall j, (j < 3)%nat -> nth_error (b_index b) j = Some []) /\
        nth_error (b_values b) 0 = Some (firstn blockSize (values t)) /\ nth_error (b_values b) 1 = Some (skipn blockSize (values t)) /\ nth_error (b_values b) 2 = Some (repeat 0 blockSize).
    Proof.
      unfold buildTrie. destruct t as [ch vs] eqn:Et. rewrite computeOffsets_eq. cbv zeta. cbn [b_index builder0 length Nat.eqb rootBlockOffset app b_values b_iidx b_vidx b_maxHandle values].
      set (b0 := {| b_index := [[]; []; []; []] |}).
      assert (I0 : inv T b0).
      { constructor; cbn [b0 b_index b_values b_iidx b_vidx length]; [lia|lia| |]; intros h i F Z; cbn [find] in F; destruct (N.eqb_spec 0 h); try congruence; discriminate F. }
      assert (TC : forall ch vs c, T (Node ch vs) -> In (Some c) ch -> T c).
      { intros ch' vs' c (r & Hr & Br) Hc. exists r. split; [exact Hr|]. apply (below_trans (Node ch' vs') r Br). apply (below_child c ch' vs' c Hc). constructor. }
      assert (TZ : forall n, T n -> nhash n <> 0) by (intros n (c & Hc & Bc); exact (proj1 (D c Hc) n Bc)).
      assert (TI : forall n n', T n -> T n' -> is_leaf n = is_leaf n' -> nhash n = nhash n' -> n = n').
      { intros n n' (c & Hc & Bc) (c' & Hc' & Bc') L E. exact (proj2 (D c Hc) c' n n' Hc' Bc Bc' L E). }
      assert (HT : forall p c, nth_error ch p = Some (Some c) -> T c /\ wf (depth p) c).
      { intros p c E. split; [exists c; split; [exact (nth_error_In _ _ E)|constructor]|]. exact (proj2 (proj2 W) p c E). }
      pose proof (offs_ok T ch depth (fun p n b Wn Tn In => compute_ok T TC TZ TI (depth p) n b Wn Tn In) b0 HT I0) as P.
      destruct (offs ch b0) as [[hs row] b1]. destruct P as (-> & I1 & X1 & L1 & C1).
      destruct W as (Wv & Wl & Wc). cbn [children values] in Wv, Wl, Wc.
      assert (Hc : is_nil ch = false) by (destruct ch; [discriminate Wl|reflexivity]). rewrite Hc. cbn [andb negb].
      cbn [find]. rewrite N.eqb_refl. split; [rewrite nhash_eq, Hc; reflexivity|].
      pose proof (inv_len T b1 I1) as L4. cbn [b_index b_values].
      assert (L3 : length (firstn rootBlockOffset (b_index b1)) = 3%nat) by (rewrite firstn_length; unfold rootBlockOffset; lia).
      set (b2 := {| b_index := firstn rootBlockOffset (b_index b1) ++ row :: skipn (S rootBlockOffset) (b_index b1) |}).
      assert (X2 : extends b1 b2).
      { split; [intros j x E; exact E|]. intros j x Hj E. cbn [b2 b_index]. destruct (Nat.lt_ge_cases j 3) as [Lj|Lj].
        - rewrite nth_error_app1 by lia. rewrite <- E. clear - Lj L4. destruct (b_index b1) as [|x0 [|x1 [|x2 r]]]; cbn [length] in L4; try lia. destruct j as [|[|[|j]]]; try reflexivity; lia.
        - rewrite nth_error_app2 by lia. rewrite L3. destruct (j - 3)%nat as [|m] eqn:Em; [lia|]. cbn [nth_error]. rewrite <- E. clear - Em L4. replace j with (m + 4)%nat by lia.
          destruct (b_index b1) as [|x0 [|x1 [|x2 [|x3 r]]]]; cbn [length] in L4; try lia. rewrite Nat.add_comm. reflexivity. }
      exists row. split.
      { rewrite nth_error_app2 by lia. rewrite L3. reflexivity. }
      split; [lia|]. split.
      { cbn [children]. intros p oc E. specialize (C1 p oc E). destruct oc as [c|]; [exact (repr_extends (depth p) b1 b2 c _ X2 C1)|exact C1]. }
      split.
      { intros j Hj. apply (proj2 X2); [lia|]. apply (proj2 X1); [lia|]. destruct j as [|[|[|j]]]; try reflexivity; lia. }
      split; [apply (proj1 X1); reflexivity|]. split; [apply (proj1 X1); reflexivity|]. apply (proj1 X1). reflexivity.
    Qed.
  End Root.
End Hash.
