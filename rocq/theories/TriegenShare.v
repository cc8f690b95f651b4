(** Facts about the generator with several tries: the blocks of each trie stay in the shared tables, and the lookup finds them. *)
From Verif Require Import Base Trie SpecUtf8 ListFacts SpecTriegen Triegen TriegenMany SpecTrieHash SpecTrieShare TriegenFacts TriegenIns TriegenBuild TriegenSize TriegenTables TriegenLookup.
Local Open Scope N_scope.

(** Block i of the index is the root of t. *)
Definition root_repr (b : builder) (t : node) (i : N) : Prop :=
  1 <= i /\ exists row, nth_error (b_index b) (N.to_nat i + 2) = Some row /\ length row = 64%nat /\
    forall p oc, nth_error (children t) p = Some oc -> match oc with None => nth p row 0 = 0 | Some c => repr (depth p) b c (nth p row 0) end.

Definition grows (b b' : builder) : Prop :=
  (forall j x, nth_error (b_values b) j = Some x -> nth_error (b_values b') j = Some x) /\
  (forall j x, nth_error (b_index b) j = Some x -> nth_error (b_index b') j = Some x).
Lemma grows_refl : forall b, grows b b. Proof. intros b. split; auto. Qed.
Lemma grows_trans : forall a b c, grows a b -> grows b c -> grows a c.
Proof. intros a b c [A1 A2] [B1 B2]. split; auto. Qed.
Lemma grows_extends : forall b b', grows b b' -> extends b b'.
Proof. intros b b' [A B]. split; [exact A|]. intros j x _ E. exact (B j x E). Qed.
Lemma repr_grows : forall k b b' n i, grows b b' -> repr k b n i -> repr k b' n i.
Proof. intros k b b' n i G R. exact (repr_extends k b b' n i (grows_extends b b' G) R). Qed.
Lemma root_repr_grows : forall b b' t i, grows b b' -> root_repr b t i -> root_repr b' t i.
Proof.
  intros b b' t i G (P & row & E & L & C). split; [exact P|]. exists row. split; [exact (proj2 G _ _ E)|]. split; [exact L|].
  intros p oc Ep. specialize (C p oc Ep). destruct oc; [exact (repr_grows _ b b' _ _ G C)|exact C].
Qed.

Section Hash.
  Variable H : list N -> N.
  Notation nhash := (nhash H).
  Notation hashes := (hashes H).

  Section Inside.
    Variable T : node -> Prop.
    Hypothesis T_child : forall ch vs c, T (Node ch vs) -> In (Some c) ch -> T c.
    Hypothesis T_zero : forall n, T n -> nhash n <> 0.
    Hypothesis T_inj : forall n n', T n -> T n' -> is_leaf n = is_leaf n' -> nhash n = nhash n' -> n = n'.

    (** What an entry of indexBlockIdx stands for: an internal node or a root. *)
    Definition stored (b : builder) (n : node) (i : N) : Prop := (exists k, wf (S k) n /\ repr (S k) b n i) \/ (wf_root n /\ root_repr b n i).
    Lemma stored_grows : forall b b' n i, grows b b' -> stored b n i -> stored b' n i.
    Proof.
      intros b b' n i G [(k & W & R)|[W R]]; [left; exists k; split; [exact W|exact (repr_grows _ b b' _ _ G R)]|right; split; [exact W|exact (root_repr_grows b b' _ _ G R)]].
    Qed.

    Record sinv (b : builder) : Prop := {
      s_low : forall j, (j < 3)%nat -> nth_error (b_index b) j = Some [];
      s_len : (4 <= length (b_index b))%nat;
      s_zero : nth_error (b_values b) 2 = Some (repeat 0 blockSize);
      s_i : forall h i, find h (b_iidx b) = Some i -> h <> 0 -> exists n, T n /\ is_leaf n = false /\ nhash n = h /\ stored b n i;
      s_v : forall h i, find h (b_vidx b) = Some i -> h <> 0 -> exists n, T n /\ is_leaf n = true /\ nhash n = h /\ repr 0 b n i
    }.
    Lemma s_vlen : forall b, sinv b -> (3 <= length (b_values b))%nat.
    Proof. intros b I. apply nth_error_Some. rewrite (s_zero b I). discriminate. Qed.

    Lemma sinv_grows_i : forall b b', sinv b -> grows b b' -> forall h i, find h (b_iidx b) = Some i -> h <> 0 -> exists n, T n /\ is_leaf n = false /\ nhash n = h /\ stored b' n i.
    Proof. intros b b' I G h i F Z. destruct (s_i b I h i F Z) as (n & A & B & C & D). exists n. repeat (split; [assumption|]). exact (stored_grows b b' n i G D). Qed.
    Lemma sinv_grows_v : forall b b', sinv b -> grows b b' -> forall h i, find h (b_vidx b) = Some i -> h <> 0 -> exists n, T n /\ is_leaf n = true /\ nhash n = h /\ repr 0 b' n i.
    Proof. intros b b' I G h i F Z. destruct (s_v b I h i F Z) as (n & A & B & C & D). exists n. repeat (split; [assumption|]). exact (repr_grows 0 b b' n i G D). Qed.

    Lemma not_first : forall b, sinv b -> Nat.eqb (length (b_index b)) rootBlockOffset = false.
    Proof. intros b I. apply Nat.eqb_neq. pose proof (s_len b I). unfold rootBlockOffset. lia. Qed.

    Definition spost (k : nat) (n : node) (b : builder) (r : N * N * builder) : Prop :=
      let '(h, i, b') := r in h = nhash n /\ sinv b' /\ grows b b' /\ repr k b' n i.

    Lemma soffs_ok : forall l d, (forall p n b, wf (d p) n -> T n -> sinv b -> spost (d p) n b (computeOffsets H n b)) ->
      forall b, (forall p c, nth_error l p = Some (Some c) -> T c /\ wf (d p) c) -> sinv b ->
      let '(hs, row, b') := offs H l b in hs = hashes l /\ sinv b' /\ grows b b' /\ length row = length l /\
        forall p oc, nth_error l p = Some oc -> match oc with None => nth p row 0 = 0 | Some c => repr (d p) b' c (nth p row 0) end.
    Proof.
      induction l as [|[c|] l IHl]; intros d IH b HT I; cbn [offs].
      - split; [reflexivity|]. split; [exact I|]. split; [apply grows_refl|]. split; [reflexivity|]. intros [|p] oc E; discriminate E.
      - destruct (HT 0%nat c eq_refl) as [Tc Wc]. pose proof (IH 0%nat c b Wc Tc I) as Pc. destruct (computeOffsets H c b) as [[h i] b1]. destruct Pc as (-> & I1 & X1 & R1).
        specialize (IHl (fun p => d (S p)) (fun p => IH (S p)) b1 (fun p c0 Hc => HT (S p) c0 Hc) I1). destruct (offs H l b1) as [[hs row] b2]. destruct IHl as (-> & I2 & X2 & L2 & C2).
        split; [reflexivity|]. split; [exact I2|]. split; [apply (grows_trans _ b1); assumption|]. split; [cbn [length]; lia|].
        intros [|p] oc E; cbn [nth_error nth] in *; [injection E as <-; apply (repr_grows (d 0%nat) b1); assumption|apply C2; exact E].
      - specialize (IHl (fun p => d (S p)) (fun p => IH (S p)) b (fun p c0 Hc => HT (S p) c0 Hc) I). destruct (offs H l b) as [[hs row] b2]. destruct IHl as (-> & I2 & X2 & L2 & C2).
        split; [reflexivity|]. split; [exact I2|]. split; [exact X2|]. split; [cbn [length]; lia|].
        intros [|p] oc E; cbn [nth_error nth] in *; [injection E as <-; reflexivity|apply C2; exact E].
    Qed.

    (** Adding a row for a node that the index does not have. *)
    Lemma add_row : forall b n row h m, sinv b -> T n -> is_leaf n = false -> nhash n = h ->
      let v := N.of_nat (length (b_index b) - blockOffset) in
      let b' := {| b_index := b_index b ++ [row]; b_values := b_values b; b_iidx := (h, v) :: b_iidx b; b_vidx := b_vidx b; b_maxHandle := m |} in
      grows b b' /\ (stored b' n v -> sinv b') /\ 2 <= v /\ nth_error (b_index b') (N.to_nat v + 2) = Some row.
    Proof.
      intros b n row h m I Tn Lf Hh v b'. pose proof (s_len b I) as Len.
      assert (X : grows b b') by (split; [intros j x E; exact E|intros j x E; apply nth_error_snoc_old; exact E]).
      split; [exact X|]. split; [|split].
      - intros St. constructor; cbn [b' b_index b_values b_iidx b_vidx].
        + intros j Hj. apply nth_error_snoc_old. exact (s_low b I j Hj).
        + rewrite app_length. lia.
        + exact (s_zero b I).
        + intros h' i Fh Zh. cbn [find] in Fh. destruct (N.eqb_spec h h') as [<-|_]; [|exact (sinv_grows_i b b' I X h' i Fh Zh)].
          injection Fh as <-. exists n. repeat split; assumption.
        + intros h' i Fh Zh. exact (sinv_grows_v b b' I X h' i Fh Zh).
      - unfold v, blockOffset. lia.
      - cbn [b' b_index]. unfold v, blockOffset. rewrite Nnat.Nat2N.id. replace (length (b_index b) - 2 + 2)%nat with (length (b_index b)) by lia. apply nth_error_snoc.
    Qed.

    Lemma wf_not_root : forall k n, wf k n -> wf_root n -> False.
    Proof.
      intros [|k] n W (V & _ & _); [destruct W as [_ W]|destruct W as [W _]]; rewrite W in V; discriminate V.
    Qed.

    Lemma scompute_ok : forall k n b, wf k n -> T n -> sinv b -> spost k n b (computeOffsets H n b).
    Proof.
      induction k as [|k IH]; intros [ch vs] b W Tn I; rewrite computeOffsets_eq; cbv zeta; rewrite (not_first b I).
      - destruct W as [Wc Wv]. cbn [children values] in Wc, Wv. subst ch. cbn [offs]. cbn [is_nil negb].
        assert (Hv : is_nil vs = false) by (destruct vs; [discriminate Wv|reflexivity]). rewrite Hv. cbn [andb app].
        assert (Hh : nhash (Node [] vs) = H vs) by (rewrite nhash_eq, Hv; reflexivity).
        pose proof (T_zero _ Tn) as Z. rewrite Hh in Z.
        destruct (find (H vs) (b_vidx b)) as [i|] eqn:Fd.
        + destruct (s_v b I _ _ Fd Z) as (n' & Tn' & Lf & Hn' & R). assert (n' = Node [] vs) by (apply T_inj; [assumption|assumption|rewrite Lf; reflexivity|congruence]). subst n'.
          split; [symmetry; exact Hh|]. split; [exact I|]. split; [apply grows_refl|exact R].
        + set (v := N.of_nat (length (b_values b) - blockOffset)).
          set (b' := {| b_index := b_index b; b_values := b_values b ++ [vs]; b_iidx := b_iidx b; b_vidx := (H vs, v) :: b_vidx b; b_maxHandle := N.max (b_maxHandle b) v |}).
          assert (X : grows b b') by (split; [intros j x E; apply nth_error_snoc_old; exact E|intros j x E; exact E]).
          assert (R : repr 0 b' (Node [] vs) v).
          { cbn [repr b' b_values values]. unfold v, blockOffset. rewrite Nnat.Nat2N.id. pose proof (s_vlen b I). replace (length (b_values b) - 2 + 2)%nat with (length (b_values b)) by lia. apply nth_error_snoc. }
          split; [symmetry; exact Hh|]. split; [|split; assumption]. constructor; cbn [b' b_index b_values b_iidx b_vidx].
          * exact (s_low b I).
          * exact (s_len b I).
          * apply nth_error_snoc_old. exact (s_zero b I).
          * intros h i Fh Zh. exact (sinv_grows_i b b' I X h i Fh Zh).
          * intros h i Fh Zh. cbn [find] in Fh. destruct (N.eqb_spec (H vs) h) as [<-|_]; [|exact (sinv_grows_v b b' I X h i Fh Zh)].
            injection Fh as <-. exists (Node [] vs). repeat split; assumption.
      - destruct W as (Wv & Wl & Wc) eqn:EW. clear EW. cbn [children values] in Wv, Wl, Wc. subst vs.
        assert (HT : forall p c, nth_error ch p = Some (Some c) -> T c /\ wf k c).
        { intros p c Hp. split; [exact (T_child _ _ _ Tn (nth_error_In _ _ Hp))|]. exact (Wc p c Hp). }
        pose proof (soffs_ok ch (fun _ => k) (fun _ => IH) b HT I) as P. destruct (offs H ch b) as [[hs row] b1]. destruct P as (-> & I1 & X1 & L1 & C1).
        assert (Hc : is_nil ch = false) by (destruct ch; [discriminate Wl|reflexivity]). rewrite Hc. cbn [andb negb].
        assert (Hh : nhash (Node ch []) = H (hashes ch ++ [])) by (rewrite nhash_eq, Hc; reflexivity). rewrite <- Hh. set (h := nhash (Node ch [])) in *.
        pose proof (T_zero _ Tn) as Z. fold h in Z.
        assert (Wn : wf (S k) (Node ch [])) by (split; [reflexivity|split; assumption]).
        assert (Lf : is_leaf (Node ch []) = false) by (unfold is_leaf; cbn [children]; exact Hc).
        destruct (find h (b_iidx b1)) as [i|] eqn:Fd.
        + destruct (s_i b1 I1 _ _ Fd Z) as (n' & Tn' & Lf' & Hn' & St). assert (n' = Node ch []) by (apply T_inj; [assumption|assumption|congruence|exact Hn']). subst n'.
          split; [reflexivity|]. split; [exact I1|]. split; [exact X1|]. destruct St as [(k' & W' & R)|[W' _]]; [|destruct (wf_not_root _ _ Wn W')]. exact (repr_depth (S k') (S k) b1 _ i W' Wn R).
        + destruct (add_row b1 (Node ch []) row h (b_maxHandle b1) I1 Tn Lf eq_refl) as (X & Si & G2 & En). cbv zeta in X, Si, G2, En |- *.
          set (v := N.of_nat (length (b_index b1) - blockOffset)) in *. set (b' := {| b_index := b_index b1 ++ [row] |}) in *.
          assert (R : repr (S k) b' (Node ch []) v).
          { cbn [repr]. split; [exact G2|]. exists row. split; [exact En|]. split; [exact L1|]. cbn [children]. intros p oc E. specialize (C1 p oc E). destruct oc; [apply (repr_grows k b1); assumption|exact C1]. }
          split; [reflexivity|]. split; [|split; [apply (grows_trans _ b1); assumption|exact R]]. apply Si. left. exists k. split; assumption.
    Qed.

    (** A root that is not the first. *)
    Lemma sroot_ok : forall t b, wf_root t -> T t -> sinv b -> let '(h, i, b') := computeOffsets H t b in h = nhash t /\ sinv b' /\ grows b b' /\ root_repr b' t i.
    Proof.
      intros [ch vs] b W Tn I. rewrite computeOffsets_eq. cbv zeta. rewrite (not_first b I).
      pose proof W as (Wv & Wl & Wc). cbn [children values] in Wv, Wl, Wc.
      assert (HT : forall p c, nth_error ch p = Some (Some c) -> T c /\ wf (depth p) c).
      { intros p c Hp. split; [exact (T_child _ _ _ Tn (nth_error_In _ _ Hp))|]. exact (Wc p c Hp). }
      pose proof (soffs_ok ch depth (fun p n b => scompute_ok (depth p) n b) b HT I) as P. destruct (offs H ch b) as [[hs row] b1]. destruct P as (-> & I1 & X1 & L1 & C1).
      assert (Hc : is_nil ch = false) by (destruct ch; [discriminate Wl|reflexivity]). rewrite Hc. cbn [andb negb].
      assert (Hh : nhash (Node ch vs) = H (hashes ch ++ vs)) by (rewrite nhash_eq, Hc; reflexivity). rewrite <- Hh. set (h := nhash (Node ch vs)) in *.
      pose proof (T_zero _ Tn) as Z. fold h in Z.
      assert (Lf : is_leaf (Node ch vs) = false) by (unfold is_leaf; cbn [children]; exact Hc).
      destruct (find h (b_iidx b1)) as [i|] eqn:Fd.
      - destruct (s_i b1 I1 _ _ Fd Z) as (n' & Tn' & Lf' & Hn' & St). assert (n' = Node ch vs) by (apply T_inj; [assumption|assumption|congruence|exact Hn']). subst n'.
        split; [reflexivity|]. split; [exact I1|]. split; [exact X1|]. destruct St as [(k' & W' & R)|[_ R]]; [destruct (wf_not_root _ _ W' W)|exact R].
      - destruct (add_row b1 (Node ch vs) row h (b_maxHandle b1) I1 Tn Lf eq_refl) as (X & Si & G2 & En). cbv zeta in X, Si, G2, En |- *.
        set (v := N.of_nat (length (b_index b1) - blockOffset)) in *. set (b' := {| b_index := b_index b1 ++ [row] |}) in *.
        assert (R : root_repr b' (Node ch vs) v).
        { split; [lia|]. exists row. split; [exact En|]. split; [lia|]. cbn [children]. intros p oc E. specialize (C1 p oc E). destruct oc; [apply (repr_grows (depth p) b1); assumption|exact C1]. }
        split; [reflexivity|]. split; [|split; [apply (grows_trans _ b1); assumption|exact R]]. apply Si. right. split; assumption.
    Qed.

    (** The first root. *)
    Lemma sfirst_ok : forall t b, wf_root t -> T t -> b_index b = [[]; []; []] -> nth_error (b_values b) 2 = Some (repeat 0 blockSize) -> b_iidx b = [(0, 0)] -> b_vidx b = [(0, 0)] ->
      let '(h, i, b') := computeOffsets H t b in h = nhash t /\ sinv b' /\ grows b b' /\ root_repr b' t i.
    Proof.
      intros [ch vs] b W Tn Bi Bv Mi Mv. rewrite computeOffsets_eq. cbv zeta. rewrite Bi. cbn [length Nat.eqb rootBlockOffset app].
      set (b0 := {| b_index := [[]; []; []; []] |}).
      assert (I0 : inv H T b0).
      { constructor; cbn [b0 b_index b_values b_iidx b_vidx length]; [lia|apply nth_error_Some; rewrite Bv; discriminate|rewrite Mi|rewrite Mv]; intros h i F Z; cbn [find] in F; destruct (N.eqb_spec 0 h); try congruence; discriminate F. }
      pose proof W as (Wv & Wl & Wc). cbn [children values] in Wv, Wl, Wc.
      assert (HT : forall p c, nth_error ch p = Some (Some c) -> T c /\ wf (depth p) c).
      { intros p c Hp. split; [exact (T_child _ _ _ Tn (nth_error_In _ _ Hp))|]. exact (Wc p c Hp). }
      pose proof (offs_ok H T ch depth (fun p n b Wn Tn In => compute_ok H T T_child T_zero T_inj (depth p) n b Wn Tn In) b0 HT I0) as P.
      destruct (offs H ch b0) as [[hs row] b1]. destruct P as (-> & I1 & X1 & L1 & C1).
      assert (Hc : is_nil ch = false) by (destruct ch; [discriminate Wl|reflexivity]). rewrite Hc. cbn [andb negb].
      cbn [find b_iidx]. rewrite N.eqb_refl.
      assert (Hh : nhash (Node ch vs) = H (hashes ch ++ vs)) by (rewrite nhash_eq, Hc; reflexivity). rewrite <- Hh. set (h := nhash (Node ch vs)) in *.
      assert (Lf : is_leaf (Node ch vs) = false) by (unfold is_leaf; cbn [children]; exact Hc).
      pose proof (inv_len H T b1 I1) as L4.
      change (firstn rootBlockOffset (b_index b1)) with (firstn 3 (b_index b1)). change (skipn (S rootBlockOffset) (b_index b1)) with (skipn 4 (b_index b1)).
      assert (L3 : length (firstn 3 (b_index b1)) = 3%nat) by (rewrite firstn_length; lia).
      set (b2 := {| b_index := firstn 3 (b_index b1) ++ row :: skipn 4 (b_index b1) |}).
      assert (X2 : extends b1 b2).
      { split; [intros j x E; exact E|]. intros j x Hj E. cbn [b2 b_index]. destruct (Nat.lt_ge_cases j 3) as [Lj|Lj].
        - rewrite nth_error_app1 by lia. rewrite <- E. clear - Lj L4. destruct (b_index b1) as [|x0 [|x1 [|x2 r]]]; cbn [length] in L4; try lia. destruct j as [|[|[|j]]]; try reflexivity; lia.
        - rewrite nth_error_app2 by lia. rewrite L3. destruct (j - 3)%nat as [|m] eqn:Em; [lia|]. cbn [nth_error]. rewrite <- E. clear - Em L4. replace j with (m + 4)%nat by lia.
          destruct (b_index b1) as [|x0 [|x1 [|x2 [|x3 r]]]]; cbn [length] in L4; try lia. rewrite Nat.add_comm. reflexivity. }
      assert (Low : forall j, (j < 3)%nat -> nth_error (b_index b2) j = Some []).
      { intros j Hj. apply (proj2 X2); [lia|]. apply (proj2 X1); [lia|]. destruct j as [|[|[|j]]]; try reflexivity; lia. }
      assert (R : root_repr b2 (Node ch vs) (N.of_nat (3 - blockOffset))).
      { split; [discriminate|]. exists row. split; [change (N.to_nat (N.of_nat (3 - blockOffset)) + 2)%nat with 3%nat; cbn [b2 b_index]; rewrite nth_error_app2 by lia; rewrite L3; reflexivity|].
        split; [lia|]. cbn [children]. intros p oc E. specialize (C1 p oc E). destruct oc as [c|]; [exact (repr_extends (depth p) b1 b2 c _ X2 C1)|exact C1]. }
      split; [reflexivity|]. split; [|split; [|exact R]].
      - constructor.
        + exact Low.
        + cbn [b2 b_index]. rewrite app_length. cbn [length]. lia.
        + apply (proj1 X1). exact Bv.
        + intros h' i Fh Zh. cbn [b2 b_iidx find] in Fh. destruct (N.eqb_spec h h') as [<-|_].
          * injection Fh as <-. exists (Node ch vs). split; [exact Tn|]. split; [exact Lf|]. split; [reflexivity|]. right. split; [exact W|exact R].
          * destruct (inv_i H T b1 I1 h' i Fh Zh) as (n & k & A & B & C & D & E). exists n. repeat (split; [assumption|]). left. exists k. split; [exact D|exact (repr_extends _ b1 b2 _ _ X2 E)].
        + intros h' i Fh Zh. destruct (inv_v H T b1 I1 h' i Fh Zh) as (n & A & B & C & D). exists n. repeat (split; [assumption|]). exact D.
      - split; [exact (proj1 X1)|]. rewrite Bi. intros j x E.
        destruct j as [|[|[|j]]]; [rewrite Low by lia; exact E..|destruct j; discriminate E].
    Qed.
  End Inside.

  (** * The sizes *)
  Lemma root_grows : forall t b, wf_root t -> small b -> let '(_, _, b') := computeOffsets H t b in small b' /\ count b' <= count b + 266305.
  Proof.
    intros [ch vs] b (Wv & Wl & Wc) S. cbn [children values] in Wv, Wl, Wc. rewrite computeOffsets_eq. cbv zeta.
    assert (F : Nat.eqb (length (b_index b)) rootBlockOffset = false) by (apply Nat.eqb_neq; destruct S as [S _]; unfold rootBlockOffset; lia). rewrite F.
    pose proof (offs_size H 4161 ch) as P.
    assert (HC : forall c b, In (Some c) ch -> small b -> let '(_, _, b') := computeOffsets H c b in small b' /\ count b' <= count b + 4161).
    { intros c b' Hc Sb. apply In_nth_error in Hc as [p Hp]. pose proof (compute_size H (depth p) c b' (Wc p c Hp) Sb) as Q. destruct (computeOffsets H c b') as [[h i] b'']. destruct Q as [Q1 Q2]. split; [exact Q1|].
      assert (D : sz (depth p) <= 4161) by (apply sz_le; unfold depth; destruct (_ <? _)%nat; [lia|destruct (_ <? _)%nat; lia]). lia. }
    specialize (P HC b S). destruct (offs H ch b) as [[hs row] b1]. destruct P as (S1 & C1 & L1). rewrite Wl in C1. change (N.of_nat 64) with 64 in C1.
    assert (Hc : is_nil ch = false) by (destruct ch; [discriminate Wl|reflexivity]). rewrite Hc. cbn [andb negb]. destruct (find _ _) as [i|].
    - split; [exact S1|lia].
    - destruct S1 as (Sa & Sb & Sc). unfold small, count in *. cbn [b_index b_values]. rewrite app_length. cbn [length]. split; [|lia]. split; [lia|]. split; [|exact Sc].
      apply Forall_snoc; [exact Sb|lia].
  Qed.

  (** * All the tries *)
  Section All.
    Variable all : list node.
    Hypothesis W : forall t, In t all -> wf_root t.
    Hypothesis D : distinct_all H all.

    Lemma among_child : forall ch vs c, among all (Node ch vs) -> In (Some c) ch -> among all c.
    Proof. intros ch vs c (t & Ht & B) Hc. exists t. split; [exact Ht|]. apply (below_trans (Node ch vs) t B). apply (below_child c ch vs c Hc). constructor. Qed.
    Lemma among_root : forall t, In t all -> among all t.
    Proof. intros t Ht. exists t. split; [exact Ht|constructor]. Qed.

    Definition ascii_at (b : builder) (t : node) (v : N) : Prop :=
      nth_error (b_values b) (N.to_nat v) = Some (firstn blockSize (values t)) /\ nth_error (b_values b) (S (N.to_nat v)) = Some (skipn blockSize (values t)).
    Lemma ascii_at_grows : forall b b' t v, grows b b' -> ascii_at b t v -> ascii_at b' t v.
    Proof. intros b b' t v [G _] [A B]. split; apply G; assumption. Qed.

    Record good (s : shared) : Prop := {
      g_inv : sinv (among all) (s_builder s);
      g_ascii : forall h v, find h (s_ascii s) = Some v -> exists t, In t all /\ H (values t) = h /\ ascii_at (s_builder s) t v;
      g_small : small (s_builder s)
    }.
    Definition handle_ok (b : builder) (t : node) (h : handle) : Prop := root_repr b t (h_starter h + 1) /\ ascii_at b t (h_ascii h) /\ h_checksum h = nhash t.
    Lemma handle_ok_grows : forall b b' t h, grows b b' -> handle_ok b t h -> handle_ok b' t h.
    Proof. intros b b' t h G (A & B & C). split; [exact (root_repr_grows b b' t _ G A)|]. split; [exact (ascii_at_grows b b' t _ G B)|exact C]. Qed.

    Lemma place_ok : forall t s, In t all -> good s -> let '(v, s1) := place_ascii H t s in
      good s1 /\ grows (s_builder s) (s_builder s1) /\ ascii_at (s_builder s1) t v /\ count (s_builder s1) <= count (s_builder s) + 2.
    Proof.
      intros t s Ht G. unfold place_ascii. destruct (find (H (values t)) (s_ascii s)) as [v|] eqn:F.
      - split; [exact G|]. split; [apply grows_refl|]. split; [|lia]. destruct (g_ascii s G _ _ F) as (t' & Ht' & E & A).
        unfold ascii_at in *. rewrite <- (proj2 (proj2 D) t' t Ht' Ht E). exact A.
      - set (b := s_builder s). pose proof (g_inv s G) as I. pose proof (s_vlen _ _ I) as VL. fold b in I, VL.
        assert (Q : Nat.eqb (length (b_values b)) 0 = false) by (apply Nat.eqb_neq; lia). rewrite Q, app_nil_r. cbv zeta.
        set (b' := {| b_index := b_index b |}). set (v := N.of_nat (length (b_values b))).
        assert (Gr : grows b b').
        { split; [|intros j x E; exact E]. intros j x E. cbn [b' b_values]. rewrite nth_error_app1; [exact E|]. apply nth_error_Some. rewrite E. discriminate. }
        assert (A : ascii_at b' t v).
        { unfold ascii_at, v. rewrite Nnat.Nat2N.id. cbn [b' b_values]. split; (rewrite nth_error_app2 by lia).
          - rewrite Nat.sub_diag. reflexivity.
          - replace (S (length (b_values b)) - length (b_values b))%nat with 1%nat by lia. reflexivity. }
        destruct (W t Ht) as (Wv & _ & _).
        split; [|split; [exact Gr|split; [exact A|]]].
        + constructor; cbn [s_builder s_ascii].
          * constructor.
            -- exact (s_low _ b I).
            -- exact (s_len _ b I).
            -- apply (proj1 Gr). exact (s_zero _ b I).
            -- intros h i Fh Zh. exact (sinv_grows_i _ b b' I Gr h i Fh Zh).
            -- intros h i Fh Zh. exact (sinv_grows_v _ b b' I Gr h i Fh Zh).
          * intros h x Fx. cbn [find] in Fx. destruct (N.eqb_spec (H (values t)) h) as [<-|_].
            -- injection Fx as <-. exists t. repeat split; [exact Ht|exact (proj1 A)|exact (proj2 A)].
            -- destruct (g_ascii s G h x Fx) as (t' & Ht' & E & A'). exists t'. split; [exact Ht'|]. split; [exact E|]. exact (ascii_at_grows b b' t' x Gr A').
          * destruct (g_small s G) as (Sa & Sb & Sc). split; [exact Sa|]. split; [exact Sb|]. cbn [b' b_values]. apply Forall_app. split; [exact Sc|].
            unfold blockSize. constructor; [rewrite firstn_length; lia|]. constructor; [rewrite skipn_length; lia|constructor].
        + unfold count. cbn [s_builder b' b_index b_values]. fold b. rewrite app_length. cbn [length]. lia.
    Qed.

    Lemma trie_ok : forall t s, In t all -> good s -> let '(h, s') := buildTrie_shared H t s in
      good s' /\ grows (s_builder s) (s_builder s') /\ handle_ok (s_builder s') t h /\ count (s_builder s') <= count (s_builder s) + 266307.
    Proof.
      intros t s Ht G. unfold buildTrie_shared. pose proof (place_ok t s Ht G) as P. destruct (place_ascii H t s) as [v s1]. destruct P as (G1 & X1 & A1 & C1).
      destruct D as (DZ & DI & _).
      pose proof (sroot_ok (among all) among_child DZ DI t (s_builder s1) (W t Ht) (among_root t Ht) (g_inv s1 G1)) as R.
      pose proof (root_grows t (s_builder s1) (W t Ht) (g_small s1 G1)) as Sz.
      destruct (computeOffsets H t (s_builder s1)) as [[h i] b]. destruct R as (Eh & I & X & Rr). destruct Sz as [Sm Cn]. cbn [s_builder].
      split; [|split; [exact (grows_trans _ _ _ X1 X)|split; [|lia]]].
      - constructor; [exact I| |exact Sm]. cbn [s_ascii s_builder]. intros h' x Fx. destruct (g_ascii s1 G1 h' x Fx) as (t' & Ht' & E & A'). exists t'. split; [exact Ht'|]. split; [exact E|]. exact (ascii_at_grows _ _ t' x X A').
      - split; [|split; [exact (ascii_at_grows _ _ t v X A1)|exact Eh]]. cbn [h_starter]. pose proof (proj1 Rr) as P1. change (N.of_nat (rootBlockOffset - blockOffset)) with 1. rewrite N.sub_add by exact P1. exact Rr.
    Qed.

    Lemma first_ok : forall t, In t all -> let '(h, s') := buildTrie_shared H t shared0 in
      good s' /\ handle_ok (s_builder s') t h /\ count (s_builder s') <= 266311 /\ h_ascii h = 0 /\ h_starter h = 0.
    Proof.
      intros t Ht. unfold buildTrie_shared, place_ascii. cbn [s_ascii shared0 find s_builder b_index b_values b_iidx b_vidx b_maxHandle length Nat.eqb app].
      destruct D as (DZ & DI & _). destruct (W t Ht) as (Wv & Wr).
      pose proof (root_size H t (W t Ht)) as Sz. unfold buildTrie in Sz.
      pose proof (sfirst_ok (among all) among_child DZ DI t (builder0 t) (W t Ht) (among_root t Ht) eq_refl eq_refl eq_refl eq_refl) as R.
      change (computeOffsets H t {| b_index := [[]; []; []]; b_values := [firstn blockSize (values t); skipn blockSize (values t); repeat 0 blockSize]; b_iidx := [(0, 0)]; b_vidx := [(0, 0)]; b_maxHandle := 0 |}) with (computeOffsets H t (builder0 t)).
      assert (Ei : snd (fst (computeOffsets H t (builder0 t))) = 1).
      { destruct t as [ch vs]. destruct Wr as [Wl _]. cbn [children] in Wl. rewrite computeOffsets_eq. cbv zeta. cbn [builder0 b_index length Nat.eqb rootBlockOffset]. destruct (offs H ch _) as [[hs row] b1].
        destruct ch as [|o ch]; [discriminate Wl|]. cbn [is_nil negb andb b_iidx find]. rewrite N.eqb_refl. reflexivity. }
      destruct (computeOffsets H t (builder0 t)) as [[h i] b]. cbn [fst snd] in Ei. subst i. destruct R as (Eh & I & X & Rr). destruct Sz as [Sm Cn]. cbn [s_builder h_ascii h_starter].
      assert (A : ascii_at b t 0) by (split; apply (proj1 X); reflexivity).
      split; [|split; [|split; [exact Cn|split; reflexivity]]].
      - constructor; [exact I| |exact Sm]. cbn [s_ascii s_builder find]. intros h' x Fx. destruct (N.eqb_spec (H (values t)) h') as [<-|_]; [|discriminate Fx]. injection Fx as <-. exists t. split; [exact Ht|]. split; [reflexivity|exact A].
      - split; [exact Rr|]. split; [exact A|exact Eh].
    Qed.

    Lemma tries_ok : forall ts s, incl ts all -> good s -> let '(hs, s') := build_tries H ts s in
      good s' /\ grows (s_builder s) (s_builder s') /\ Forall2 (handle_ok (s_builder s')) ts hs /\ count (s_builder s') <= count (s_builder s) + N.of_nat (length ts) * 266307.
    Proof.
      induction ts as [|t ts IH]; intros s In G; cbn [build_tries].
      - split; [exact G|]. split; [apply grows_refl|]. split; [constructor|]. cbn [length]. lia.
      - pose proof (trie_ok t s (In t (or_introl eq_refl)) G) as P. destruct (buildTrie_shared H t s) as [h s1]. destruct P as (G1 & X1 & O1 & C1).
        specialize (IH s1 (fun x Hx => In x (or_intror Hx)) G1). destruct (build_tries H ts s1) as [hs s2]. destruct IH as (G2 & X2 & O2 & C2).
        split; [exact G2|]. split; [exact (grows_trans _ _ _ X1 X2)|]. split; [constructor; [exact (handle_ok_grows _ _ t h X2 O1)|exact O2]|]. cbn [length]. rewrite Nnat.Nat2N.inj_succ, N.mul_succ_l. lia.
    Qed.

    Lemma build_ok : forall t ts, all = t :: ts -> let '(hs, s) := build_tries H all shared0 in
      good s /\ Forall2 (handle_ok (s_builder s)) all hs /\ count (s_builder s) <= 4 + N.of_nat (length all) * 266307.
    Proof.
      intros t ts E. replace (build_tries H all shared0) with (build_tries H (t :: ts) shared0) by (f_equal; symmetry; exact E). cbn [build_tries]. assert (Ht : In t all) by (rewrite E; left; reflexivity).
      pose proof (first_ok t Ht) as P. destruct (buildTrie_shared H t shared0) as [h s1]. destruct P as (G1 & O1 & C1 & _).
      assert (Hi : incl ts all) by (rewrite E; intros x Hx; right; exact Hx).
      pose proof (tries_ok ts s1 Hi G1) as P. destruct (build_tries H ts s1) as [hs s2]. destruct P as (G2 & X2 & O2 & C2).
      split; [exact G2|].
      assert (F : Forall2 (handle_ok (s_builder s2)) (t :: ts) (h :: hs)) by (constructor; [exact (handle_ok_grows _ _ t h X2 O1)|exact O2]). rewrite <- E in F. split; [exact F|].
      assert (L : length all = S (length ts)) by (rewrite E; reflexivity). rewrite L. cbn [length]. rewrite Nnat.Nat2N.inj_succ, N.mul_succ_l. lia.
    Qed.
  End All.
End Hash.

(** The trie of a handle that is right answers. *)
Lemma handle_answers : forall H all s t h, wf_root t -> good H all s -> handle_ok H (s_builder s) t h -> count (s_builder s) <= 0x4000000 ->
  exists tr, newTrie (fst (tables (s_builder s))) (snd (tables (s_builder s))) h = Ok tr /\ forall d, d <> [] -> exists v w, lookup_in tr d = Ok (v, w) /\ answer t d v w.
Proof.
  intros H all s t h Wt G (Rr & [A0 A1] & _) Cn. set (b := s_builder s) in *. destruct Rr as (_ & row & Sr & Lr & Cr).
  set (r0 := N.to_nat (h_starter h)). set (a0 := N.to_nat (h_ascii h)).
  replace (N.to_nat (h_starter h + 1) + 2)%nat with (r0 + 3)%nat in Sr by (unfold r0; lia).
  assert (Lv : (S a0 < length (b_values b))%nat) by (apply nth_error_Some; unfold a0; rewrite A1; discriminate).
  assert (Li : (r0 + 3 < length (b_index b))%nat) by (apply nth_error_Some; rewrite Sr; discriminate).
  assert (Off : forall x n, x = N.of_nat n -> N.of_nat n < 0x4000000 -> u32 (N.shiftl (u32 x) 6) = N.of_nat n * 64).
  { intros x n -> Hn. unfold u32. rewrite N.shiftl_mul_pow2. change (2 ^ 6) with 64. change 0xFFFFFFFF with (N.ones 32). rewrite !N.land_ones. change (2 ^ 32) with 4294967296.
    rewrite (N.mod_small (N.of_nat n)) by lia. apply N.mod_small. lia. }
  pose proof (g_inv H all s G) as I. pose proof (g_small H all s G) as Sm. fold b in I, Sm. unfold count in Cn.
  exists {| t_values := fst (tables b); t_index := snd (tables b); t_ascii := N.of_nat a0 * 64; t_utf8Start := N.of_nat r0 * 64 |}. split.
  - unfold newTrie. rewrite (Off (h_ascii h) a0) by (unfold a0; lia). rewrite (Off (h_starter h) r0) by (unfold r0; lia). cbn [fst snd tables arr_of arr_len].
    replace (N.of_nat a0 * 64 <=? _) with true by (symmetry; apply N.leb_le; unfold blockSize; lia). replace (N.of_nat r0 * 64 <=? _) with true by (symmetry; apply N.leb_le; unfold blockSize; lia). reflexivity.
  - exact (lookup_answer t b row r0 a0 Wt Sr Lr Cr (s_low H _ b I) A0 A1 (s_zero H _ b I) Sm Cn).
Qed.

Lemma Forall2_in : forall (A B : Type) (R : A -> B -> Prop) l l', Forall2 R l l' -> forall k x, nth_error l k = Some x -> exists y, nth_error l' k = Some y /\ R x y.
Proof. induction 1 as [|x y l l' Rxy F IH]; intros [|k] z E; try discriminate E; [injection E as <-; exists y; split; [reflexivity|exact Rxy]|exact (IH k z E)]. Qed.

Definition inserted (l : list (N * N)) (t : node) : Prop := assignable l /\ inserts NewTrie l = Ok t.
Lemma inserted_wf : forall ls ts, Forall2 inserted ls ts -> forall t, In t ts -> wf_root t.
Proof.
  induction 1 as [|l t ls ts [A E] F IH]; intros t' Ht; [destruct Ht|destruct Ht as [Q|Ht]].
  - subst t'. destruct (inserts_get l NewTrie wf_new A) as (t' & E' & Wt & _). congruence.
  - exact (IH t' Ht).
Qed.

Lemma Gen_many_looks_up : forall H ls ts, Forall2 inserted ls ts -> distinct_all H ts -> (length ts <= 250)%nat ->
  length (gm_handles (Gen_many H ts)) = length ts /\
  forall k l, nth_error ls k = Some l -> exists h tr, nth_error (gm_handles (Gen_many H ts)) k = Some h
    /\ newTrie (gm_values (Gen_many H ts)) (gm_index (Gen_many H ts)) h = Ok tr /\ looks_up Ok (lookup_in tr) l.
Proof.
  intros H ls ts F D L. pose proof (inserted_wf ls ts F) as W. destruct ts as [|t0 ts'] eqn:Et.
  { inversion F. subst ls. split; [reflexivity|]. intros [|k] l E; discriminate E. }
  rewrite <- Et in *. pose proof (build_ok H ts W D t0 ts' Et) as P. unfold Gen_many. destruct (build_tries H ts shared0) as [hs s]. destruct P as (G & O & Cn).
  cbn [gm_handles gm_values gm_index]. split; [clear - O; induction O; cbn [length]; congruence|]. intros k l E.
  destruct (Forall2_in _ _ _ _ _ F k l E) as (t & Ht & A & Ei). destruct (Forall2_in _ _ _ _ _ O k t Ht) as (h & Hh & Ho).
  assert (Cn' : count (s_builder s) <= 0x4000000) by lia.
  destruct (handle_answers H ts s t h (W t (nth_error_In _ _ Ht)) G Ho Cn') as (tr & Etr & An). exists h, tr. split; [exact Hh|]. split; [exact Etr|].
  apply (answer_looks_up l t _ A Ei). intros _. exact An.
Qed.
