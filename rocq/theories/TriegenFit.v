(** Facts about the generator with several tries: what the arrays hold fits the types declared for them. *)
From Verif Require Import Base Trie SpecUtf8 ListFacts Triegen TriegenMany SpecTrieHash TriegenFacts TriegenBuild TriegenSize TriegenTables.
Local Open Scope N_scope.

Section Hash.
  Variable H : list N -> N.
  (** A bound of all values. *)
  Variable M : N.

  Definition top (b : builder) : N := N.max (b_maxHandle b + 1) (N.of_nat (length (b_index b) - 1 - blockOffset)).
  Record fit (b : builder) : Prop := {
    f_i : forall h i, In (h, i) (b_iidx b) -> i <= N.of_nat (length (b_index b) - 1 - blockOffset);
    f_v : forall h i, In (h, i) (b_vidx b) -> i <= b_maxHandle b;
    f_rows : Forall (Forall (fun x => x <= top b)) (b_index b);
    f_blocks : Forall (Forall (fun x => x <= M)) (b_values b);
    f_max : b_maxHandle b <= N.of_nat (length (b_values b))
  }.
  Definition within (n : node) : Prop := forall m, below m n -> Forall (fun x => x <= M) (values m).
  Definition more (b b' : builder) : Prop := (length (b_index b) <= length (b_index b'))%nat /\ b_maxHandle b <= b_maxHandle b'.
  Lemma more_top : forall b b', more b b' -> top b <= top b'.
  Proof. intros b b' [A B]. unfold top, blockOffset. lia. Qed.
  Lemma more_trans : forall a b c, more a b -> more b c -> more a c.
  Proof. intros a b c [A B] [C D]. split; lia. Qed.

  Lemma find_In : forall h m i, find h m = Some i -> In (h, i) m.
  Proof. induction m as [|[k v] m IH]; intros i E; cbn [find] in E; [discriminate|]. destruct (N.eqb_spec k h) as [->|]; [injection E as <-; left; reflexivity|right; exact (IH i E)]. Qed.
  Lemma rows_top : forall b b' l, top b <= top b' -> Forall (Forall (fun x => x <= top b)) l -> Forall (Forall (fun x => x <= top b')) l.
  Proof. intros b b' l L. apply Forall_impl. intros r. apply Forall_impl. intros x Hx. lia. Qed.

  Definition fits_after (b : builder) (r : N * N * builder) : Prop := let '(_, i, b') := r in fit b' /\ more b b' /\ i <= top b'.

  Lemma offs_fit : forall l, (forall c b, In (Some c) l -> (4 <= length (b_index b))%nat -> fit b -> fits_after b (computeOffsets H c b)) ->
    forall b, (4 <= length (b_index b))%nat -> fit b -> let '(_, row, b') := offs H l b in fit b' /\ more b b' /\ Forall (fun x => x <= top b') row.
  Proof.
    induction l as [|[c|] l IH]; intros HC b L F; cbn [offs].
    - split; [exact F|]. split; [split; lia|constructor].
    - pose proof (HC c b (or_introl eq_refl) L F) as P. destruct (computeOffsets H c b) as [[h i] b1]. destruct P as (F1 & M1 & T1).
      specialize (IH (fun c0 b0 Hc => HC c0 b0 (or_intror Hc)) b1 ltac:(destruct M1; lia) F1). destruct (offs H l b1) as [[hs row] b2]. destruct IH as (F2 & M2 & R2).
      split; [exact F2|]. split; [exact (more_trans _ _ _ M1 M2)|]. constructor; [pose proof (more_top _ _ M2); lia|exact R2].
    - specialize (IH (fun c0 b0 Hc => HC c0 b0 (or_intror Hc)) b L F). destruct (offs H l b) as [[hs row] b2]. destruct IH as (F2 & M2 & R2).
      split; [exact F2|]. split; [exact M2|]. constructor; [lia|exact R2].
  Qed.

  (** What comes after the children of a node. *)
  Lemma finish_fit : forall (ch : list (option node)) vs hash row b1, (4 <= length (b_index b1))%nat -> fit b1 -> Forall (fun x => x <= M) vs -> Forall (fun x => x <= top b1) row ->
    fits_after b1 (if negb (is_nil ch) then
        match find hash (b_iidx b1) with
        | Some v => (hash, v, b1)
        | None =>
          let v := N.of_nat (length (b_index b1) - blockOffset) in
          (hash, v, {| b_index := b_index b1 ++ [row]; b_values := b_values b1; b_iidx := (hash, v) :: b_iidx b1; b_vidx := b_vidx b1; b_maxHandle := b_maxHandle b1 |})
        end
      else
        match find hash (b_vidx b1) with
        | Some v => (hash, v, b1)
        | None =>
          let v := N.of_nat (length (b_values b1) - blockOffset) in
          (hash, v, {| b_index := b_index b1; b_values := b_values b1 ++ [vs]; b_iidx := b_iidx b1; b_vidx := (hash, v) :: b_vidx b1; b_maxHandle := N.max (b_maxHandle b1) v |})
        end).
  Proof.
    intros ch vs hash row b1 L F Vs Row. destruct (is_nil ch); cbn [negb].
    - destruct (find hash (b_vidx b1)) as [i|] eqn:E; cbv zeta.
      + split; [exact F|]. split; [split; lia|]. pose proof (f_v b1 F _ _ (find_In _ _ _ E)). unfold top. lia.
      + set (v := N.of_nat (length (b_values b1) - blockOffset)). set (b' := {| b_index := b_index b1; b_values := b_values b1 ++ [vs] |}).
        assert (Mo : more b1 b') by (split; cbn [b' b_index b_maxHandle]; lia). split; [|split; [exact Mo|unfold top; cbn [b' b_maxHandle]; lia]].
        constructor; cbn [b' b_iidx b_vidx b_index b_maxHandle b_values].
        * exact (f_i b1 F).
        * intros h i [Q|I]; [injection Q as <- <-; lia|]. pose proof (f_v b1 F h i I). lia.
        * exact (rows_top b1 b' _ (more_top _ _ Mo) (f_rows b1 F)).
        * apply Forall_snoc; [exact (f_blocks b1 F)|exact Vs].
        * rewrite app_length. pose proof (f_max b1 F). unfold v, blockOffset. cbn [length]. lia.
    - destruct (find hash (b_iidx b1)) as [i|] eqn:E; cbv zeta.
      + split; [exact F|]. split; [split; lia|]. pose proof (f_i b1 F _ _ (find_In _ _ _ E)). unfold top. lia.
      + set (v := N.of_nat (length (b_index b1) - blockOffset)). set (b' := {| b_index := b_index b1 ++ [row] |}).
        assert (Li : length (b_index b') = S (length (b_index b1))) by (cbn [b' b_index]; rewrite app_length; cbn [length]; lia).
        assert (Mo : more b1 b') by (split; [lia|cbn [b' b_maxHandle]; lia]). split; [|split; [exact Mo|unfold top; rewrite Li; unfold v, blockOffset; lia]].
        constructor; try rewrite Li.
        * cbn [b' b_iidx]. intros h i [Q|I]; [injection Q as <- <-; unfold v, blockOffset; lia|]. pose proof (f_i b1 F h i I). unfold blockOffset in *. lia.
        * exact (f_v b1 F).
        * cbn [b_index b']. apply Forall_snoc; [exact (rows_top b1 b' _ (more_top _ _ Mo) (f_rows b1 F))|]. apply Forall_impl with (2 := Row). intros x Hx. pose proof (more_top _ _ Mo). unfold top in *. fold b'. lia.
        * exact (f_blocks b1 F).
        * exact (f_max b1 F).
  Qed.

  Lemma node_fit : forall ch vs b, (4 <= length (b_index b))%nat -> fit b -> Forall (fun x => x <= M) vs ->
    (forall c b, In (Some c) ch -> (4 <= length (b_index b))%nat -> fit b -> fits_after b (computeOffsets H c b)) -> fits_after b (computeOffsets H (Node ch vs) b).
  Proof.
    intros ch vs b L F Vs HC. rewrite computeOffsets_eq. cbv zeta.
    assert (Q : Nat.eqb (length (b_index b)) rootBlockOffset = false) by (apply Nat.eqb_neq; unfold rootBlockOffset; lia). rewrite Q.
    pose proof (offs_fit ch HC b L F) as P. destruct (offs H ch b) as [[hs row] b1]. destruct P as (F1 & M1 & R1).
    pose proof (finish_fit ch vs (if is_nil ch && is_nil vs then 0 else H (hs ++ vs)) row b1 ltac:(destruct M1; lia) F1 Vs R1) as P. cbv zeta in P.
    destruct (if negb (is_nil ch) then _ else _) as [[h i] b2]. destruct P as (F2 & M2 & T2). split; [exact F2|]. split; [exact (more_trans _ _ _ M1 M2)|exact T2].
  Qed.
  Lemma compute_fit : forall k n b, wf k n -> within n -> (4 <= length (b_index b))%nat -> fit b -> fits_after b (computeOffsets H n b).
  Proof.
    induction k as [|k IH]; intros [ch vs] b W I L F; (apply node_fit; [exact L|exact F|exact (I _ (below_refl _))|]).
    - destruct W as [Wc _]. cbn [children] in Wc. subst ch. intros c b' [].
    - destruct W as (_ & _ & Wc). intros c b' Ic. pose proof Ic as Ic'. apply In_nth_error in Ic' as [p Hp]. apply (IH c b' (Wc p c Hp)). intros m B. apply I. exact (below_child m ch vs c Ic B).
  Qed.
  Lemma root_fit : forall t b, wf_root t -> within t -> (4 <= length (b_index b))%nat -> fit b -> fits_after b (computeOffsets H t b).
  Proof.
    intros [ch vs] b (_ & _ & Wc) I L F. apply node_fit; [exact L|exact F|exact (I _ (below_refl _))|].
    intros c b' Ic. pose proof Ic as Ic'. apply In_nth_error in Ic' as [p Hp]. apply (compute_fit (depth p) c b' (Wc p c Hp)). intros m B. apply I. exact (below_child m ch vs c Ic B).
  Qed.
  Lemma root_fit_first : forall t b, wf_root t -> within t -> length (b_index b) = 3%nat -> fit b -> let '(_, i, b') := computeOffsets H t b in
    fit b' /\ (4 <= length (b_index b'))%nat /\ i <= top b'.
  Proof.
    intros [ch vs] b (_ & Wl & Wc) I L F. cbn [children] in Wl, Wc. rewrite computeOffsets_eq. cbv zeta. rewrite L. cbn [Nat.eqb rootBlockOffset].
    set (b0 := {| b_index := b_index b ++ [[]] |}).
    assert (L0 : length (b_index b0) = 4%nat) by (cbn [b0 b_index]; rewrite app_length, L; reflexivity).
    assert (M0 : more b b0) by (split; [lia|cbn [b0 b_maxHandle]; lia]).
    assert (F0 : fit b0).
    { constructor; try rewrite L0.
      - intros h i Ii. pose proof (f_i b F h i Ii) as Q. rewrite L in Q. unfold blockOffset in *. lia.
      - exact (f_v b F).
      - cbn [b0 b_index]. apply Forall_snoc; [exact (rows_top b b0 _ (more_top _ _ M0) (f_rows b F))|constructor].
      - exact (f_blocks b F).
      - exact (f_max b F). }
    assert (HC : forall c b, In (Some c) ch -> (4 <= length (b_index b))%nat -> fit b -> fits_after b (computeOffsets H c b)).
    { intros c b' Ic. pose proof Ic as Ic'. apply In_nth_error in Ic' as [p Hp]. apply (compute_fit (depth p) c b' (Wc p c Hp)). intros m B. apply I. exact (below_child m ch vs c Ic B). }
    pose proof (offs_fit ch HC b0 ltac:(lia) F0) as P. destruct (offs H ch b0) as [[hs row] b1]. destruct P as (F1 & M1 & R1).
    assert (L1 : (4 <= length (b_index b1))%nat) by (destruct M1; lia).
    assert (Hc : is_nil ch = false) by (destruct ch; [discriminate Wl|reflexivity]). rewrite Hc. cbn [negb b_iidx find]. rewrite N.eqb_refl.
    change (firstn rootBlockOffset (b_index b1)) with (firstn 3 (b_index b1)). change (skipn (S rootBlockOffset) (b_index b1)) with (skipn 4 (b_index b1)).
    set (b2 := {| b_index := firstn 3 (b_index b1) ++ row :: skipn 4 (b_index b1) |}).
    assert (L2 : length (b_index b2) = length (b_index b1)) by (cbn [b2 b_index]; rewrite app_length, firstn_length; cbn [length]; rewrite skipn_length; lia).
    assert (T2 : top b2 = top b1) by (unfold top; rewrite L2; reflexivity).
    split; [|split; [lia|rewrite T2; unfold top, rootBlockOffset, blockOffset; lia]].
    constructor; try rewrite L2.
    - cbn [b2 b_iidx]. intros h i [Q|Ii]; [injection Q as <- <-; unfold rootBlockOffset, blockOffset; lia|exact (f_i b1 F1 h i Ii)].
    - exact (f_v b1 F1).
    - rewrite T2. cbn [b2 b_index]. pose proof (f_rows b1 F1) as Fr. rewrite Forall_forall in Fr. rewrite Forall_forall. intros r Hr. apply in_app_or in Hr as [Hr|[<-|Hr]].
      + apply Fr. rewrite <- (firstn_skipn 3 (b_index b1)). apply in_or_app. left. exact Hr.
      + exact R1.
      + apply Fr. rewrite <- (firstn_skipn 4 (b_index b1)). apply in_or_app. right. exact Hr.
    - exact (f_blocks b1 F1).
    - exact (f_max b1 F1).
  Qed.

  (** * Tries *)
  Definition ready (s : shared) : Prop := fit (s_builder s) /\ ((4 <= length (b_index (s_builder s)))%nat \/ length (b_index (s_builder s)) = 3%nat).
  Lemma ready0 : ready shared0.
  Proof.
    split; [|right; reflexivity]. constructor; cbn [shared0 s_builder b_iidx b_vidx b_index b_values b_maxHandle].
    - intros h i [Q|[]]. injection Q as <- <-. lia.
    - intros h i [Q|[]]. injection Q as <- <-. lia.
    - repeat constructor.
    - constructor.
    - lia.
  Qed.
  Lemma Forall_firstn : forall (A : Type) (P : A -> Prop) n l, Forall P l -> Forall P (firstn n l).
  Proof. intros A P n l F. rewrite <- (firstn_skipn n l) in F. apply Forall_app in F. tauto. Qed.
  Lemma Forall_skipn : forall (A : Type) (P : A -> Prop) n l, Forall P l -> Forall P (skipn n l).
  Proof. intros A P n l F. rewrite <- (firstn_skipn n l) in F. apply Forall_app in F. tauto. Qed.

  Lemma place_ready : forall t s, within t -> ready s -> ready (snd (place_ascii H t s)).
  Proof.
    intros t s I [F L]. unfold place_ascii. destruct (find _ _); [exact (conj F L)|]. cbv zeta. cbn [snd]. pose proof (I t (below_refl t)) as V. split; [|exact L]. cbn [s_builder]. constructor.
    - exact (f_i _ F).
    - exact (f_v _ F).
    - exact (f_rows _ F).
    - cbn [b_values]. rewrite !Forall_app. split; [split; [exact (f_blocks _ F)|]|].
      + constructor; [apply Forall_firstn; exact V|]. constructor; [apply Forall_skipn; exact V|constructor].
      + destruct (Nat.eqb _ _); [|constructor]. constructor; [|constructor]. apply Forall_forall. intros x Hx. apply repeat_spec in Hx. subst x. lia.
    - cbn [b_maxHandle b_values]. rewrite !app_length. pose proof (f_max _ F). lia.
  Qed.

  Lemma trie_fit : forall t s, wf_root t -> within t -> ready s -> let '(h, s') := buildTrie_shared H t s in
    ready s' /\ h_starter h <= top (s_builder s') /\ (4 <= length (b_index (s_builder s')))%nat /\ ((4 <= length (b_index (s_builder s)))%nat -> top (s_builder s) <= top (s_builder s')).
  Proof.
    intros t s W I R. unfold buildTrie_shared. pose proof (place_ready t s I R) as R1.
    assert (Eb : b_index (s_builder (snd (place_ascii H t s))) = b_index (s_builder s) /\ b_maxHandle (s_builder (snd (place_ascii H t s))) = b_maxHandle (s_builder s)).
    { unfold place_ascii. destruct (find _ _); [split; reflexivity|]. split; reflexivity. }
    destruct (place_ascii H t s) as [v s1]. cbn [snd] in R1, Eb. destruct R1 as [F1 L1].
    assert (Et : top (s_builder s1) = top (s_builder s)) by (unfold top; rewrite (proj1 Eb), (proj2 Eb); reflexivity).
    rewrite <- (proj1 Eb), <- Et. destruct L1 as [L1|L1].
    - pose proof (root_fit t _ W I L1 F1) as P. destruct (computeOffsets H t (s_builder s1)) as [[h i] b]. destruct P as (F2 & M2 & T2). cbn [s_builder h_starter].
      assert (L2 : (4 <= length (b_index b))%nat) by (destruct M2; lia). split; [split; [exact F2|left; exact L2]|]. split; [lia|]. split; [exact L2|]. intros _. exact (more_top _ _ M2).
    - pose proof (root_fit_first t _ W I L1 F1) as P. destruct (computeOffsets H t (s_builder s1)) as [[h i] b]. destruct P as (F2 & L2 & T2). cbn [s_builder h_starter].
      split; [split; [exact F2|left; exact L2]|]. split; [lia|]. split; [exact L2|]. intros L'. lia.
  Qed.

  Lemma tries_fit : forall ts s, (forall t, In t ts -> wf_root t /\ within t) -> ready s -> let '(hs, s') := build_tries H ts s in
    ready s' /\ Forall (fun h => h_starter h <= top (s_builder s')) hs /\ ((4 <= length (b_index (s_builder s)))%nat -> top (s_builder s) <= top (s_builder s')).
  Proof.
    induction ts as [|t ts IH]; intros s W R; cbn [build_tries].
    - split; [exact R|]. split; [constructor|]. intros _. lia.
    - destruct (W t (or_introl eq_refl)) as [Wt It]. pose proof (trie_fit t s Wt It R) as P. destruct (buildTrie_shared H t s) as [h s1]. destruct P as (R1 & S1 & L1 & T1).
      specialize (IH s1 (fun x Hx => W x (or_intror Hx)) R1). destruct (build_tries H ts s1) as [hs s2]. destruct IH as (R2 & S2 & T2). specialize (T2 L1).
      split; [exact R2|]. split; [constructor; [lia|exact S2]|]. intros L. specialize (T1 L). lia.
  Qed.
End Hash.

(** * maxValue *)
Lemma fold_max_in : forall l m, m <= fold_left N.max l m /\ Forall (fun x => x <= fold_left N.max l m) l.
Proof.
  induction l as [|x l IH]; intros m; cbn [fold_left]; [split; [lia|constructor]|]. destruct (IH (N.max m x)) as [A B]. split; [lia|]. constructor; [lia|exact B].
Qed.
Fixpoint maxs (l : list (option node)) (m : N) : N := match l with [] => m | None :: r => maxs r m | Some c :: r => maxs r (maxValue c m) end.
Lemma maxValue_unfold : forall ch vs m, maxValue (Node ch vs) m = fold_left N.max vs (maxs ch m).
Proof. reflexivity. Qed.
Lemma maxs_ge : forall l m, (forall c m, In (Some c) l -> m <= maxValue c m) -> m <= maxs l m.
Proof.
  induction l as [|[c|] l IH]; intros m HC; cbn [maxs]; [lia| |].
  - pose proof (HC c m (or_introl eq_refl)). specialize (IH (maxValue c m) (fun c0 m0 I => HC c0 m0 (or_intror I))). lia.
  - exact (IH m (fun c0 m0 I => HC c0 m0 (or_intror I))).
Qed.
Lemma maxs_in : forall l m, (forall c m, In (Some c) l -> m <= maxValue c m) -> forall c, In (Some c) l -> exists m', maxValue c m' <= maxs l m.
Proof.
  induction l as [|[d|] l IH]; intros m HC c I; [destruct I| |].
  - cbn [maxs]. assert (HC' : forall c m, In (Some c) l -> m <= maxValue c m) by (intros c0 m0 I0; exact (HC c0 m0 (or_intror I0))). destruct I as [E|I]; [injection E as <-; exists m; apply maxs_ge; exact HC'|exact (IH _ HC' c I)].
  - cbn [maxs]. destruct I as [E|I]; [discriminate E|]. exact (IH m (fun c0 m0 I0 => HC c0 m0 (or_intror I0)) c I).
Qed.
Lemma maxValue_node : forall ch vs, (forall c, In (Some c) ch -> forall m, m <= maxValue c m /\ within (maxValue c m) c) -> forall m, m <= maxValue (Node ch vs) m /\ within (maxValue (Node ch vs) m) (Node ch vs).
Proof.
  intros ch vs HC m. assert (HG : forall c m, In (Some c) ch -> m <= maxValue c m) by (intros c m0 I; exact (proj1 (HC c I m0))).
  rewrite maxValue_unfold. destruct (fold_max_in vs (maxs ch m)) as [A B]. pose proof (maxs_ge ch m HG). split; [lia|].
  intros n Bn. inversion Bn as [|ch' vs' c Ic Bc]; subst; [exact B|]. destruct (maxs_in ch m HG c Ic) as (m' & L). destruct (HC c Ic m') as [_ Wc]. apply Forall_impl with (2 := Wc n Bc). intros x Hx. lia.
Qed.
Lemma maxValue_wf : forall k n, wf k n -> forall m, m <= maxValue n m /\ within (maxValue n m) n.
Proof.
  induction k as [|k IH]; intros [ch vs] W; apply maxValue_node.
  - destruct W as [Wc _]. cbn [children] in Wc. subst ch. intros c [].
  - destruct W as (_ & _ & Wc). intros c Ic. apply In_nth_error in Ic as [p Hp]. exact (IH c (Wc p c Hp)).
Qed.
Lemma maxValue_root : forall t, wf_root t -> forall m, m <= maxValue t m /\ within (maxValue t m) t.
Proof.
  intros [ch vs] (_ & _ & Wc). apply maxValue_node. intros c Ic. apply In_nth_error in Ic as [p Hp]. exact (maxValue_wf (depth p) c (Wc p c Hp)).
Qed.
Lemma within_le : forall M M' n, M <= M' -> within M n -> within M' n.
Proof. intros M M' n L W m B. apply Forall_impl with (2 := W m B). intros x Hx. lia. Qed.
Lemma maxValue_all : forall ts m, (forall t, In t ts -> wf_root t) -> m <= fold_left (fun m t => maxValue t m) ts m /\ forall t, In t ts -> within (fold_left (fun m t => maxValue t m) ts m) t.
Proof.
  induction ts as [|t ts IH]; intros m W; cbn [fold_left]; [split; [lia|intros t []]|]. destruct (maxValue_root t (W t (or_introl eq_refl)) m) as [A B].
  destruct (IH (maxValue t m) (fun x Hx => W x (or_intror Hx))) as [C D]. split; [lia|]. intros x [<-|Hx]; [exact (within_le _ _ _ C B)|exact (D x Hx)].
Qed.

(** * Widths *)
Lemma intSize_fits : forall v x, x <= v -> v < 2 ^ 64 -> x < 2 ^ (8 * intSize v).
Proof.
  intros v x L B. unfold intSize. destruct (N.ltb_spec v (2 ^ 8)); [change (2 ^ (8 * 1)) with (2 ^ 8); lia|]. destruct (N.ltb_spec v (2 ^ 16)); [change (2 ^ (8 * 2)) with (2 ^ 16); lia|].
  destruct (N.ltb_spec v (2 ^ 32)); [change (2 ^ (8 * 4)) with (2 ^ 32); lia|]. change (2 ^ (8 * 8)) with (2 ^ 64). lia.
Qed.

Lemma blocks_bound : forall L blocks i x, Forall (fun r => (length r <= 64)%nat) blocks -> Forall (Forall (fun x => x <= L)) blocks ->
  arr_get (arr_of (N.of_nat (length blocks * blockSize)) (print_blocks blocks)) i = Ok x -> x <= L.
Proof.
  intros L blocks i x F B E. assert (Li : i < N.of_nat (length blocks * blockSize)).
  { unfold arr_get in E. cbn [arr_of arr_len] in E. destruct (N.ltb_spec i (N.of_nat (length blocks * blockSize))) as [Q|Q]; [exact Q|discriminate E]. }
  rewrite print_get in E by assumption. injection E as <-. unfold blk. destruct (nth_in_or_default (N.to_nat (i / 64)) blocks []) as [I| ->]; [|destruct (N.to_nat (i mod 64)); cbn [nth]; lia].
  rewrite Forall_forall in B. specialize (B _ I). rewrite Forall_forall in B. destruct (nth_in_or_default (N.to_nat (i mod 64)) (nth (N.to_nat (i / 64)) blocks []) 0) as [J| ->]; [exact (B _ J)|lia].
Qed.

(** * Values that come from insertions *)
Lemma fold_max_le : forall l m M, m <= M -> Forall (fun x => x <= M) l -> fold_left N.max l m <= M.
Proof. induction l as [|x l IH]; intros m M L F; cbn [fold_left]; [exact L|]. inversion F; subst. apply IH; [lia|assumption]. Qed.
Lemma within_child : forall M ch vs c, within M (Node ch vs) -> In (Some c) ch -> within M c.
Proof. intros M ch vs c W I m B. apply W. exact (below_child m ch vs c I B). Qed.
Lemma maxs_le : forall l m M, m <= M -> (forall c m, In (Some c) l -> m <= M -> maxValue c m <= M) -> maxs l m <= M.
Proof.
  induction l as [|[c|] l IH]; intros m M L HC; cbn [maxs]; [exact L| |].
  - apply IH; [apply HC; [left; reflexivity|exact L]|]. intros c0 m0 I. apply HC. right. exact I.
  - apply IH; [exact L|]. intros c0 m0 I. apply HC. right. exact I.
Qed.
Lemma maxValue_le_wf : forall k n M m, wf k n -> within M n -> m <= M -> maxValue n m <= M.
Proof.
  induction k as [|k IH]; intros [ch vs] M m W I L; rewrite maxValue_unfold; (apply fold_max_le; [apply maxs_le; [exact L|]|exact (I _ (below_refl _))]).
  - destruct W as [Wc _]. cbn [children] in Wc. subst ch. intros c m0 [].
  - destruct W as (_ & _ & Wc). intros c m0 Ic L0. pose proof (within_child _ _ _ _ I Ic). apply In_nth_error in Ic as [p Hp]. apply (IH c M m0 (Wc p c Hp)); assumption.
Qed.
Lemma maxValue_le : forall t M m, wf_root t -> within M t -> m <= M -> maxValue t m <= M.
Proof.
  intros [ch vs] M m (_ & _ & Wc) I L. rewrite maxValue_unfold. apply fold_max_le; [apply maxs_le; [exact L|]|exact (I _ (below_refl _))].
  intros c m0 Ic L0. pose proof (within_child _ _ _ _ I Ic). apply In_nth_error in Ic as [p Hp]. apply (maxValue_le_wf (depth p) c M m0 (Wc p c Hp)); assumption.
Qed.
Lemma maxValue_all_le : forall ts M m, (forall t, In t ts -> wf_root t /\ within M t) -> m <= M -> fold_left (fun m t => maxValue t m) ts m <= M.
Proof.
  induction ts as [|t ts IH]; intros M m W L; cbn [fold_left]; [exact L|]. destruct (W t (or_introl eq_refl)) as [Wt It]. apply IH; [intros x Hx; apply W; right; exact Hx|]. apply maxValue_le; assumption.
Qed.

Lemma within_node : forall M ch vs, Forall (fun x => x <= M) vs -> (forall c, In (Some c) ch -> within M c) -> within M (Node ch vs).
Proof. intros M ch vs V C m B. inversion B as [|ch' vs' c I B']; subst; [exact V|exact (C c I m B')]. Qed.
Lemma list_set_In : forall (A : Type) (l : list A) i x l', list_set l i x = Ok l' -> forall y, In y l' -> y = x \/ In y l.
Proof.
  induction l as [|z l IH]; intros i x l' E y I; [destruct i; discriminate E|]. destruct i as [|i]; cbn [list_set] in E.
  - injection E as <-. destruct I as [->|I]; [left; reflexivity|right; right; exact I].
  - destruct (list_set l i x) as [r| |] eqn:Er; cbn [bind] in E; try discriminate E. injection E as <-. destruct I as [->|I]; [right; left; reflexivity|]. destruct (IH i x r Er y I) as [Q|Q]; [left; exact Q|right; right; exact Q].
Qed.
Lemma repeat_le : forall M n, Forall (fun x => x <= M) (repeat 0 n).
Proof. intros M n. apply Forall_forall. intros x Hx. apply repeat_spec in Hx. subst x. lia. Qed.

Lemma insert_at_within : forall M s v n n', v <= M -> within M n -> insert_at s v n = Ok n' -> within M n'.
Proof.
  intros M. induction s as [|c s IH]; intros v [ch vs] n' L W E; [discriminate E|]. pose proof (W _ (below_refl _)) as V. cbn [values] in V. destruct s as [|c2 s].
  - cbn [insert_at children values] in E. destruct (is_nil ch) eqn:Hc; cbn [negb] in E; [|discriminate E]. destruct (c <? 0x80); [discriminate E|].
    destruct (list_set _ _ v) as [vs'| |] eqn:Es; cbn [bind] in E; try discriminate E. injection E as <-. apply within_node.
    + apply Forall_forall. intros x Hx. apply (list_set_In _ _ _ _ _ Es) in Hx as [->|Hx]; [exact L|]. destruct (is_nil vs); [exact (proj1 (Forall_forall _ _) (repeat_le M _) x Hx)|exact (proj1 (Forall_forall _ _) V x Hx)].
    + intros d Id. exact (within_child M ch vs d W Id).
  - remember (c2 :: s) as s2 eqn:Es2. assert (E' : (let ch0 := if is_nil ch then repeat None blockSize else ch in
      match nth_error ch0 (N.to_nat (c mod 64)) with
      | None => Panic
      | Some oc => let c0 := match oc with None => Node [] [] | Some c => c end in
        if (2 <? length (c :: s2))%nat && negb (is_nil (values c0)) then Panic
        else c' <- insert_at s2 v c0 ;; ch' <- list_set ch0 (N.to_nat (c mod 64)) (Some c') ;; Ok (Node ch' vs) end) = Ok n') by (rewrite <- E; subst s2; reflexivity).
    clear E. cbv zeta in E'. set (ch0 := if is_nil ch then repeat None blockSize else ch) in *.
    assert (W0 : forall d, In (Some d) ch0 -> within M d).
    { intros d Id. unfold ch0 in Id. destruct (is_nil ch); [apply repeat_spec in Id; discriminate Id|exact (within_child M ch vs d W Id)]. }
    destruct (nth_error ch0 (N.to_nat (c mod 64))) as [oc|] eqn:En; [|discriminate E'].
    assert (Wc : within M (match oc with None => Node [] [] | Some c => c end)).
    { destruct oc as [d|]; [exact (W0 d (nth_error_In _ _ En))|]. apply within_node; [constructor|intros d []]. }
    destruct ((2 <? length (c :: s2))%nat && _); [discriminate E'|]. destruct (insert_at s2 v _) as [c'| |] eqn:Ei; cbn [bind] in E'; try discriminate E'.
    destruct (list_set ch0 _ _) as [ch'| |] eqn:Es; cbn [bind] in E'; try discriminate E'. injection E' as <-. apply within_node; [exact V|].
    intros d Id. apply (list_set_In _ _ _ _ _ Es) in Id as [Q|Q]; [injection Q as ->; exact (IH v _ c' L Wc Ei)|exact (W0 d Q)].
Qed.
Lemma Insert_within : forall M t r v t', v <= M -> within M t -> Insert t r v = Ok t' -> within M t'.
Proof.
  intros M t r v t' L W E. unfold Insert in E. destruct (v =? 0); [injection E as <-; exact W|]. destruct (negb (valid_rune r)); [discriminate E|]. cbv zeta in E.
  destruct (Nat.eqb _ 1); [|exact (insert_at_within M _ v t t' L W E)].
  destruct (byte_at (utf8 r) 0) as [b| |]; cbn [bind] in E; try discriminate E. destruct (list_set _ _ v) as [vs'| |] eqn:Es; cbn [bind] in E; try discriminate E. injection E as <-.
  destruct t as [ch vs]. cbn [children values] in *. apply within_node.
  - apply Forall_forall. intros x Hx. apply (list_set_In _ _ _ _ _ Es) in Hx as [->|Hx]; [exact L|]. exact (proj1 (Forall_forall _ _) (W _ (below_refl _)) x Hx).
  - intros d Id. exact (within_child M ch vs d W Id).
Qed.
Lemma inserts_within : forall M l t t', Forall (fun e => snd e <= M) l -> within M t -> inserts t l = Ok t' -> within M t'.
Proof.
  intros M. induction l as [|[r v] l IH]; intros t t' F W E; cbn [inserts] in E; [injection E as <-; exact W|]. inversion F as [|? ? Q F']; subst. cbn [snd] in Q.
  destruct (Insert t r v) as [t1| |] eqn:E1; cbn [bind] in E; try discriminate E. exact (IH t1 t' F' (Insert_within M t r v t1 Q W E1) E).
Qed.
Lemma within_new : forall M, within M NewTrie.
Proof. intros M. apply within_node; [apply repeat_le|]. intros c I. apply repeat_spec in I. discriminate I. Qed.
