(** Facts about the generator with several tries: the sizes whatever the hash, and one trie. *)
From Verif Require Import Base Trie SpecUtf8 ListFacts SpecTriegen Triegen TriegenMany SpecTrieHash SpecTrieShare TriegenFacts TriegenIns TriegenBuild TriegenSize TriegenTables TriegenLookup TriegenShare TriegenFit TriegenRun.
Local Open Scope N_scope.

Section Hash.
  Variable H : list N -> N.

  Lemma place_small : forall t s, wf_root t -> small (s_builder s) -> small (s_builder (snd (place_ascii H t s))) /\ count (s_builder (snd (place_ascii H t s))) <= count (s_builder s) + 3.
  Proof.
    intros t s (Wv & _) (Sa & Sb & Sc). unfold place_ascii. destruct (find _ _); cbn [snd]; [split; [split; [exact Sa|split; assumption]|lia]|]. cbv zeta. cbn [s_builder]. split.
    - split; [exact Sa|]. split; [exact Sb|]. cbn [b_values]. rewrite !Forall_app. split; [split; [exact Sc|]|].
      + unfold blockSize. constructor; [rewrite firstn_length; lia|]. constructor; [rewrite skipn_length; lia|constructor].
      + destruct (Nat.eqb _ _); [|constructor]. constructor; [rewrite repeat_length; unfold blockSize; lia|constructor].
    - unfold count. cbn [b_index b_values]. rewrite !app_length. destruct (Nat.eqb _ _); cbn [length]; lia.
  Qed.
  Lemma trie_small : forall t s, wf_root t -> small (s_builder s) -> let s' := snd (buildTrie_shared H t s) in small (s_builder s') /\ count (s_builder s') <= count (s_builder s) + 266308.
  Proof.
    intros t s W S. unfold buildTrie_shared. pose proof (place_small t s W S) as P. destruct (place_ascii H t s) as [v s1]. cbn [snd] in P. destruct P as [P1 C1].
    pose proof (root_grows H t (s_builder s1) W P1) as Q. destruct (computeOffsets H t (s_builder s1)) as [[h i] b]. destruct Q as [Q1 Q2]. cbn [snd s_builder]. split; [exact Q1|lia].
  Qed.
  Lemma tries_small : forall ts s, (forall t, In t ts -> wf_root t) -> small (s_builder s) ->
    let s' := snd (build_tries H ts s) in small (s_builder s') /\ count (s_builder s') <= count (s_builder s) + N.of_nat (length ts) * 266308.
  Proof.
    induction ts as [|t ts IH]; intros s W S; cbn [build_tries]; [cbn [snd length]; split; [exact S|lia]|].
    pose proof (trie_small t s (W t (or_introl eq_refl)) S) as P. destruct (buildTrie_shared H t s) as [h s1]. cbn [snd] in P. destruct P as [S1 C1].
    specialize (IH s1 (fun x Hx => W x (or_intror Hx)) S1). destruct (build_tries H ts s1) as [hs s2]. cbn [snd] in *. destruct IH as [S2 C2]. split; [exact S2|]. cbn [length]. rewrite Nnat.Nat2N.inj_succ, N.mul_succ_l. lia.
  Qed.
  Lemma shared0_first : forall t, buildTrie_shared H t shared0 =
    let '(h, i, b) := computeOffsets H t (builder0 t) in ({| h_ascii := 0; h_starter := i - 1; h_checksum := h |}, {| s_builder := b; s_ascii := [(H (values t), 0)] |}).
  Proof. reflexivity. Qed.
  Lemma build_small : forall t ts, (forall x, In x (t :: ts) -> wf_root x) ->
    let s := snd (build_tries H (t :: ts) shared0) in small (s_builder s) /\ count (s_builder s) <= 3 + N.of_nat (length (t :: ts)) * 266308.
  Proof.
    intros t ts W. cbn [build_tries]. rewrite shared0_first. pose proof (root_size H t (W t (or_introl eq_refl))) as R. unfold buildTrie in R.
    destruct (computeOffsets H t (builder0 t)) as [[h i] b]. destruct R as [S C].
    set (s1 := {| s_builder := b |}). pose proof (tries_small ts s1 (fun x Hx => W x (or_intror Hx)) S) as P. destruct (build_tries H ts s1) as [hs s2]. cbn [snd] in *. destruct P as [S2 C2].
    split; [exact S2|]. change (s_builder s1) with b in C2. cbn [length]. rewrite Nnat.Nat2N.inj_succ, N.mul_succ_l. lia.
  Qed.

  (** The types. *)
  Lemma many_types : forall ls ts, Forall2 inserted ls ts -> Forall (Forall (fun e => snd e < 2 ^ 64)) ls -> (length ts <= 250)%nat ->
    let g := Gen_many H ts in
    (forall i x, arr_get (gm_values g) i = Ok x -> x < 2 ^ (8 * gm_vsize g)) /\
    (forall i x, arr_get (gm_index g) i = Ok x -> x < 2 ^ (8 * gm_isize g)) /\
    Forall (fun h => h_starter h < 2 ^ (8 * gm_isize g)) (gm_handles g).
  Proof.
    intros ls ts F V L g. pose proof (inserted_wf ls ts F) as W.
    assert (Wi : forall t, In t ts -> wf_root t /\ within (2 ^ 64 - 1) t).
    { intros t Ht. split; [exact (W t Ht)|]. clear - F V Ht. induction F as [|l x ls ts [A E] F IH]; [destruct Ht|]. inversion V as [|? ? V1 V2]; subst. destruct Ht as [->|Ht]; [|exact (IH V2 Ht)].
      apply (inserts_within _ l NewTrie t); [|apply within_new|exact E]. apply Forall_impl with (2 := V1). intros e He. lia. }
    pose proof (maxValue_all_le ts (2 ^ 64 - 1) 0 Wi ltac:(discriminate)) as Mx. destruct (maxValue_all ts 0 W) as [_ Wm]. set (M := fold_left (fun m t => maxValue t m) ts 0) in *.
    assert (Fit := tries_fit H M ts shared0 (fun t Ht => conj (W t Ht) (Wm t Ht)) (ready0 M)).
    assert (Sm : forall t0 ts', ts = t0 :: ts' -> let s := snd (build_tries H ts shared0) in small (s_builder s) /\ count (s_builder s) <= 3 + N.of_nat (length ts) * 266308).
    { intros t0 ts' E. subst ts. apply build_small. exact W. }
    subst g. unfold Gen_many. destruct (build_tries H ts shared0) as [hs s] eqn:Eb. cbn [gm_values gm_index gm_handles gm_vsize gm_isize snd] in *. destruct Fit as ([Ft _] & Hs & _). set (b := s_builder s) in *.
    assert (Rows : Forall (fun r => (length r <= 64)%nat) (b_index b) /\ Forall (fun r => (length r <= 64)%nat) (b_values b) /\ top b < 2 ^ 64).
    { destruct ts as [|t0 ts'].
      - cbn [build_tries] in Eb. injection Eb as <- <-. split; [repeat constructor; cbn; lia|]. split; [constructor|reflexivity].
      - destruct (Sm t0 ts' eq_refl) as [(_ & Sb & Sc) C]. split; [exact Sb|]. split; [exact Sc|].
        pose proof (f_max M b Ft) as Mh.
        unfold top, count, blockOffset in *. lia. }
    destruct Rows as (Rb & Rv & T64). unfold value_size, index_size. fold M. change (N.max (b_maxHandle b + 1) (N.of_nat (length (b_index b) - 1 - blockOffset))) with (top b). split; [|split].
    - intros i x E. apply intSize_fits; [|lia]. exact (blocks_bound M (b_values b) i x Rv (f_blocks M b Ft) E).
    - intros i x E. apply intSize_fits; [|exact T64]. exact (blocks_bound (top b) (b_index b) i x Rb (f_rows M b Ft) E).
    - apply Forall_impl with (2 := Hs). intros h Hh. apply intSize_fits; [exact Hh|exact T64].
  Qed.
End Hash.

(** * One trie *)
Lemma first_index : forall H t, wf_root t -> snd (fst (computeOffsets H t (builder0 t))) = 1.
Proof.
  intros H [ch vs] (_ & Wl & _). cbn [children] in Wl. rewrite computeOffsets_eq. cbv zeta. cbn [builder0 b_index length Nat.eqb rootBlockOffset]. destruct (offs H ch _) as [[hs row] b1].
  destruct ch as [|o ch]; [discriminate Wl|]. cbn [is_nil negb andb b_iidx find]. rewrite N.eqb_refl. reflexivity.
Qed.
Lemma one_trie : forall H t, wf_root t ->
  gm_values (Gen_many H [t]) = g_values (Gen H t) /\ gm_index (Gen_many H [t]) = g_index (Gen H t) /\ gm_size (Gen_many H [t]) = g_size (Gen H t) /\
  gm_handles (Gen_many H [t]) = [{| h_ascii := 0; h_starter := 0; h_checksum := g_checksum (Gen H t) |}] /\ gm_checksum (Gen_many H [t]) = g_checksum (Gen H t) mod 2 ^ 64.
Proof.
  intros H t W. unfold Gen_many, Gen, buildTrie. cbn [build_tries]. rewrite shared0_first. pose proof (first_index H t W) as E. destruct (computeOffsets H t (builder0 t)) as [[h i] b]. cbn [fst snd] in E. subst i.
  cbn [gm_values gm_index gm_size gm_handles gm_checksum g_values g_index g_size g_checksum s_builder h_checksum fold_left].
  split; [reflexivity|]. split; [reflexivity|]. split; [|split; [reflexivity|rewrite N.add_0_l; reflexivity]].
  unfold Size_many, Size, index_size, value_size. cbn [length fold_left Nat.ltb Nat.leb]. rewrite N.add_0_r. reflexivity.
Qed.
Lemma whole : forall vs ix c d, exists tr, newTrie vs ix {| h_ascii := 0; h_starter := 0; h_checksum := c |} = Ok tr /\ lookup_in tr d = lookup vs ix d.
Proof. intros vs ix c d. eexists. split; [unfold newTrie; cbn [h_ascii h_starter]; change (u32 (N.shiftl (u32 0) 6)) with 0; rewrite (proj2 (N.leb_le 0 (arr_len vs)) (N.le_0_l _)), (proj2 (N.leb_le 0 (arr_len ix)) (N.le_0_l _)); reflexivity|reflexivity]. Qed.

(** * Deciding [distinct_all] *)
Definition distinct_all_b (H : list N -> N) (ts : list node) : bool :=
  let ns := map (fun n => (nhash H n, n)) (concat (map nodes ts)) in
  forallb (fun e => negb (fst e =? 0)) ns && chk (filter (fun e => is_leaf (snd e)) ns) [] && chk (filter (fun e => negb (is_leaf (snd e))) ns) []
  && chk (map (fun t => (H (values t), Node [] (values t))) ts) [].
Lemma distinct_all_b_ok : forall H ts, distinct_all_b H ts = true -> distinct_all H ts.
Proof.
  intros H ts E. unfold distinct_all_b in E. apply andb_true_iff in E as [E E4]. apply andb_true_iff in E as [E E3]. apply andb_true_iff in E as [E1 E2]. rewrite forallb_forall in E1.
  assert (I : forall n, among ts n -> In (nhash H n, n) (map (fun n => (nhash H n, n)) (concat (map nodes ts)))).
  { intros n (t & Ht & B). apply in_map_iff. exists n. split; [reflexivity|]. apply in_concat. exists (nodes t). split; [apply in_map; exact Ht|apply below_nodes; exact B]. }
  split; [|split].
  - intros n An. specialize (E1 _ (I n An)). cbn [fst] in E1. apply negb_true_iff, N.eqb_neq in E1. exact E1.
  - intros n n' An An' L Eh. pose proof (I n An) as In1. pose proof (I n' An') as In2. destruct (is_leaf n) eqn:Ln.
    + destruct (chk_ok _ _ E2) as (M & _ & M2). assert (F1 := M2 _ _ (proj2 (filter_In _ _ _) (conj In1 Ln))). assert (F2 := M2 _ _ (proj2 (filter_In _ _ _) (conj In2 (eq_sym L)))). rewrite Eh, F2 in F1. congruence.
    + destruct (chk_ok _ _ E3) as (M & _ & M2).
      assert (Q1 : negb (is_leaf (snd (nhash H n, n))) = true) by (cbn [snd]; rewrite Ln; reflexivity). assert (Q2 : negb (is_leaf (snd (nhash H n', n'))) = true) by (cbn [snd]; rewrite <- L; reflexivity).
      assert (F1 := M2 _ _ (proj2 (filter_In _ _ _) (conj In1 Q1))). assert (F2 := M2 _ _ (proj2 (filter_In _ _ _) (conj In2 Q2))). rewrite Eh, F2 in F1. congruence.
  - intros t t' Ht Ht' Eh. destruct (chk_ok _ _ E4) as (M & _ & M2).
    assert (F1 := M2 (H (values t)) (Node [] (values t)) (proj2 (in_map_iff _ _ _) (ex_intro _ t (conj eq_refl Ht)))). assert (F2 := M2 (H (values t')) (Node [] (values t')) (proj2 (in_map_iff _ _ _) (ex_intro _ t' (conj eq_refl Ht')))).
    rewrite Eh, F2 in F1. congruence.
Qed.

(** * Making tries *)
Fixpoint trees (ls : list (list (N * N))) : res (list node) :=
  match ls with [] => Ok [] | l :: r => t <- inserts NewTrie l ;; ts <- trees r ;; Ok (t :: ts) end.
Lemma trees_inserted : forall ls ts, Forall assignable ls -> trees ls = Ok ts -> Forall2 inserted ls ts.
Proof.
  induction ls as [|l ls IH]; intros ts A E; cbn [trees] in E; [injection E as <-; constructor|]. inversion A as [|? ? A1 A2]; subst.
  destruct (inserts NewTrie l) as [t| |] eqn:E1; cbn [bind] in E; try discriminate E. destruct (trees ls) as [r| |] eqn:E2; cbn [bind] in E; try discriminate E. injection E as <-.
  constructor; [split; assumption|exact (IH r A2 eq_refl)].
Qed.
