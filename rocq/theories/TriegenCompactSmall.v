(** Facts about the generator with Compacters: sizes, types, and the case without any. *)
From Verif Require Import Base Trie SpecUtf8 ListFacts SpecTriegen Triegen TriegenMany TriegenCompact SpecTrieHash SpecTrieShare SpecTrieCompact.
From Verif Require Import TriegenFacts TriegenIns TriegenBuild TriegenSize TriegenTables TriegenLookup TriegenShare TriegenFit TriegenSmall TriegenCompactFacts TriegenCompactLookup.
Local Open Scope N_scope.

Lemma built : forall H cs ls ts, ts <> [] -> Forall2 inserted ls ts -> Forall (Forall (fun e => snd e < 2 ^ 64)) ls -> distinct_all H ts -> (length ts <= 250)%nat ->
  exists hs s M, build_tries_c H cs (value_size ts) ts (cshared0 cs) = (hs, s) /\ cgood H cs (value_size ts) ts M s /\ Forall2 (chandle_ok H cs (cs_builder s)) ts hs
    /\ ccount (cs_builder s) <= 0x4000000 /\ M < 2 ^ (8 * value_size ts).
Proof.
  intros H cs ls ts Ne F V D L. pose proof (inserted_wf ls ts F) as W. destruct ts as [|t0 ts'] eqn:Et; [contradiction Ne; reflexivity|]. rewrite <- Et in *.
  assert (Wi : forall t, In t ts -> wf_root t /\ within (2 ^ 64 - 1) t).
  { intros t Ht. split; [exact (W t Ht)|]. clear - F V Ht. induction F as [|l x ls ts [A E] F IH]; [destruct Ht|]. inversion V as [|? ? V1 V2]; subst. destruct Ht as [->|Ht]; [|exact (IH V2 Ht)].
    apply (inserts_within _ l NewTrie t); [|apply within_new|exact E]. apply Forall_impl with (2 := V1). intros e He. lia. }
  pose proof (maxValue_all_le ts (2 ^ 64 - 1) 0 Wi ltac:(discriminate)) as Mx. destruct (maxValue_all ts 0 W) as [_ Wm]. set (M := fold_left (fun m t => maxValue t m) ts 0) in *.
  pose proof (cbuild_ok H cs (value_size ts) ts W D M Wm t0 ts' Et) as P. destruct (build_tries_c H cs (value_size ts) ts (cshared0 cs)) as [hs s]. destruct P as (G & O & Cn).
  exists hs, s, M. split; [reflexivity|]. split; [exact G|]. split; [exact O|]. split; [lia|]. unfold value_size. fold M. apply intSize_fits; [apply N.le_refl|].
  change (2 ^ 64 - 1) with 18446744073709551615 in Mx. change (2 ^ 64) with 18446744073709551616. lia.
Qed.

Lemma compact_types : forall H cs ls ts, ts <> [] -> Forall2 inserted ls ts -> Forall (Forall (fun e => snd e < 2 ^ 64)) ls -> distinct_all H ts -> (length ts <= 250)%nat ->
  handles cs (gc_stored (Gen_c H cs ts)) <= 0xF0000000 ->
  let g := Gen_c H cs ts in
  (forall i x, arr_get (gc_values g) i = Ok x -> x < 2 ^ (8 * gc_vsize g)) /\
  (forall i x, arr_get (gc_index g) i = Ok x -> x < 2 ^ (8 * gc_isize g)) /\
  Forall (fun h => h_starter h < 2 ^ (8 * gc_isize g)) (gc_handles g).
Proof.
  intros H cs ls ts Ne F V D L Hh g. destruct (built H cs ls ts Ne F V D L) as (hs & s & M & E & G & O & Cn & Gw). subst g. unfold Gen_c in *. rewrite E in *.
  cbn [gc_values gc_index gc_handles gc_vsize gc_isize gc_stored] in *. pose proof (span_all H cs _ ts M s G Cn Hh) as Sp. pose proof (cg_inv _ _ _ _ _ s G) as I. set (b := cs_builder s) in *.
  destruct (ci_rows _ _ _ _ _ _ b I) as [Ri Rv].
  assert (Top : N.max (span (maxes b)) (N.of_nat (length (c_index b) - 3)) < 2 ^ 64).
  { unfold ccount in Cn. change (2 ^ 32) with 4294967296 in Sp. change (2 ^ 64) with 18446744073709551616. lia. }
  assert (Is : cindex_size b = intSize (N.max (span (maxes b)) (N.of_nat (length (c_index b) - 3)))).
  { unfold cindex_size, lay. unfold maxes at 1. rewrite layout_last by (rewrite N.add_0_l; exact Sp). rewrite N.add_0_l. do 2 f_equal. f_equal. unfold blockOffset. lia. }
  split; [|split].
  - intros i x Ex. apply N.le_lt_trans with M; [|exact Gw]. exact (blocks_bound M _ i x Rv (ci_vals _ _ _ _ _ _ b I) Ex).
  - intros i x Ex. rewrite Is. apply intSize_fits; [|exact Top]. unfold ctables in Ex. cbn [snd] in Ex. refine (blocks_bound _ (rows b) i x _ _ Ex).
    + unfold rows. apply Forall_map. apply Forall_impl with (2 := Ri). intros r Hr. rewrite map_length. exact Hr.
    + unfold rows. apply Forall_map. apply Forall_impl with (2 := ci_ent _ _ _ _ _ _ b I). intros r Hr. apply Forall_map. apply Forall_impl with (2 := Hr). intros [[|j] y] Hy; unfold ent_ok in Hy; cbn [fst snd] in Hy.
      * assert (Q : y < 2 ^ 32) by (unfold maxes in Sp; cbn [span] in Sp; unfold ccount in Cn; change (2 ^ 32) with 4294967296 in *; lia).
        rewrite entry_0 by exact Q. unfold maxes. cbn [span]. lia.
      * destruct Hy as (k & Ek & Hk). destruct (layout_switch (maxes b) 0 0 (S j) y (k_max k) (in_maxes b j k Ek) Hk ltac:(reflexivity) ltac:(lia)) as (_ & B & _). cbv zeta in B.
        unfold entry, lay. cbn [fst snd]. rewrite (u32_id y) by lia. rewrite u32_id by lia. lia.
  - assert (A : forall t h, chandle_ok H cs b t h -> h_starter h < 2 ^ (8 * cindex_size b)).
    { intros t h ((_ & row & Er & _) & _). rewrite Is. apply intSize_fits; [|exact Top]. assert (Q : (N.to_nat (h_starter h + 1) + 2 < length (c_index b))%nat) by (apply nth_error_Some; rewrite Er; discriminate). lia. }
    clear - O A. induction O as [|t h ts hs Oh O IH]; constructor; [exact (A t h Oh)|exact IH].
Qed.

Lemma compact_size : forall H cs ls ts, ts <> [] -> Forall2 inserted ls ts -> Forall (Forall (fun e => snd e < 2 ^ 64)) ls -> distinct_all H ts -> (length ts <= 250)%nat ->
  let g := Gen_c H cs ts in
  gc_size g = arr_len (gc_values g) * gc_vsize g + arr_len (gc_index g) * gc_isize g + told cs (gc_stored g) + (if (length ts <=? 1)%nat then 0 else N.of_nat (length ts) * (gc_isize g + gc_isize g)) /\
  length (gc_stored g) = length cs /\
  (forall j c st, nth_error cs j = Some c -> nth_error (gc_stored g) j = Some st -> saved (64 * gc_vsize g) c [] st) /\
  map h_checksum (gc_handles g) = map (nhash H) ts /\
  gc_checksum g = fold_right N.add 0 (map (nhash H) ts) mod 2 ^ 64.
Proof.
  intros H cs ls ts Ne F V D L g. destruct (built H cs ls ts Ne F V D L) as (hs & s & M & E & G & O & Cn & Gw). subst g. unfold Gen_c in *. rewrite E in *.
  cbn [gc_values gc_index gc_handles gc_vsize gc_isize gc_stored gc_size gc_checksum] in *. pose proof (cg_inv _ _ _ _ _ s G) as I. set (b := cs_builder s) in *.
  pose proof (ci_k _ _ _ _ _ _ b I) as Lk. pose proof (ci_said _ _ _ _ _ _ b I) as Sd. split; [|split; [|split]].
  - assert (T : forall a, fold_left (fun s k => s + k_total k) (c_more b) a = a + told cs (map k_stored (c_more b))).
    { clear - Lk Sd. revert Lk Sd. generalize (c_more b) as ks. induction cs as [|c r IH]; intros [|k ks] Lk Sd a; try discriminate Lk; cbn [fold_left told map]; [lia|].
      rewrite IH; [|injection Lk as Lk; exact Lk|intros j c' k' Ec Ek; exact (Sd (S j) c' k' Ec Ek)]. destruct (Sd 0%nat c k eq_refl eq_refl) as [-> _]. lia. }
    unfold Size_c. rewrite T. unfold ctables. cbn [fst snd arr_of arr_len]. unfold rows. rewrite map_length, Nat.ltb_antisym. destruct (length ts <=? 1)%nat; cbn [negb]; lia.
  - rewrite map_length. exact Lk.
  - intros j c st Ec Es. rewrite nth_error_map in Es. destruct (nth_error (c_more b) j) as [k|] eqn:Ek; [|discriminate Es]. injection Es as <-. exact (proj2 (Sd j c k Ec Ek)).
  - assert (C : map h_checksum hs = map (nhash H) ts) by (clear - O; induction O as [|t h ts hs (_ & _ & Oh) O IH]; [reflexivity|]; cbn [map]; rewrite Oh, IH; reflexivity).
    split; [exact C|]. rewrite <- C. clear. assert (G : forall l c, fold_left (fun c h => (c + h_checksum h) mod 2 ^ 64) l (c mod 2 ^ 64) = (c + fold_right N.add 0 (map h_checksum l)) mod 2 ^ 64).
    { induction l as [|h l IH]; intros c; cbn [fold_left map fold_right]; [rewrite N.add_0_r; reflexivity|]. rewrite N.add_mod_idemp_l by discriminate. rewrite IH. f_equal. lia. }
    exact (G hs 0).
Qed.

(** * No Compacters *)
Section None.
  Variable H : list N -> N.
  Variable vsize : N.
  Definition embed (b : builder) : cbuilder :=
    {| c_index := map (map (pair 0%nat)) (b_index b); c_values := b_values b; c_iidx := b_iidx b; c_vidx := map (fun e => (fst e, (0%nat, snd e))) (b_vidx b); c_max := b_maxHandle b; c_more := [] |}.
  Definition embed3 (r : N * N * builder) : N * nodeIndex * cbuilder := let '(h, i, b) := r in (h, (0%nat, i), embed b).

  Lemma cfind_embed : forall h m, cfind h (map (fun e => (fst e, (0%nat, snd e))) m) = option_map (pair 0%nat) (find h m).
  Proof. induction m as [|[k v] m IH]; [reflexivity|]. cbn [map cfind find fst snd]. destruct (k =? h); [reflexivity|exact IH]. Qed.

  Lemma coffs_embed : forall l, (forall c b, In (Some c) l -> computeOffsets_c H [] vsize c (embed b) = embed3 (computeOffsets H c b)) ->
    forall b, coffs H [] vsize l (embed b) = let '(hs, row, b') := offs H l b in (hs, map (pair 0%nat) row, embed b').
  Proof.
    induction l as [|[c|] l IH]; intros HC b; cbn [coffs offs]; [reflexivity| |].
    - rewrite (HC c b (or_introl eq_refl)). destruct (computeOffsets H c b) as [[h i] b1]. cbn [embed3]. rewrite (IH (fun c0 b0 Hc => HC c0 b0 (or_intror Hc))). destruct (offs H l b1) as [[hs row] b2]. reflexivity.
    - rewrite (IH (fun c0 b0 Hc => HC c0 b0 (or_intror Hc))). destruct (offs H l b) as [[hs row] b2]. reflexivity.
  Qed.

  Lemma node_embed : forall ch vs, (forall c b, In (Some c) ch -> computeOffsets_c H [] vsize c (embed b) = embed3 (computeOffsets H c b)) ->
    forall b, computeOffsets_c H [] vsize (Node ch vs) (embed b) = embed3 (computeOffsets H (Node ch vs) b).
  Proof.
    intros ch vs HC b. rewrite compute_eq, computeOffsets_eq. cbv zeta. replace (length (c_index (embed b))) with (length (b_index b)) by (cbn [embed c_index]; rewrite map_length; reflexivity).
    set (first := Nat.eqb (length (b_index b)) rootBlockOffset).
    set (b0 := if first then {| b_index := b_index b ++ [[]] |} else b).
    assert (E0 : (if first then {| c_index := c_index (embed b) ++ [[]]; c_values := c_values (embed b); c_iidx := c_iidx (embed b); c_vidx := c_vidx (embed b); c_max := c_max (embed b); c_more := c_more (embed b) |} else embed b) = embed b0).
    { unfold b0. destruct first; [|reflexivity]. unfold embed. cbn [c_index c_values c_iidx c_vidx c_max c_more b_index b_values b_iidx b_vidx b_maxHandle]. rewrite map_app. reflexivity. }
    rewrite E0, (coffs_embed ch HC b0). destruct (offs H ch b0) as [[hs row] b1]. cbv beta iota. set (hash := if is_nil ch && is_nil vs then 0 else H (hs ++ vs)).
    set (b2 := if first then {| b_index := firstn rootBlockOffset (b_index b1) ++ row :: skipn (S rootBlockOffset) (b_index b1) |} else b1).
    match goal with |- context [find hash (c_iidx ?X)] => set (bc := X) end.
    assert (E2 : bc = embed b2).
    { unfold bc, b2. destruct first; [|reflexivity]. unfold embed. cbn [c_index c_values c_iidx c_vidx c_max c_more b_index b_values b_iidx b_vidx b_maxHandle]. rewrite map_app, firstn_map. cbn [map]. rewrite skipn_map. reflexivity. }
    rewrite E2. clear E2. clearbody bc b2. destruct (negb (is_nil ch)).
    - change (c_iidx (embed b2)) with (b_iidx b2). destruct (find hash (b_iidx b2)) as [v|]; [reflexivity|]. cbn [embed3]. unfold embed. cbn [c_index c_values c_iidx c_vidx c_max c_more b_index b_values b_iidx b_vidx b_maxHandle].
      rewrite map_length, map_app. reflexivity.
    - change (c_vidx (embed b2)) with (map (fun e => (fst e, (0%nat, snd e))) (b_vidx b2)). rewrite cfind_embed. destruct (find hash (b_vidx b2)) as [v|]; reflexivity.
  Qed.

  Lemma compute_embed : forall k n b, wf k n -> computeOffsets_c H [] vsize n (embed b) = embed3 (computeOffsets H n b).
  Proof.
    induction k as [|k IH]; intros [ch vs] b W.
    - destruct W as [Wc _]. cbn [children] in Wc. subst ch. apply node_embed. intros c b' [].
    - destruct W as (_ & _ & Wc). cbn [children] in Wc. apply node_embed. intros c b' Hc. apply IH. apply In_nth_error in Hc as [p Hp]. exact (Wc p c Hp).
  Qed.
  Lemma root_embed : forall t b, wf_root t -> computeOffsets_c H [] vsize t (embed b) = embed3 (computeOffsets H t b).
  Proof.
    intros [ch vs] b (_ & _ & Wc). cbn [children] in Wc. apply node_embed. intros c b' Hc. apply In_nth_error in Hc as [p Hp]. exact (compute_embed _ _ _ (Wc p c Hp)).
  Qed.

  Definition sembed (s : shared) : cshared := {| cs_builder := embed (s_builder s); cs_ascii := s_ascii s |}.
  Lemma trie_embed : forall t s, wf_root t -> buildTrie_c H [] vsize t (sembed s) = let '(h, s') := buildTrie_shared H t s in (h, sembed s').
  Proof.
    intros t s W. unfold buildTrie_c, buildTrie_shared.
    assert (P : place_ascii_c H t (sembed s) = let '(v, s1) := place_ascii H t s in (v, sembed s1)).
    { unfold place_ascii_c, place_ascii. cbn [sembed cs_ascii cs_builder]. destruct (find (H (values t)) (s_ascii s)) as [v|]; reflexivity. }
    rewrite P. destruct (place_ascii H t s) as [v s1]. cbn [sembed cs_builder]. rewrite (root_embed t _ W). destruct (computeOffsets H t (s_builder s1)) as [[h i] b]. reflexivity.
  Qed.
  Lemma tries_embed : forall ts s, (forall t, In t ts -> wf_root t) -> build_tries_c H [] vsize ts (sembed s) = let '(hs, s') := build_tries H ts s in (hs, sembed s').
  Proof.
    induction ts as [|t ts IH]; intros s W; cbn [build_tries_c build_tries]; [reflexivity|]. rewrite (trie_embed t s (W t (or_introl eq_refl))). destruct (buildTrie_shared H t s) as [h s1].
    rewrite (IH s1 (fun x Hx => W x (or_intror Hx))). destruct (build_tries H ts s1) as [hs s2]. reflexivity.
  Qed.
End None.

Lemma no_compacters : forall H ls ts, Forall2 inserted ls ts -> Forall (Forall (fun e => snd e < 2 ^ 64)) ls -> (length ts <= 250)%nat ->
  let g := Gen_c H [] ts in let g' := Gen_many H ts in
  gc_values g = gm_values g' /\ gc_index g = gm_index g' /\ gc_handles g = gm_handles g' /\ gc_vsize g = gm_vsize g' /\ gc_isize g = gm_isize g' /\ gc_size g = gm_size g' /\ gc_checksum g = gm_checksum g' /\
  forall tr d, t_values tr = gc_values g -> lookup_c [] g tr d = lookup_in tr d.
Proof.
  intros H ls ts F V L g g'. pose proof (inserted_wf ls ts F) as W.
  destruct (maxValue_all ts 0 W) as [_ Wm]. set (M := fold_left (fun m t => maxValue t m) ts 0) in *.
  assert (Fit := tries_fit H M ts shared0 (fun t Ht => conj (W t Ht) (Wm t Ht)) (ready0 M)).
  assert (Sm : forall t0 ts', ts = t0 :: ts' -> let s := snd (build_tries H ts shared0) in small (s_builder s) /\ count (s_builder s) <= 3 + N.of_nat (length ts) * 266308).
  { intros t0 ts' E. subst ts. apply build_small. exact W. }
  subst g g'. unfold Gen_c, Gen_many. change (cshared0 []) with (sembed shared0). rewrite (tries_embed H _ ts shared0 W).
  destruct (build_tries H ts shared0) as [hs s] eqn:Eb. cbn [gm_values gm_index gm_handles gm_vsize gm_isize gm_size gm_checksum gc_values gc_index gc_handles gc_vsize gc_isize gc_size gc_checksum snd] in *.
  destruct Fit as ([Ft _] & _). cbn [sembed cs_builder]. set (b := s_builder s) in *.
  assert (Bd : top b < 2 ^ 32 /\ b_maxHandle b + 1 < 2 ^ 32).
  { assert (C : count b <= 3 + N.of_nat (length ts) * 266308).
    { destruct ts as [|t0 ts']; [|exact (proj2 (Sm t0 ts' eq_refl))]. cbn [build_tries] in Eb. injection Eb as <- <-. vm_compute. discriminate. }
    pose proof (f_max M b Ft) as Mh. unfold top. unfold count in C. change (2 ^ 32) with 4294967296. lia. }
  assert (Er : rows (embed b) = b_index b).
  { unfold rows. cbn [embed c_index]. rewrite map_map. rewrite <- (map_id (b_index b)) at 2. apply map_ext_in. intros r Hr. rewrite map_map. rewrite <- (map_id r) at 2. apply map_ext_in. intros x Hx.
    pose proof (f_rows M b Ft) as Fr. rewrite Forall_forall in Fr. specialize (Fr r Hr). rewrite Forall_forall in Fr. specialize (Fr x Hx). apply entry_0. lia. }
  assert (El : lay (embed b) = [(0, b_maxHandle b + 1)]).
  { unfold lay, maxes. cbn [embed c_max c_more map]. rewrite layout_cons by lia. reflexivity. }
  assert (Ei : cindex_size (embed b) = index_size b).
  { unfold cindex_size, index_size. rewrite El. cbn [last snd embed c_index]. rewrite map_length. reflexivity. }
  split; [reflexivity|]. split; [unfold ctables; cbn [snd]; rewrite Er; reflexivity|]. split; [reflexivity|]. split; [reflexivity|]. split; [exact Ei|]. split; [|split; [reflexivity|]].
  - unfold Size_c, Size_many. rewrite Ei. cbn [embed c_index c_values c_more fold_left]. rewrite map_length. lia.
  - intros tr d Et. unfold lookup_c, lookup_in.
    assert (X : forall g n c, gc_lay g = [(0, b_maxHandle b + 1)] -> gc_values g = t_values tr -> lookupValue_c [] g n c = lookupValue (t_values tr) n c).
    { intros g n c E1 E2. unfold lookupValue_c. rewrite E1, E2. reflexivity. }
    set (g := {| gc_values := _ |}) in *. assert (Y : forall n c, lookupValue_c [] g n c = lookupValue (t_values tr) n c) by (intros n c; apply X; [exact El|symmetry; exact Et]).
    clearbody g. clear - Y. unfold lookup_with. destruct (byte_at d 0) as [c0| |]; cbn [bind]; [|reflexivity|reflexivity].
    repeat match goal with |- context [bind ?e _] => match e with lookupValue_c _ _ _ _ => rewrite Y | lookupValue _ _ _ => fail 1 | _ => destruct e; cbn [bind] end | |- context [if ?c then _ else _] => destruct c end; try reflexivity.
Qed.
