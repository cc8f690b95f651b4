(** C82: the generator of lookup tables, given several tries. *)
From Verif Require Import Base Trie SpecUtf8 SpecTriegen SpecTrieHash SpecTrieShare Triegen TriegenMany Crc64.
From Verif Require Import TriegenFacts TriegenShare TriegenAgain TriegenFit TriegenSmall.
Local Open Scope N_scope.

(** The tries ts hold the assignments ls. *)
Definition hold (ls : list (list (N * N))) (ts : list node) : Prop := Forall2 (fun l t => assignable l /\ inserts NewTrie l = Ok t) ls ts.

(** There is a handle for each trie, and the lookup through it answers the assignment of that trie, for every input, although all the
    tries share their blocks; whatever the hash, provided it confuses no two blocks of the tries. *)
Theorem C82_lookup : forall H ls ts, hold ls ts -> distinct_all H ts -> (length ts <= 250)%nat ->
  length (gm_handles (Gen_many H ts)) = length ts /\
  forall k l, nth_error ls k = Some l -> exists h tr, nth_error (gm_handles (Gen_many H ts)) k = Some h
    /\ newTrie (gm_values (Gen_many H ts)) (gm_index (Gen_many H ts)) h = Ok tr /\ looks_up Ok (lookup_in tr) l.
Proof. exact Gen_many_looks_up. Qed.

(** A trie that comes again adds nothing to the arrays and gets the handle it has. *)
Theorem C82_repeated : forall H ls ts k t, hold ls ts -> nth_error ts k = Some t ->
  gm_values (Gen_many H (ts ++ [t])) = gm_values (Gen_many H ts) /\ gm_index (Gen_many H (ts ++ [t])) = gm_index (Gen_many H ts) /\
  exists h, nth_error (gm_handles (Gen_many H ts)) k = Some h /\ gm_handles (Gen_many H (ts ++ [t])) = gm_handles (Gen_many H ts) ++ [h].
Proof.
  intros H ls ts k t F E. pose proof (repeated H ts k t (inserted_wf ls ts F) E) as P. unfold Gen_many. destruct (build_tries H ts shared0) as [hs s]. destruct P as (h & Eh & ->).
  cbn [gm_values gm_index gm_handles]. split; [reflexivity|]. split; [reflexivity|]. exists h. split; [exact Eh|reflexivity].
Qed.

(** One trie gives the arrays, the size and the checksum that internal/gen/main.go gets (C44, C45), and its handle is the whole arrays. *)
Theorem C82_one : forall H l t, assignable l -> inserts NewTrie l = Ok t ->
  let g := Gen_many H [t] in
  gm_values g = g_values (Gen H t) /\ gm_index g = g_index (Gen H t) /\ gm_size g = g_size (Gen H t) /\ gm_checksum g = g_checksum (Gen H t) mod 2 ^ 64 /\
  exists h, gm_handles g = [h] /\ forall d, exists tr, newTrie (gm_values g) (gm_index g) h = Ok tr /\ lookup_in tr d = lookup (g_values (Gen H t)) (g_index (Gen H t)) d.
Proof.
  intros H l t A E g. assert (W : wf_root t) by (apply (inserted_wf [l] [t]); [constructor; [split; assumption|constructor]|left; reflexivity]).
  destruct (one_trie H t W) as (Ev & Ei & Es & Eh & Ec). fold g in Ev, Ei, Es, Eh, Ec. split; [exact Ev|]. split; [exact Ei|]. split; [exact Es|]. split; [exact Ec|].
  eexists. split; [exact Eh|]. intros d. rewrite Ev, Ei. apply whole.
Qed.

(** The numbers in the two arrays, and where the roots begin, fit the types the generator declares, whatever the hash. *)
Theorem C82_types : forall H ls ts, hold ls ts -> Forall (Forall (fun e => snd e < 2 ^ 64)) ls -> (length ts <= 250)%nat ->
  let g := Gen_many H ts in
  (forall i x, arr_get (gm_values g) i = Ok x -> x < 2 ^ (8 * gm_vsize g)) /\
  (forall i x, arr_get (gm_index g) i = Ok x -> x < 2 ^ (8 * gm_isize g)) /\
  Forall (fun h => h_starter h < 2 ^ (8 * gm_isize g)) (gm_handles g).
Proof. exact many_types. Qed.

(** The size that is returned counts the entries of both arrays with their widths and, if there are several tries, two numbers of the
    index type for each; the checksum is the sum, modulo 2^64, of those of the tries, and each is the hash of its trie. *)
Theorem C82_size : forall H ls ts, hold ls ts ->
  let g := Gen_many H ts in
  gm_size g = arr_len (gm_values g) * gm_vsize g + arr_len (gm_index g) * gm_isize g + (if (length ts <=? 1)%nat then 0 else N.of_nat (length ts) * (gm_isize g + gm_isize g)) /\
  map h_checksum (gm_handles g) = map (nhash H) ts /\
  gm_checksum g = fold_right N.add 0 (map (nhash H) ts) mod 2 ^ 64.
Proof.
  intros H ls ts F g. pose proof (build_tries_done H ts shared0 (inserted_wf ls ts F) (or_intror eq_refl)) as P. subst g. unfold Gen_many. destruct (build_tries H ts shared0) as [hs s]. destruct P as (_ & Dn & _).
  cbn [gm_size gm_values gm_index gm_vsize gm_isize gm_handles gm_checksum].
  assert (C : map h_checksum hs = map (nhash H) ts).
  { clear - Dn. induction Dn as [|t h ts hs (_ & _ & _ & _ & _ & C) Dn IH]; [reflexivity|]. cbn [map]. rewrite C, IH. reflexivity. }
  split; [|split; [exact C|]].
  - unfold Size_many. cbn [tables fst snd arr_of arr_len]. rewrite Nat.ltb_antisym. destruct (length ts <=? 1)%nat; cbn [negb]; lia.
  - rewrite <- C. clear. assert (G : forall l c, fold_left (fun c h => (c + h_checksum h) mod 2 ^ 64) l (c mod 2 ^ 64) = (c + fold_right N.add 0 (map h_checksum l)) mod 2 ^ 64).
    { induction l as [|h l IH]; intros c; cbn [fold_left map fold_right]; [rewrite N.add_0_r; reflexivity|]. rewrite N.add_mod_idemp_l by discriminate. rewrite IH. f_equal. lia. }
    exact (G hs 0).
Qed.

(** Where the ASCII values begin need not: with 129 tries that differ in one ASCII value, the last begins at block 257, but the type of
    the handles is one byte wide. *)
Definition letters : list (list (N * N)) := map (fun k => [(0x41, N.of_nat k)]) (seq 1 129).
Theorem C82_handles_refuted : exists ls ts h, hold ls ts /\ distinct_all crc64 ts /\ (length ts <= 250)%nat /\
  nth_error (gm_handles (Gen_many crc64 ts)) 128 = Some h /\ 2 ^ (8 * gm_isize (Gen_many crc64 ts)) <= h_ascii h.
Proof.
  assert (A : Forall assignable letters).
  { apply Forall_forall. intros l Hl. unfold letters in Hl. apply in_map_iff in Hl as (k & <- & _). constructor; [intros _; left; reflexivity|constructor]. }
  destruct (trees letters) as [ts| |] eqn:E; [|vm_compute in E; discriminate E..].
  assert (D : match trees letters with Ok ts => distinct_all_b crc64 ts && (length ts <=? 250)%nat && (let '(hs, s) := build_tries crc64 ts shared0 in
    match nth_error hs 128 with Some h => 2 ^ (8 * index_size (s_builder s)) <=? h_ascii h | None => false end) | _ => false end = true) by (vm_compute; reflexivity).
  rewrite E in D. apply andb_true_iff in D as [D D3]. apply andb_true_iff in D as [D1 D2].
  assert (G : gm_handles (Gen_many crc64 ts) = fst (build_tries crc64 ts shared0) /\ gm_isize (Gen_many crc64 ts) = index_size (s_builder (snd (build_tries crc64 ts shared0)))).
  { unfold Gen_many. destruct (build_tries crc64 ts shared0) as [hs s]. split; reflexivity. }
  destruct G as [G1 G2]. destruct (build_tries crc64 ts shared0) as [hs s]. cbn [fst snd] in G1, G2. destruct (nth_error hs 128) as [h|] eqn:Eh; [|discriminate D3].
  exists letters, ts, h. rewrite G1, G2. split; [exact (trees_inserted letters ts A E)|]. split; [exact (distinct_all_b_ok crc64 ts D1)|]. split; [apply Nat.leb_le; exact D2|]. split; [exact Eh|apply N.leb_le; exact D3].
Qed.

(** Three tries with blocks in common; the second and the third have the same ASCII values. *)
Definition three : list (list (N * N)) :=
  [[(0x41, 1); (0xE9, 2); (0x905, 4); (0x1F600, 8)]; [(0x42, 1); (0xE9, 2); (0x905, 4); (0x1F600, 16)]; [(0x42, 1); (0xE9, 32); (0x905, 4)]].
Example C82_case : exists ts, hold three ts /\ distinct_all crc64 ts /\ (length ts <= 250)%nat /\
  map (fun h => (h_ascii h, h_starter h)) (gm_handles (Gen_many crc64 ts)) = [(0, 0); (6, 6); (6, 7)] /\
  exists h tr, nth_error (gm_handles (Gen_many crc64 ts)) 1 = Some h /\ newTrie (gm_values (Gen_many crc64 ts)) (gm_index (Gen_many crc64 ts)) h = Ok tr
    /\ lookup_in tr [0xF0; 0x9F; 0x98; 0x80; 0x41] = Ok (16, 4%nat) /\ lookup_in tr [0x42] = Ok (1, 1%nat) /\ lookup_in tr [0x41] = Ok (0, 1%nat).
Proof.
  assert (A : Forall assignable three).
  { unfold three. repeat (apply Forall_cons; [unfold assignable; repeat (apply Forall_cons; [intros _; first [left; reflexivity|right; split; [discriminate|reflexivity]]|]); apply Forall_nil|]). apply Forall_nil. }
  destruct (trees three) as [ts| |] eqn:E; [|vm_compute in E; discriminate E..]. exists ts. split; [exact (trees_inserted three ts A E)|].
  assert (D : match trees three with Ok ts => distinct_all_b crc64 ts && (length ts <=? 250)%nat | _ => false end = true) by (vm_compute; reflexivity).
  rewrite E in D. apply andb_true_iff in D as [D1 D2]. split; [exact (distinct_all_b_ok crc64 ts D1)|]. split; [apply Nat.leb_le; exact D2|].
  assert (F : match trees three with Ok ts => map (fun h => (h_ascii h, h_starter h)) (gm_handles (Gen_many crc64 ts)) | _ => [] end = [(0, 0); (6, 6); (6, 7)]) by (vm_compute; reflexivity).
  rewrite E in F. split; [exact F|].
  assert (L : match trees three with
    | Ok ts => match nth_error (gm_handles (Gen_many crc64 ts)) 1 with
      | Some h => match newTrie (gm_values (Gen_many crc64 ts)) (gm_index (Gen_many crc64 ts)) h with
        | Ok tr => Some (lookup_in tr [0xF0; 0x9F; 0x98; 0x80; 0x41], lookup_in tr [0x42], lookup_in tr [0x41]) | _ => None end
      | None => None end
    | _ => None end = Some (Ok (16, 4%nat), Ok (1, 1%nat), Ok (0, 1%nat))) by (vm_compute; reflexivity).
  rewrite E in L. destruct (nth_error (gm_handles (Gen_many crc64 ts)) 1) as [h|]; [|discriminate L]. destruct (newTrie _ _ h) as [tr| |] eqn:Et; try discriminate L.
  exists h, tr. split; [reflexivity|]. split; [exact Et|]. injection L as L1 L2 L3. repeat split; assumption.
Qed.

Print Assumptions C82_lookup.
Print Assumptions C82_repeated.
Print Assumptions C82_one.
Print Assumptions C82_types.
Print Assumptions C82_size.
Print Assumptions C82_handles_refuted.
Print Assumptions C82_case.
