(** C83: the generator of lookup tables, with Compacters. *)
From Verif Require Import Base Trie SpecUtf8 SpecTriegen SpecTrieHash SpecTrieShare SpecTrieCompact Triegen TriegenMany TriegenCompact Crc64.
From Verif Require Import TriegenFacts TriegenShare TriegenFit TriegenSmall TriegenCompactFacts TriegenCompactLookup TriegenCompactSmall.
Local Open Scope N_scope.

(** The tries ts hold the assignments ls. *)
Definition hold (ls : list (list (N * N))) (ts : list node) : Prop :=
  Forall2 (fun l t => assignable l /\ inserts NewTrie l = Ok t) ls ts /\ Forall (Forall (fun e => snd e < 2 ^ 64)) ls.

(** With any number of Compacters that give back what they store, the lookup through the handle of each trie answers the assignment of that
    trie, for every input, provided the hash confuses no two blocks and there are not almost 2^32 handles. *)
Theorem C83_lookup : forall H cs ls ts, Forall faithful cs -> hold ls ts -> distinct_all H ts -> (length ts <= 250)%nat ->
  let g := Gen_c H cs ts in handles cs (gc_stored g) <= 0xF0000000 ->
  length (gc_handles g) = length ts /\
  forall k l, nth_error ls k = Some l -> exists h tr, nth_error (gc_handles g) k = Some h
    /\ newTrie (gc_values g) (gc_index g) h = Ok tr /\ looks_up Ok (lookup_c cs g tr) l.
Proof. intros H cs ls ts Fa [F V]. exact (Gen_c_looks_up H cs ls ts Fa F V). Qed.

(** The numbers in the two arrays, and where the roots begin, fit the types the generator declares. *)
Theorem C83_types : forall H cs ls ts, ts <> [] -> hold ls ts -> distinct_all H ts -> (length ts <= 250)%nat ->
  let g := Gen_c H cs ts in handles cs (gc_stored g) <= 0xF0000000 ->
  (forall i x, arr_get (gc_values g) i = Ok x -> x < 2 ^ (8 * gc_vsize g)) /\
  (forall i x, arr_get (gc_index g) i = Ok x -> x < 2 ^ (8 * gc_isize g)) /\
  Forall (fun h => h_starter h < 2 ^ (8 * gc_isize g)) (gc_handles g).
Proof. intros H cs ls ts Ne [F V] D L g. exact (compact_types H cs ls ts Ne F V D L). Qed.

(** The size that is returned counts the entries of both arrays with their widths, what the Compacters said they would need for the blocks
    they got, and two numbers of the index type for each trie if there are several.  Every block a Compacter got is one it said it could
    store, in fewer bytes than the 64 values take. *)
Theorem C83_size : forall H cs ls ts, ts <> [] -> hold ls ts -> distinct_all H ts -> (length ts <= 250)%nat ->
  let g := Gen_c H cs ts in
  gc_size g = arr_len (gc_values g) * gc_vsize g + arr_len (gc_index g) * gc_isize g + told cs (gc_stored g)
    + (if (length ts <=? 1)%nat then 0 else N.of_nat (length ts) * (gc_isize g + gc_isize g)) /\
  length (gc_stored g) = length cs /\
  (forall j c st, nth_error cs j = Some c -> nth_error (gc_stored g) j = Some st -> saved (64 * gc_vsize g) c [] st) /\
  map h_checksum (gc_handles g) = map (nhash H) ts /\
  gc_checksum g = fold_right N.add 0 (map (nhash H) ts) mod 2 ^ 64.
Proof. intros H cs ls ts Ne [F V] D L. exact (compact_size H cs ls ts Ne F V D L). Qed.

(** A new block goes to the first of the Compacters that need the fewest bytes for it, if those are fewer than the plain block takes, and is
    stored plainly otherwise. *)
Theorem C83_choice : forall cs ks plain vs, length ks = length cs ->
  let offer j := match nth_error cs j, nth_error ks j with Some c, Some k => c_size c (k_stored k) vs | _, _ => None end in
  match choose (0%nat, plain) 1 cs ks vs with
  | (O, s) => s = plain /\ forall j x, offer j = Some x -> plain <= x
  | (S j, s) => offer j = Some s /\ s < plain /\ (forall i x, offer i = Some x -> s <= x) /\ (forall i x, (i < j)%nat -> offer i = Some x -> s < x)
  end.
Proof.
  intros cs ks plain vs Lk offer.
  assert (G : forall cs' ks' pre kpre best, cs = pre ++ cs' -> ks = kpre ++ ks' -> length pre = length kpre -> length ks' = length cs' ->
    match best with
    | (O, s) => s = plain /\ forall j x, (j < length pre)%nat -> offer j = Some x -> plain <= x
    | (S j, s) => (j < length pre)%nat /\ offer j = Some s /\ s < plain /\ (forall i x, (i < length pre)%nat -> offer i = Some x -> s <= x) /\ (forall i x, (i < j)%nat -> offer i = Some x -> s < x)
    end ->
    match choose best (S (length pre)) cs' ks' vs with
    | (O, s) => s = plain /\ forall j x, offer j = Some x -> plain <= x
    | (S j, s) => offer j = Some s /\ s < plain /\ (forall i x, offer i = Some x -> s <= x) /\ (forall i x, (i < j)%nat -> offer i = Some x -> s < x)
    end).
  { induction cs' as [|c cs' IH]; intros [|k ks'] pre kpre best Ec Ek Lp Ls B; try discriminate Ls; cbn [choose].
    - rewrite app_nil_r in Ec. subst pre. assert (O : forall i x, offer i = Some x -> (i < length cs)%nat).
      { intros i x E. unfold offer in E. destruct (nth_error cs i) eqn:E1; [|discriminate E]. apply nth_error_Some. rewrite E1. discriminate. }
      destruct best as [[|j] s].
      + destruct B as [-> B]. split; [reflexivity|]. intros j x E. exact (B j x (O j x E) E).
      + destruct B as (_ & B1 & B2 & B3 & B4). split; [exact B1|]. split; [exact B2|]. split; [|exact B4]. intros i x E. exact (B3 i x (O i x E) E).
    - assert (Here : offer (length pre) = c_size c (k_stored k) vs).
      { unfold offer. rewrite Ec, Ek, nth_error_app2, Nat.sub_diag by lia. rewrite Lp, nth_error_app2, Nat.sub_diag by lia. reflexivity. }
      replace (S (S (length pre))) with (S (length (pre ++ [c]))) by (rewrite app_length; cbn [length]; lia).
      apply (IH ks' (pre ++ [c]) (kpre ++ [k])); [rewrite <- app_assoc; exact Ec|rewrite <- app_assoc; exact Ek|rewrite !app_length, Lp; reflexivity|injection Ls as Ls; exact Ls|].
      rewrite app_length. cbn [length].
      assert (Cut : forall i, (i < length pre + 1)%nat -> (i < length pre)%nat \/ i = length pre) by (intros i Hi; lia).
      destruct (c_size c (k_stored k) vs) as [sz|].
      + destruct best as [[|j] s]; cbn [snd]; destruct (N.ltb_spec sz s) as [Q|Q].
        * destruct B as [-> B]. split; [lia|]. split; [exact Here|]. split; [exact Q|]. split.
          -- intros i x Hi E. destruct (Cut i Hi) as [Hj| ->]; [specialize (B i x Hj E); lia|]. rewrite Here in E. injection E as <-. lia.
          -- intros i x Hi E. specialize (B i x Hi E). lia.
        * destruct B as [-> B]. split; [reflexivity|]. intros i x Hi E. destruct (Cut i Hi) as [Hj| ->]; [exact (B i x Hj E)|]. rewrite Here in E. injection E as <-. exact Q.
        * destruct B as (B0 & B1 & B2 & B3 & B4). split; [lia|]. split; [exact Here|]. split; [lia|]. split.
          -- intros i x Hi E. destruct (Cut i Hi) as [Hj| ->]; [specialize (B3 i x Hj E); lia|]. rewrite Here in E. injection E as <-. lia.
          -- intros i x Hi E. specialize (B3 i x Hi E). lia.
        * destruct B as (B0 & B1 & B2 & B3 & B4). split; [lia|]. split; [exact B1|]. split; [exact B2|]. split; [|exact B4].
          intros i x Hi E. destruct (Cut i Hi) as [Hj| ->]; [exact (B3 i x Hj E)|]. rewrite Here in E. injection E as <-. exact Q.
      + destruct best as [[|j] s].
        * destruct B as [-> B]. split; [reflexivity|]. intros i x Hi E. destruct (Cut i Hi) as [Hj| ->]; [exact (B i x Hj E)|]. rewrite Here in E. discriminate E.
        * destruct B as (B0 & B1 & B2 & B3 & B4). split; [lia|]. split; [exact B1|]. split; [exact B2|]. split; [|exact B4].
          intros i x Hi E. destruct (Cut i Hi) as [Hj| ->]; [exact (B3 i x Hj E)|]. rewrite Here in E. discriminate E. }
  apply (G cs ks [] []); [reflexivity|reflexivity|reflexivity|exact Lk|]. split; [reflexivity|]. intros j x Hj. cbn [length] in Hj. lia.
Qed.

(** Without Compacters everything is as in C82. *)
Theorem C83_none : forall H ls ts, hold ls ts -> (length ts <= 250)%nat ->
  let g := Gen_c H [] ts in let g' := Gen_many H ts in
  gc_values g = gm_values g' /\ gc_index g = gm_index g' /\ gc_handles g = gm_handles g' /\ gc_vsize g = gm_vsize g' /\ gc_isize g = gm_isize g' /\
  gc_size g = gm_size g' /\ gc_checksum g = gm_checksum g' /\
  forall tr d, t_values tr = gc_values g -> lookup_c [] g tr d = lookup_in tr d.
Proof. intros H ls ts [F V] L. exact (no_compacters H ls ts F V L). Qed.

(** Two Compacters: one for blocks of one value, whose handle is a number computed from the value, and one that stores whatever begins with
    a value that is not zero and numbers the blocks. *)
Definition same (handle : N -> N) : compacter := {|
  c_size := fun _ vs => match vs with v :: r => if (v <? 2 ^ 31) && forallb (N.eqb v) r then Some 1 else None | [] => None end;
  c_store := fun _ vs => handle (hd 0 vs);
  c_handler := fun _ n _ => handle n |}.
Definition numbered : compacter := {|
  c_size := fun before vs => if (N.of_nat (length before) <? 2 ^ 32) && negb (hd 0 vs =? 0) then Some 60 else None;
  c_store := fun before _ => N.of_nat (length before);
  c_handler := fun st n b => nth (N.to_nat (b - 0x80)) (nth (N.to_nat n) st []) 0 |}.
Definition down (n : N) : N := 0xFFFFFFFF - n.

Lemma same_faithful : forall handle, (forall n, n < 2 ^ 31 -> handle n < 2 ^ 32 /\ handle (handle n) = n) -> faithful (same handle).
Proof.
  intros handle Hh before vs after L S. cbn [same c_size c_store c_handler] in *. destruct vs as [|v r]; [contradiction S; reflexivity|].
  destruct ((v <? 2 ^ 31) && forallb (N.eqb v) r) eqn:E; [|contradiction S; reflexivity]. apply andb_true_iff in E as [E1 E2]. apply N.ltb_lt in E1. cbn [hd]. destruct (Hh v E1) as [A B]. split; [exact A|].
  intros b Hb. rewrite B. symmetry. rewrite forallb_forall in E2. assert (I : In (nth (N.to_nat (b - 0x80)) (v :: r) 0) (v :: r)) by (apply nth_In; lia).
  destruct I as [I|I]; [symmetry; exact I|]. symmetry. apply N.eqb_eq. exact (E2 _ I).
Qed.
Lemma numbered_faithful : faithful numbered.
Proof.
  intros before vs after L S. cbn [numbered c_size c_store c_handler] in *. destruct (N.ltb_spec (N.of_nat (length before)) (2 ^ 32)) as [Q|Q]; [|contradiction S; reflexivity].
  split; [exact Q|]. intros b Hb. rewrite Nat2N.id, app_nth2, Nat.sub_diag by lia. reflexivity.
Qed.

(** A block of Cyrillic gets 1 throughout; three other blocks do not. *)
Definition script : list (N * N) := map (fun k => (0x400 + N.of_nat k, 1)) (seq 0 64) ++ [(0x500, 2); (0x541, 3); (0x1F600, 9)].
Lemma script_assignable : assignable script.
Proof.
  assert (A : forallb (fun e => (fst e <? 0xD800) || (0xE000 <=? fst e) && (fst e <=? 0x10FFFF)) script = true) by (vm_compute; reflexivity).
  rewrite forallb_forall in A. apply Forall_forall. intros e He _. specialize (A e He). unfold scalar.
  apply orb_true_iff in A as [A|A]; [left; apply N.ltb_lt; exact A|right; apply andb_true_iff in A as [A1 A2]; split; [apply N.leb_le; exact A1|apply N.leb_le in A2; lia]].
Qed.
Lemma script_hold : forall ts, trees [script] = Ok ts -> hold [script] ts.
Proof.
  intros ts E. split; [apply trees_inserted; [constructor; [exact script_assignable|constructor]|exact E]|].
  assert (V : forallb (fun e => snd e <? 2 ^ 64) script = true) by (vm_compute; reflexivity). constructor; [|constructor].
  rewrite forallb_forall in V. apply Forall_forall. intros e He. apply N.ltb_lt. exact (V e He).
Qed.

(** The bound on the handles is needed: the Offset of the index entries is a uint32.  A Compacter that numbers its blocks from the top
    makes the entry of its block wrap to that of another one, so that the lookup of U+0401 is answered with the value of U+0541. *)
Theorem C83_offsets_refuted : exists cs ls ts h tr, Forall faithful cs /\ hold ls ts /\ distinct_all crc64 ts /\ (length ts <= 250)%nat /\
  let g := Gen_c crc64 cs ts in
  handles cs (gc_stored g) < 2 ^ 32 /\ nth_error (gc_handles g) 0 = Some h /\ newTrie (gc_values g) (gc_index g) h = Ok tr /\ ~ looks_up Ok (lookup_c cs g tr) script /\ ls = [script].
Proof.
  destruct (trees [script]) as [ts| |] eqn:E; [|vm_compute in E; discriminate E..].
  assert (D : match trees [script] with Ok ts => distinct_all_b crc64 ts && (length ts <=? 250)%nat | _ => false end = true) by (vm_compute; reflexivity).
  rewrite E in D. apply andb_true_iff in D as [D1 D2].
  assert (X : match trees [script] with
    | Ok ts => let g := Gen_c crc64 [same down] ts in
      (handles [same down] (gc_stored g) <? 2 ^ 32,
       match nth_error (gc_handles g) 0 with
       | Some h => match newTrie (gc_values g) (gc_index g) h with Ok tr => Some (lookup_c [same down] g tr [0xD0; 0x81]) | _ => None end
       | None => None end)
    | _ => (false, None) end = (true, Some (Ok (3, 2%nat)))) by (vm_compute; reflexivity).
  rewrite E in X. cbv zeta in X. set (g := Gen_c crc64 [same down] ts) in *. destruct (nth_error (gc_handles g) 0) as [h|] eqn:Eh; [|discriminate X]. destruct (newTrie (gc_values g) (gc_index g) h) as [tr| |] eqn:Et; try discriminate X.
  injection X as X1 X2. exists [same down], [script], ts, h, tr. split; [|split; [|split; [|split]]].
  - constructor; [|constructor]. apply same_faithful. intros n Hn. unfold down. change (2 ^ 31) with 2147483648 in Hn. change (2 ^ 32) with 4294967296. lia.
  - exact (script_hold ts E).
  - exact (distinct_all_b_ok crc64 ts D1).
  - apply Nat.leb_le. exact D2.
  - cbv zeta. fold g. split; [apply N.ltb_lt; exact X1|]. split; [exact Eh|]. split; [exact Et|]. split; [|reflexivity]. intros L. destruct (L [0xD0; 0x81] ltac:(discriminate)) as (v & w & Q & R & _). rewrite X2 in Q. injection Q as <- _.
    destruct (R 0x401 [] (or_introl eq_refl) eq_refl) as [R1 _]. vm_compute in R1. discriminate R1.
Qed.

(** Both Compacters, with handles from zero: the block of Cyrillic goes to the first, in one byte, two that begin with a value to the second, in
    sixty each, and the remaining one is stored plainly. *)
Definition both : list compacter := [same (fun n => n); numbered].
Example C83_case : exists ts, Forall faithful both /\ ts <> [] /\ hold [script] ts /\ distinct_all crc64 ts /\ (length ts <= 250)%nat /\
  let g := Gen_c crc64 both ts in
  handles both (gc_stored g) <= 0xF0000000 /\ gc_lay g = [(0, 2); (2, 4); (4, 6)] /\ gc_stored g = [[repeat 1 64]; [2 :: repeat 0 63; 9 :: repeat 0 63]] /\ told both (gc_stored g) = 121 /\
  exists h tr, nth_error (gc_handles g) 0 = Some h /\ newTrie (gc_values g) (gc_index g) h = Ok tr
    /\ lookup_c both g tr [0xD0; 0x81] = Ok (1, 2%nat) /\ lookup_c both g tr [0xD5; 0x81; 0x41] = Ok (3, 2%nat) /\ lookup_c both g tr [0xF0; 0x9F; 0x98; 0x80] = Ok (9, 4%nat).
Proof.
  destruct (trees [script]) as [ts| |] eqn:E; [|vm_compute in E; discriminate E..]. exists ts.
  split; [constructor; [apply same_faithful; intros n Hn; split; [change (2 ^ 31) with 2147483648 in Hn; change (2 ^ 32) with 4294967296; lia|reflexivity]|constructor; [exact numbered_faithful|constructor]]|].
  assert (D : match trees [script] with Ok ts => distinct_all_b crc64 ts && (length ts <=? 250)%nat && negb (match ts with [] => true | _ => false end) | _ => false end = true) by (vm_compute; reflexivity).
  rewrite E in D. apply andb_true_iff in D as [D D3]. apply andb_true_iff in D as [D1 D2]. split; [destruct ts; [discriminate D3|discriminate]|]. split; [exact (script_hold ts E)|].
  split; [exact (distinct_all_b_ok crc64 ts D1)|]. split; [apply Nat.leb_le; exact D2|].
  assert (X : match trees [script] with
    | Ok ts => let g := Gen_c crc64 both ts in
      (handles both (gc_stored g) <=? 0xF0000000, gc_lay g, gc_stored g, told both (gc_stored g),
       match nth_error (gc_handles g) 0 with
       | Some h => match newTrie (gc_values g) (gc_index g) h with
         | Ok tr => Some (lookup_c both g tr [0xD0; 0x81], lookup_c both g tr [0xD5; 0x81; 0x41], lookup_c both g tr [0xF0; 0x9F; 0x98; 0x80]) | _ => None end
       | None => None end)
    | _ => (false, [], [], 0, None) end
    = (true, [(0, 2); (2, 4); (4, 6)], [[repeat 1 64]; [2 :: repeat 0 63; 9 :: repeat 0 63]], 121, Some (Ok (1, 2%nat), Ok (3, 2%nat), Ok (9, 4%nat)))) by (vm_compute; reflexivity).
  rewrite E in X. cbv zeta in X. cbv zeta. set (g := Gen_c crc64 both ts) in *. destruct (nth_error (gc_handles g) 0) as [h|] eqn:Eh; [|discriminate X]. destruct (newTrie (gc_values g) (gc_index g) h) as [tr| |] eqn:Et; try discriminate X.
  apply pair_equal_spec in X as [X X5]. apply pair_equal_spec in X as [X X4]. apply pair_equal_spec in X as [X X3]. apply pair_equal_spec in X as [X1 X2].
  split; [apply N.leb_le; exact X1|]. split; [exact X2|]. split; [exact X3|]. split; [exact X4|]. exists h, tr. split; [reflexivity|]. split; [exact Et|]. injection X5 as Y1 Y2 Y3. repeat split; assumption.
Qed.

Print Assumptions C83_lookup.
Print Assumptions C83_types.
Print Assumptions C83_size.
Print Assumptions C83_choice.
Print Assumptions C83_none.
Print Assumptions C83_offsets_refuted.
Print Assumptions C83_case.
