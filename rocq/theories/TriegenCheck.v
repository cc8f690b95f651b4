(** Running the generator on the trie that a package's committed tables describe. *)
From Verif Require Import Base Trie SpecUtf8 SpecTriegen Triegen SpecTrieHash TriegenFacts TriegenIns TriegenBuild TriegenSize TriegenLookup TriegenExt TriegenDag TriegenRun Crc64.
Local Open Scope N_scope.

(** * The blocks of a table *)
Definition blockof (a : arr) (k : N) : list N := map (fun j => tget (N.succ_pos (k * 64 + j)) (arr_tree a)) (run 0 64).
Lemma run_len : forall n lo, length (run lo n) = n.
Proof. induction n as [|n IH]; intros lo; [reflexivity|]. cbn [run length]. rewrite IH. reflexivity. Qed.
Lemma blockof_len : forall a k, length (blockof a k) = 64%nat.
Proof. intros a k. unfold blockof. rewrite map_length. apply run_len. Qed.

(** Printing blocks, counting in binary. *)
Fixpoint pblock (k : N) (block : list N) : list (N * N) := match block with [] => [] | v :: r => if v =? 0 then pblock (k + 1) r else (k, v) :: pblock (k + 1) r end.
Fixpoint pblocks (k : N) (blocks : list (list N)) : list (N * N) := match blocks with [] => [] | b :: r => pblock k b ++ pblocks (k + 64) r end.
Lemma pblock_ok : forall n block i, filter (fun e => negb (snd e =? 0)) (combine (map (fun i => N.of_nat (n * blockSize + i)) (seq i (length block))) block) = pblock (N.of_nat (n * blockSize + i)) block.
Proof.
  intros n. induction block as [|v r IH]; intros i; [reflexivity|]. cbn [length seq map combine filter snd pblock]. rewrite IH. replace (N.of_nat (n * blockSize + S i)) with (N.of_nat (n * blockSize + i) + 1) by lia.
  destruct (v =? 0); reflexivity.
Qed.
Lemma pblocks_ok : forall blocks, print_blocks blocks = pblocks 0 blocks.
Proof.
  intros blocks. unfold print_blocks. assert (G : forall n, concat (map (fun e => print_block (fst e) (snd e)) (combine (seq n (length blocks)) blocks)) = pblocks (N.of_nat (n * blockSize)) blocks); [|exact (G 0%nat)].
  induction blocks as [|b r IH]; intros n; [reflexivity|]. cbn [length seq combine map concat fst snd pblocks]. rewrite IH. unfold print_block. rewrite pblock_ok. rewrite Nat.add_0_r. do 2 f_equal. unfold blockSize. lia.
Qed.

(** Distinct numbers: a map from each back to its position. *)
Definition back (l : list (N * N)) : tree := fold_left (fun t e => tset (N.succ_pos (fst e)) (snd e) t) l Lf.
Definition told_apart (f : N -> N) (l : list N) : bool :=
  let hs := map (fun v => (f v, v)) l in let t := back hs in forallb (fun e => (tget (N.succ_pos (fst e)) t =? snd e) && negb (fst e =? 0)) hs.
Lemma told_apart_ok : forall f l, told_apart f l = true -> (forall v v', In v l -> In v' l -> f v = f v' -> v = v') /\ forall v, In v l -> f v <> 0.
Proof.
  intros f l E. unfold told_apart in E. cbv zeta in E. set (t := back _) in E. clearbody t. rewrite forallb_forall in E.
  assert (G : forall v, In v l -> tget (N.succ_pos (f v)) t = v /\ f v <> 0).
  { intros v I. specialize (E (f v, v) (in_map (fun v => (f v, v)) l v I)). cbn [fst snd] in E. apply andb_true_iff in E as [E1 E2]. apply N.eqb_eq in E1. apply negb_true_iff, N.eqb_neq in E2. split; assumption. }
  split; [|intros v I; exact (proj2 (G v I))]. intros v v' I I' Q. rewrite <- (proj1 (G v I)), <- (proj1 (G v' I')), Q. reflexivity.
Qed.

(** * The check for one package: [nv] value blocks after the first three, [ni] index blocks after the first four. *)
Definition rows (index : arr) (root : list N) (ni : nat) : list (nat * list N) :=
  map (fun i => (if existsb (N.eqb i) (skipn 48 root) then 2%nat else 1%nat, blockof index (i + 2))) (run 2 ni).
Definition nonzero (l : list N) : bool := existsb (fun v => negb (v =? 0)) l.
Definition check_blocks (ascii : list N) (VB : list (list N)) (IB : list (nat * list N)) (root : list N) (values index : arr) (size checksum : N) : bool :=
  let HV := map crc64 VB in let H1 := level1 crc64 IB HV in let H2 := level2 crc64 IB H1 in
  let M0 := map mx VB in let M1 := level1 mx IB M0 in
  let h := hash HV H1 H2 in
  told_apart (h 0%nat) (run 1 (length VB)) && told_apart (fun i => h (ilev IB i) i) (run 2 (length IB))
  && match visit_root VB IB 0 root (1, 2) with Some st => (fst st =? N.of_nat (length VB) + 1) && (snd st =? N.of_nat (length IB) + 2) | None => false end
  && forallb nonzero VB && forallb (fun e => nonzero (snd e)) IB && forallb (fun q => negb (nonzero [nth q root 0])) ([0; 1] ++ seq 56 8)%nat
  && (let vs := zero3 ascii ++ VB in let is := [[]; []; []; root] ++ map snd IB in
      arr_eqb (arr_of (N.of_nat (length vs * 64)) (pblocks 0 vs)) values && arr_eqb (arr_of (N.of_nat (length is * 64)) (pblocks 0 is)) index
      && (N.of_nat (length is * 64) * intSize (N.max (N.of_nat (length VB) + 1) (N.of_nat (length is - 1 - 2)))
          + N.of_nat (length vs * 64) * intSize (N.max (mx (rmax (hash M0 M1 (level2 mx IB M1)) 0 root)) (mx ascii)) =? size))
  && (crc64 (rmax h 0 root ++ ascii) =? checksum).
Definition check (values index : arr) (nv ni : nat) (size checksum : N) : bool :=
  let root := blockof index 3 in
  check_blocks (blockof values 0 ++ blockof values 1) (map (blockof values) (run 3 nv)) (rows index root ni) root values index size checksum.

Lemma nonzero_ok : forall l, nonzero l = true -> exists i, nth i l 0 <> 0.
Proof.
  intros l E. apply existsb_exists in E as (v & I & E). apply negb_true_iff, N.eqb_neq in E. apply (In_nth l v 0) in I as (i & _ & <-). exists i. exact E.
Qed.

Lemma check_blocks_ok : forall ascii VB IB root values index size checksum, length ascii = 128%nat -> length root = 64%nat ->
  Forall (fun b => length b = 64%nat) VB -> Forall (fun e => length (snd e) = 64%nat) IB ->
  check_blocks ascii VB IB root values index size checksum = true ->
  exists t, full_root t /\ distinct crc64 t /\ Gen crc64 t = {| g_values := values; g_index := index; g_size := size; g_checksum := checksum |}.
Proof.
  intros ascii VB IB root values index size checksum La Lr LV LI R. unfold check_blocks in R. cbv zeta in R.
  apply andb_true_iff in R as [R R8]. apply andb_true_iff in R as [R R7]. apply andb_true_iff in R as [R R6]. apply andb_true_iff in R as [R R5]. apply andb_true_iff in R as [R R4]. apply andb_true_iff in R as [R R3].
  apply andb_true_iff in R as [R1 R2]. apply told_apart_ok in R1 as [V1 V2]. apply told_apart_ok in R2 as [I1 I2].
  destruct (visit_root VB IB 0 root (1, 2)) as [[nv ni]|] eqn:O; [|discriminate R3]. cbn [fst snd] in R3. apply andb_true_iff in R3 as [R3 R3']. apply N.eqb_eq in R3, R3'. subst nv ni.
  apply andb_true_iff in R7 as [R7 R73]. apply andb_true_iff in R7 as [R71 R72]. apply arr_eqb_ok in R71. apply arr_eqb_ok in R72. apply N.eqb_eq in R73. apply N.eqb_eq in R8.
  assert (A1 : forall v v', 1 <= v <= N.of_nat (length VB) -> 1 <= v' <= N.of_nat (length VB) -> hash (HV crc64 VB) (level1 crc64 IB (HV crc64 VB)) (level2 crc64 IB (level1 crc64 IB (HV crc64 VB))) 0 v = hash (HV crc64 VB) (level1 crc64 IB (HV crc64 VB)) (level2 crc64 IB (level1 crc64 IB (HV crc64 VB))) 0 v' -> v = v')
    by (intros v v' B B'; apply V1; apply in_run; lia).
  assert (A2 : forall v, 1 <= v <= N.of_nat (length VB) -> hash (HV crc64 VB) (level1 crc64 IB (HV crc64 VB)) (level2 crc64 IB (level1 crc64 IB (HV crc64 VB))) 0 v <> 0)
    by (intros v B; apply V2; apply in_run; lia).
  assert (A3 : forall i i', 2 <= i <= N.of_nat (length IB) + 1 -> 2 <= i' <= N.of_nat (length IB) + 1 -> hidx crc64 VB IB i = hidx crc64 VB IB i' -> i = i')
    by (intros i i' B B'; apply I1; apply in_run; lia).
  assert (A4 : forall i, 2 <= i <= N.of_nat (length IB) + 1 -> hidx crc64 VB IB i <> 0) by (intros i B; apply I2; apply in_run; lia).
  assert (A5 : Forall (fun b => exists i, nth i b 0 <> 0) VB) by (rewrite Forall_forall; rewrite forallb_forall in R4; intros b I; apply nonzero_ok; apply R4; exact I).
  assert (A6 : Forall (fun e => exists i, nth i (snd e) 0 <> 0) IB) by (rewrite Forall_forall; rewrite forallb_forall in R5; intros b I; apply nonzero_ok; apply R5; exact I).
  assert (A7 : forall q, nth q root 0 <> 0 -> (2 <= q < 56)%nat).
  { intros q Hq. destruct (Nat.lt_ge_cases q 64) as [Q|Q]; [|rewrite nth_overflow in Hq by lia; contradiction Hq; reflexivity]. rewrite forallb_forall in R6.
    assert (G : In q ([0; 1] ++ seq 56 8)%nat -> False).
    { intros I. specialize (R6 q I). cbn [nonzero existsb] in R6. rewrite orb_false_r, negb_involutive in R6. apply N.eqb_eq in R6. contradiction. }
    assert (~ (q = 0 \/ q = 1 \/ 56 <= q)%nat); [|lia]. intros W. apply G. apply in_or_app. destruct W as [->|[->|W]]; [left; left; reflexivity|left; right; left; reflexivity|right; apply in_seq; lia]. }
  exists (T ascii VB IB root). split; [|split].
  - exact (full_T crc64 ascii VB IB root LV LI A1 A2 A3 A4 Lr La O A5 A6 A7).
  - exact (distinct_T crc64 ascii VB IB root LV LI A1 A2 A3 A4 Lr La O).
  - rewrite (Gen_T crc64 ascii VB IB root LV LI A1 A2 A3 A4 Lr La O). unfold HV. rewrite !pblocks_ok, R71, R72, R73, R8. reflexivity.
Qed.

Lemma check_ok : forall values index nv ni size checksum, check values index nv ni size checksum = true ->
  exists t, full_root t /\ distinct crc64 t /\ Gen crc64 t = {| g_values := values; g_index := index; g_size := size; g_checksum := checksum |}.
Proof.
  intros values index nv ni size checksum R. unfold check in R. cbv zeta in R. eapply check_blocks_ok; [| | | |exact R].
  - rewrite app_length, !blockof_len. reflexivity.
  - apply blockof_len.
  - rewrite Forall_forall. intros b I. apply in_map_iff in I as (k & <- & _). apply blockof_len.
  - rewrite Forall_forall. intros b I. apply in_map_iff in I as (k & <- & _). apply blockof_len.
Qed.

(** What the tables say about a trie. *)
Lemma Gen_get : forall H t s rest, wf_root t -> distinct H t -> shaped s -> exists w, lookup (g_values (Gen H t)) (g_index (Gen H t)) (s ++ rest) = Ok (get t s, w).
Proof.
  intros H t s rest Wt D Sh. pose proof (root_ok H t Wt D) as R. pose proof (root_size H t Wt) as S. unfold Gen. destruct (buildTrie H t) as [h b]. cbn [g_values g_index].
  destruct R as (_ & row & Sr & Lr & Cr & I3 & V0 & V1 & V2). destruct S as [Sm Cn]. assert (Hd : s ++ rest <> []) by (destruct s; [destruct Sh|discriminate]).
  assert (Cn' : count b <= 0x4000000) by (apply N.le_trans with 266311; [exact Cn|discriminate]).
  destruct (lookup_answer t b row 0 0 Wt Sr Lr Cr I3 V0 V1 V2 Sm Cn' (s ++ rest) Hd) as (v & w & L & An). exists w. destruct An as [(s' & r & Ss & Es & -> & _)|[_ N]].
  - rewrite (shaped_prefix s' s r rest Ss Sh (eq_sym Es)) in L. exact L.
  - exfalso. exact (N s rest Sh eq_refl).
Qed.

Lemma reproduces_ok : forall property values index nv ni size checksum, check values index nv ni size checksum = true ->
  (forall cp rest, scalar cp -> lookup values index (utf8 cp ++ rest) = Ok (property cp, length (utf8 cp))) ->
  (forall d v w, lookup values index d = Ok (v, w) -> v <> 0 -> exists cp rest, scalar cp /\ d = utf8 cp ++ rest /\ w = length (utf8 cp)) ->
  forall l, assignable l -> (forall cp, scalar cp -> assigned l cp = property cp) ->
  exists t, inserts NewTrie l = Ok t /\ distinct crc64 t /\ Gen crc64 t = {| g_values := values; g_index := index; g_size := size; g_checksum := checksum |}.
Proof.
  intros property values index nv ni size checksum R L O l A E. destruct (check_ok _ _ _ _ _ _ R) as (t & F & D & G). clear R.
  destruct (inserts_get l NewTrie wf_new A) as (t' & E' & W' & G' & O'). pose proof (inserts_full l NewTrie t' full_new A E') as F'.
  assert (Q : t = t').
  { apply root_ext; [exact F|exact F'|]. intros s Sh. destruct (Gen_get crc64 t s [] (proj1 F) D Sh) as (w & Lk). rewrite G in Lk. cbn [g_values g_index] in Lk.
    assert (Gc : forall cp, scalar cp -> get t' (utf8 cp) = property cp).
    { intros cp Sc. rewrite (G' cp Sc), get_new, (E cp Sc). destruct (N.eqb_spec (property cp) 0) as [Z|Z]; cbn [negb]; congruence. }
    destruct (N.eq_dec (get t s) 0) as [Z|Z].
    - destruct (N.eq_dec (get t' s) 0) as [Z'|Z']; [congruence|]. destruct (O' s Sh Z') as [(cp & Sc & ->)|B]; [|contradiction B; apply get_new].
      rewrite (L cp [] Sc) in Lk. rewrite (Gc cp Sc). congruence.
    - destruct (O _ _ _ Lk Z) as (cp & rest & Sc & Es & _). pose proof (shaped_prefix s (utf8 cp) [] rest Sh (utf8_shaped cp Sc) Es) as ->. rewrite (L cp [] Sc) in Lk. rewrite (Gc cp Sc). congruence. }
  subst t'. exists t. split; [exact E'|]. split; [exact D|exact G].
Qed.
