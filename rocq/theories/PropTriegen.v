(** C44, C45: the generator of the lookup tables (internal/gen/triegen and internal/gen/main.go). *)
From Verif Require Import Base Trie Triegen SpecUtf8 SpecTriegen SpecTrieHash SpecGenerate GenMain Crc64.
From Verif Require Import TriegenFacts TriegenIns TriegenBuild TriegenSize TriegenTables TriegenLookup TriegenExt TriegenRun GenFacts.
From Coq Require Import Permutation.
Local Open Scope N_scope.

(** C44: the tables printed for any assignment make the generated lookup answer the assignment, for every input, whatever hash is used to
    share blocks, provided it does not confuse two blocks of this trie. *)
Theorem C44_lookup : forall H l t, assignable l -> inserts NewTrie l = Ok t -> distinct H t ->
  looks_up Ok (lookup (g_values (Gen H t)) (g_index (Gen H t))) l.
Proof. exact Gen_looks_up. Qed.

(** Insertion succeeds on every assignment of values to scalar values, and panics on any other. *)
Theorem C44_insert : forall l, (assignable l -> exists t, inserts NewTrie l = Ok t) /\ (~ assignable l -> inserts NewTrie l = Panic).
Proof.
  intros l. split.
  - intros A. destruct (inserts_get l NewTrie wf_new A) as (t & E & _). exists t. exact E.
  - apply not_assignable_panics. exact wf_new.
Qed.

(** The trie depends only on the values assigned, not on the order or the repetition of the insertions. *)
Theorem C44_order : forall l l', assignable l -> assignable l' -> (forall cp, scalar cp -> assigned l cp = assigned l' cp) -> inserts NewTrie l = inserts NewTrie l'.
Proof. exact inserts_ext. Qed.

(** The proviso about the hash is needed: CRC-64 confuses the two blocks of this assignment, and U+00C0, assigned 3, is looked up as 2. *)
Definition colliding : list (N * N) := [(0x80, 2); (0x81, 1); (0xC0, 3); (0xC1, 0xB000)].
Theorem C44_unconditional_refuted : exists l t, assignable l /\ inserts NewTrie l = Ok t /\ ~ looks_up Ok (lookup (g_values (Gen crc64 t)) (g_index (Gen crc64 t))) l.
Proof.
  exists colliding. destruct (inserts NewTrie colliding) as [t| |] eqn:E; [|vm_compute in E; discriminate E..].
  exists t. assert (A : assignable colliding) by (unfold assignable, colliding; repeat (apply Forall_cons; [intros _; left; reflexivity|]); apply Forall_nil).
  split; [exact A|]. split; [reflexivity|]. intros L. destruct (L [0xC3; 0x80]) as (v & w & El & Hv & _); [discriminate|].
  destruct (Hv 0xC0 []) as [-> _]; [left; reflexivity|reflexivity|].
  assert (El' : match inserts NewTrie colliding with Ok t => lookup (g_values (Gen crc64 t)) (g_index (Gen crc64 t)) [0xC3; 0x80] | _ => Panic end = Ok (assigned colliding 0xC0, w)) by (rewrite E; exact El).
  vm_compute in El'. discriminate El'.
Qed.

(** An assignment over all four lengths of sequences, with a value overwritten, whose blocks CRC-64 tells apart. *)
Definition sample : list (N * N) := [(0x41, 1); (0xE9, 2); (0x905, 4); (0x1F600, 8); (0x41, 16); (0x906, 4); (0xFFFF, 0)].
Example C44_case : assignable sample /\ exists t, inserts NewTrie sample = Ok t /\ distinct crc64 t
  /\ lookup (g_values (Gen crc64 t)) (g_index (Gen crc64 t)) [0xF0; 0x9F; 0x98; 0x80; 0x41] = Ok (8, 4%nat).
Proof.
  assert (A : assignable sample).
  { unfold assignable, sample. repeat (apply Forall_cons; [intros _; first [left; reflexivity|right; split; [discriminate|reflexivity]]|]). apply Forall_nil. }
  split; [exact A|]. destruct (proj1 (C44_insert sample) A) as (t & E). exists t. split; [exact E|].
  assert (B : match inserts NewTrie sample with Ok t => distinct_b crc64 t | _ => false end = true) by (vm_compute; reflexivity).
  rewrite E in B. split; [apply distinct_b_ok; exact B|].
  assert (L : match inserts NewTrie sample with Ok t => lookup (g_values (Gen crc64 t)) (g_index (Gen crc64 t)) [0xF0; 0x9F; 0x98; 0x80; 0x41] | _ => Panic end = Ok (8, 4%nat)) by (vm_compute; reflexivity).
  rewrite E in L. exact L.
Qed.
Example C44_surrogate : ~ assignable [(0xD800, 1)] /\ inserts NewTrie [(0xD800, 1)] = Panic.
Proof.
  assert (NA : ~ assignable [(0xD800, 1)]).
  { intros A. inversion A as [|? ? S _]. cbn [fst snd] in S. destruct S as [S|[S _]]; [discriminate|vm_compute in S; discriminate S|vm_compute in S; apply S; reflexivity]. }
  split; [exact NA|]. exact (proj2 (C44_insert _) NA).
Qed.

(** C45: whatever order Go visits its maps in, and in whatever order the properties come, the generator builds one and the same trie. *)
Theorem C45_deterministic : forall props props' r r', family props -> Permutation props props' -> generates props r -> generates props' r' -> r = r'.
Proof.
  intros props props' r r' F P G G'. destruct G as [v1 v2 P1 P2]. destruct G' as [v1' v2' P1' P2'].
  assert (F' : family props').
  { destruct F as (N & L & S). split; [exact (Permutation_NoDup (Permutation_map fst P) N)|]. split; [rewrite <- (Permutation_length P); exact L|].
    intros p rs I. apply (S p rs). exact (Permutation_in _ (Permutation_sym P) I). }
  destruct (generates_visit _ _ _ F P1 P2) as [A E]. destruct (generates_visit _ _ _ F' P1' P2') as [A' E'].
  unfold trie_of. apply inserts_ext; [exact A|exact A'|]. intros cp _. rewrite E, E'. unfold combined.
  assert (I : iotasByProperty props = iotasByProperty props').
  { unfold iotasByProperty. f_equal. apply sorted_unique; [apply sort_sorted; exact (proj1 F)|apply sort_sorted; exact (proj1 F')|].
    apply perm_trans with (map fst props); [apply Permutation_sym, sort_perm|]. apply perm_trans with (map fst props'); [apply Permutation_map; exact P|apply sort_perm]. }
  rewrite <- I. symmetry. exact (rget_visit props props' cp P).
Qed.

(** The generator does not panic; and the tables printed for its trie answer, for every code point, the word whose bit i says whether the
    property with i names before it contains the code point; the word fits the width of the generated type. *)
Theorem C45_tables : forall props r, family props -> generates props r -> exists t, r = Ok t /\
  forall H, distinct H t -> forall cp rest, scalar cp -> exists v,
    lookup (g_values (Gen H t)) (g_index (Gen H t)) (utf8 cp ++ rest) = Ok (v, length (utf8 cp)) /\ carries props cp v /\ v < 2 ^ property_width (length props).
Proof.
  intros props r F [v1 v2 P1 P2]. destruct (generates_visit _ _ _ F P1 P2) as [A E]. destruct (proj1 (C44_insert v2) A) as (t & Et). exists t. split; [exact Et|].
  intros H D cp rest Sc. exists (combined props cp). pose proof (combined_carries props cp F) as C.
  destruct (Gen_looks_up H v2 t A Et D (utf8 cp ++ rest)) as (v & w & El & Hv & _).
  { intros E0. apply app_eq_nil in E0 as [E0 _]. destruct (utf8 cp) eqn:U; [|discriminate]. revert U. unfold utf8. repeat match goal with |- context[if ?c then _ else _] => destruct c end; discriminate. }
  destruct (Hv cp rest Sc eq_refl) as [-> ->]. rewrite E in El. split; [exact El|]. split; [exact C|].
  destruct C as [_ C]. eapply N.lt_le_trans; [exact C|]. apply N.pow_le_mono_r; [discriminate|]. destruct F as (_ & L & _). unfold property_width.
  destruct (Nat.ltb_spec (length props) 8); [lia|]. destruct (Nat.ltb_spec (length props) 16); [lia|]. destruct (Nat.ltb_spec (length props) 32); lia.
Qed.

(** Three properties, two of which share U+0041, visited in two different orders. *)
Definition three : list (bytes * list N) := [([0x62], [0x41; 0x42]); ([0x61; 0x62], [0x41; 0x1F600]); ([0x61], [0xE9])].
Example C45_case : family three /\ generates three (inserts NewTrie [(0x41, 6); (0x42, 4); (0x1F600, 2); (0xE9, 1)])
  /\ generates three (inserts NewTrie [(0xE9, 1); (0x1F600, 2); (0x41, 6); (0x42, 4)]) /\ carries three 0x41 6.
Proof.
  assert (F : family three).
  { split; [repeat constructor; cbn [In map fst three]; intuition discriminate|]. split; [vm_compute; lia|]. intros p rs I. cbn [In three] in I.
    repeat match type of I with _ \/ _ => destruct I as [I|I] end; try contradiction; injection I as <- <-; repeat (apply Forall_cons; [first [left; reflexivity|right; split; [discriminate|reflexivity]]|]); apply Forall_nil. }
  split; [exact F|]. split; [|split].
  - apply (generates_intro three three [(0x41, 6); (0x42, 4); (0x1F600, 2); (0xE9, 1)]); [apply Permutation_refl|]. vm_compute. apply Permutation_refl.
  - apply (generates_intro three [([0x61], [0xE9]); ([0x61; 0x62], [0x41; 0x1F600]); ([0x62], [0x41; 0x42])] [(0xE9, 1); (0x1F600, 2); (0x41, 6); (0x42, 4)]).
    + exact (Permutation_rev three).
    + vm_compute. apply perm_skip. apply perm_swap.
  - exact (combined_carries three 0x41 F).
Qed.

Print Assumptions C44_lookup.
Print Assumptions C44_insert.
Print Assumptions C44_order.
Print Assumptions C44_unconditional_refuted.
Print Assumptions C45_deterministic.
Print Assumptions C45_tables.
