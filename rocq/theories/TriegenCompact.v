(** Model of internal/gen/triegen with the option Compact (triegen.go:125-160): Compacters that store blocks of values in their own way
    (compact.go:12-35), the choice between them (triegen.go:473-490), and the lookupValue that is printed for them (print.go:137-144).
    Nothing in the repository passes the option; TriegenMany.v is the case without it (C82).
    Simplifications: a Compacter is deterministic and Size has no effect, so what it answers is a function of the blocks it has been given;
    the function it names does not panic and does not depend on anything but what was stored. *)
From Verif Require Import Base Trie Triegen TriegenMany.
Local Open Scope N_scope.

(** compact.go:12-35 Compacter: what its methods answer after it has stored some blocks (in that order), and what the function named by
    Handler returns once everything is stored. *)
Record compacter := {
  c_size : list (list N) -> list N -> option N;
  c_store : list (list N) -> list N -> N;
  c_handler : list (list N) -> N -> N -> N
}.

(** triegen.go:125-132 nodeIndex: the compaction (0 is the simple one) and the index in it. *)
Definition nodeIndex : Type := (nat * N)%type.

(** triegen.go:134-144 compaction, of the options: what it has stored, maxHandle and totalSize. *)
Record compaction := { k_stored : list (list N); k_max : N; k_total : N }.

(** triegen.go:77-118 builder.  A row of IndexBlocks holds the indexes of the children, and (0, 0) where there is none: printIndex prints
    nothing for either.  c_max is maxHandle of the first compaction, whose totalSize is not read (triegen.go:304-309). *)
Record cbuilder := {
  c_index : list (list nodeIndex);
  c_values : list (list N);
  c_iidx : list (N * N);
  c_vidx : list (N * nodeIndex);
  c_max : N;
  c_more : list compaction
}.

(** m[h] of a Go map. *)
Fixpoint cfind (h : N) (m : list (N * nodeIndex)) : option nodeIndex :=
  match m with
  | [] => None
  | (k, v) :: r => if k =? h then Some v else cfind h r
  end.

Section Gen.
  Variable H : list N -> N.
  (** The Compacters of the options, in order. *)
  Variable cs : list compacter.

  (** triegen.go:474-479: the first that needs the fewest bytes, fewer than a plain block does. *)
  Fixpoint choose (best : nat * N) (i : nat) (cs : list compacter) (ks : list compaction) (vs : list N) : nat * N :=
    match cs, ks with
    | c :: cs', k :: ks' =>
      let best' := match c_size c (k_stored k) vs with
                   | Some sz => if sz <? snd best then (i, sz) else best
                   | None => best
                   end in
      choose best' (S i) cs' ks' vs
    | _, _ => best
    end.

  (** triegen.go:480-485, for a Compacter of the options: Store, maxHandle and totalSize. *)
  Fixpoint store_in (j : nat) (sz : N) (vs : list N) (cs : list compacter) (ks : list compaction) : N * list compaction :=
    match cs, ks, j with
    | c :: _, k :: ks', O =>
      let v := c_store c (k_stored k) vs in
      (v, {| k_stored := k_stored k ++ [vs]; k_max := N.max (k_max k) v; k_total := k_total k + sz |} :: ks')
    | _ :: cs', k :: ks', S j' => let '(v, r) := store_in j' sz vs cs' ks' in (v, k :: r)
    | _, _, _ => (0, ks)
    end.

  (** triegen.go:474-487: a block of values that is new.  [vsize] is ValueSize; compact.go:45-49 is Store of the simple one. *)
  Definition store_leaf (vsize : N) (hash : N) (vs : list N) (b : cbuilder) : nodeIndex * cbuilder :=
    match choose (0%nat, N.of_nat blockSize * vsize) 1 cs (c_more b) vs with
    | (O, _) =>
      let v := N.of_nat (length (c_values b) - blockOffset) in
      ((0%nat, v), {| c_index := c_index b; c_values := c_values b ++ [vs]; c_iidx := c_iidx b; c_vidx := (hash, (0%nat, v)) :: c_vidx b;
                      c_max := N.max (c_max b) v; c_more := c_more b |})
    | (S j, sz) =>
      let '(v, ks) := store_in j sz vs cs (c_more b) in
      ((S j, v), {| c_index := c_index b; c_values := c_values b; c_iidx := c_iidx b; c_vidx := (hash, (S j, v)) :: c_vidx b;
                    c_max := c_max b; c_more := ks |})
    end.

  (** triegen.go:435-493 computeOffsets: the hash, the index of the node and the builder afterwards. *)
  Fixpoint computeOffsets_c (vsize : N) (n : node) (b : cbuilder) {struct n} : N * nodeIndex * cbuilder :=
    match n with Node ch vs =>
      let first := Nat.eqb (length (c_index b)) rootBlockOffset in
      let b0 := if first then {| c_index := c_index b ++ [[]]; c_values := c_values b; c_iidx := c_iidx b; c_vidx := c_vidx b; c_max := c_max b; c_more := c_more b |} else b in
      let '(hs, row, b1) :=
        (fix go (l : list (option node)) (b : cbuilder) : list N * list nodeIndex * cbuilder :=
           match l with
           | [] => ([], [], b)
           | None :: r => let '(hs, row, b') := go r b in (0 :: hs, (0%nat, 0) :: row, b')
           | Some c :: r =>
             let '(h, i, b') := computeOffsets_c vsize c b in
             let '(hs, row, b'') := go r b' in (h :: hs, i :: row, b'')
           end) ch b0 in
      let hash := if is_nil ch && is_nil vs then 0 else H (hs ++ vs) in
      (* the row of the first block can be filled in now *)
      let b2 := if first then {| c_index := firstn rootBlockOffset (c_index b1) ++ row :: skipn (S rootBlockOffset) (c_index b1); c_values := c_values b1;
                                 c_iidx := (hash, N.of_nat (rootBlockOffset - blockOffset)) :: c_iidx b1; c_vidx := c_vidx b1; c_max := c_max b1; c_more := c_more b1 |} else b1 in
      if negb (is_nil ch) then
        match find hash (c_iidx b2) with
        | Some v => (hash, (0%nat, v), b2)
        | None =>
          let v := N.of_nat (length (c_index b2) - blockOffset) in
          (hash, (0%nat, v), {| c_index := c_index b2 ++ [row]; c_values := c_values b2; c_iidx := (hash, v) :: c_iidx b2; c_vidx := c_vidx b2; c_max := c_max b2; c_more := c_more b2 |})
        end
      else
        match cfind hash (c_vidx b2) with
        | Some i => (hash, i, b2)
        | None => let '(i, b3) := store_leaf vsize hash vs b2 in (hash, i, b3)
        end
    end.

  (** triegen.go:77-118 builder, with asciiBlockIdx, and triegen.go:169-185 the builder Gen starts with, after the options (triegen.go:152-160). *)
  Record cshared := { cs_builder : cbuilder; cs_ascii : list (N * N) }.
  Definition cshared0 : cshared :=
    {| cs_builder := {| c_index := [[]; []; []]; c_values := []; c_iidx := [(0, 0)]; c_vidx := [(0, (0%nat, 0))]; c_max := 0;
                        c_more := map (fun _ => {| k_stored := []; k_max := 0; k_total := 0 |}) cs |};
       cs_ascii := [] |}.

  (** triegen.go:405-426: the ASCII blocks, as in TriegenMany.v. *)
  Definition place_ascii_c (t : node) (s : cshared) : N * cshared :=
    let hash := H (values t) in
    match find hash (cs_ascii s) with
    | Some v => (v, s)
    | None =>
      let b := cs_builder s in
      let n := length (c_values b) in
      let v := N.of_nat n in
      (v, {| cs_builder := {| c_index := c_index b;
                              c_values := (c_values b ++ [firstn blockSize (values t); skipn blockSize (values t)]) ++ (if Nat.eqb n 0 then [repeat 0 blockSize] else []);
                              c_iidx := c_iidx b; c_vidx := c_vidx b; c_max := c_max b; c_more := c_more b |};
             cs_ascii := (hash, v) :: cs_ascii s |})
    end.

  (** triegen.go:401-433 buildTrie, and triegen.go:337-339 the loop over the tries. *)
  Definition buildTrie_c (vsize : N) (t : node) (s : cshared) : handle * cshared :=
    let '(v, s1) := place_ascii_c t s in
    let '(h, i, b) := computeOffsets_c vsize t (cs_builder s1) in
    ({| h_ascii := v; h_starter := snd i - N.of_nat (rootBlockOffset - blockOffset); h_checksum := h |}, {| cs_builder := b; cs_ascii := cs_ascii s1 |}).
  Fixpoint build_tries_c (vsize : N) (ts : list node) (s : cshared) : list handle * cshared :=
    match ts with
    | [] => ([], s)
    | t :: r => let '(h, s1) := buildTrie_c vsize t s in let '(hs, s2) := build_tries_c vsize r s1 in (h :: hs, s2)
    end.

  (** triegen.go:341-348: Offset and Cutoff of the compactions, from their maxHandle.  The sums are uint32. *)
  Fixpoint layout (offset : N) (l : list N) : list (N * N) :=
    match l with
    | [] => []
    | m :: r => let c := u32 (offset + u32 (m + 1)) in (offset, c) :: layout c r
    end.
  Definition maxes (b : cbuilder) : list N := c_max b :: map k_max (c_more b).
  Definition lay (b : cbuilder) : list (N * N) := layout 0 (maxes b).

  (** print.go:86: the number printIndex prints for a child (a uint32). *)
  Definition entry (l : list (N * N)) (i : nodeIndex) : N := u32 (fst (nth (fst i) l (0, 0)) + u32 (snd i)).
  (** print.go:146-156: the two arrays. *)
  Definition rows (b : cbuilder) : list (list N) := map (map (entry (lay b))) (c_index b).
  Definition ctables (b : cbuilder) : arr * arr :=
    (arr_of (N.of_nat (length (c_values b) * blockSize)) (print_blocks (c_values b)),
     arr_of (N.of_nat (length (rows b) * blockSize)) (print_blocks (rows b))).

  (** triegen.go:350-359 the width of the index type: the Cutoff of the last compaction, and the indexes of the blocks. *)
  Definition cindex_size (b : cbuilder) : N := intSize (N.max (snd (last (lay b) (0, 0))) (N.of_nat (length (c_index b) - 1 - blockOffset))).
  (** triegen.go:297-322 Size. *)
  Definition Size_c (ts : list node) (b : cbuilder) : N :=
    N.of_nat (length (c_index b) * blockSize) * cindex_size b + N.of_nat (length (c_values b) * blockSize) * value_size ts
    + fold_left (fun s k => s + k_total k) (c_more b) 0
    + (if (1 <? length ts)%nat then 2 * cindex_size b * N.of_nat (length ts) else 0).

  (** triegen.go:163-200 Gen with options: the arrays, the Offset and Cutoff of each compaction, what each Compacter has stored, and the
      rest as in TriegenMany.v. *)
  Record generated_c := { gc_values : arr; gc_index : arr; gc_lay : list (N * N); gc_stored : list (list (list N)); gc_handles : list handle;
                          gc_vsize : N; gc_isize : N; gc_size : N; gc_checksum : N }.
  Definition Gen_c (ts : list node) : generated_c :=
    let '(hs, s) := build_tries_c (value_size ts) ts cshared0 in
    let b := cs_builder s in
    {| gc_values := fst (ctables b); gc_index := snd (ctables b); gc_lay := lay b; gc_stored := map k_stored (c_more b); gc_handles := hs;
       gc_vsize := value_size ts; gc_isize := cindex_size b; gc_size := Size_c ts b;
       gc_checksum := fold_left (fun c h => (c + h_checksum h) mod 2 ^ 64) hs 0 |}.

  (** print.go:139-143 the switch of lookupValue: the case that is taken, and n in it.  Subtracting the Offset of a case never goes below
      zero, as n is not below the Cutoff of the one before. *)
  Fixpoint switch (k : nat) (n : N) (l : list (N * N)) : nat * N :=
    match l with
    | [] => (k, n)
    | (off, cut) :: r =>
      let inside := (k, match k with O => n | S _ => n - off end) in
      match r with [] => inside | _ :: _ => if n <? cut then inside else switch (S k) n r end
    end.

  (** print.go:137-144 lookupValue.  The result is converted to the type of the values. *)
  Definition lookupValue_c (g : generated_c) (n c : N) : res N :=
    match switch 0 n (gc_lay g) with
    | (O, n') => lookupValue (gc_values g) n' c
    | (S j, n') => match nth_error cs j, nth_error (gc_stored g) j with
                   | Some k, Some st => Ok (c_handler k st n' c mod 2 ^ (8 * gc_vsize g))
                   | _, _ => Panic
                   end
    end.
  Definition lookup_c (g : generated_c) (t : trie) (s : bytes) : res (N * nat) := lookup_with (lookupValue_c g) t s.
End Gen.
