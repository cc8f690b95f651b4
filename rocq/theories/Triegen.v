(** Model of internal/gen/triegen (triegen.go, compact.go, print.go): the generator of the tables in <pkg>/trie.go, as it is used by
    internal/gen/main.go: one trie, no options, so the only compacter is simpleCompacter (index 0, offset 0).
    Simplifications: a nil slice is the empty list; a pointer to a node that is stored in IndexBlocks before its children have their
    indexes is modelled by a row that is filled in afterwards; the text that is printed is modelled by the two arrays it declares.
    The hash is a parameter (it is CRC-64 in the code, see Crc64.v). *)
From Verif Require Import Base Trie SpecUtf8.
Local Open Scope N_scope.

(** triegen.go:389-397 blockSize, blockOffset, rootBlockOffset. *)
Definition blockSize : nat := 64.
Definition blockOffset : nat := 2.
Definition rootBlockOffset : nat := 3.

(** triegen.go:237-250 node, without the index field, which computeOffsets returns. *)
Inductive node := Node (children : list (option node)) (values : list N).
Definition children (n : node) : list (option node) := let (c, _) := n in c.
Definition values (n : node) : list N := let (_, v) := n in v.

(** triegen.go:219-228 NewTrie. *)
Definition NewTrie : node := Node (repeat None blockSize) (repeat 0 128).

(** s[i] = x, checked. *)
Fixpoint list_set {A : Type} (l : list A) (i : nat) (x : A) : res (list A) :=
  match l, i with
  | [], _ => Panic
  | _ :: r, O => Ok (x :: r)
  | y :: r, S j => r' <- list_set r j x ;; Ok (y :: r')
  end.

(** triegen.go:272-295: the loop of Insert below the root, from node [n] with the bytes [s] still to go.  log.Fatalf is Panic. *)
Fixpoint insert_at (s : bytes) (value : N) (n : node) : res node :=
  match s with
  | [] => Panic
  | [b] =>
    let vs := if is_nil (values n) then repeat 0 blockSize else values n in
    if negb (is_nil (children n)) then Panic
    else if b <? 0x80 then Panic
    else vs' <- list_set vs (N.to_nat (b - 0x80)) value ;; Ok (Node (children n) vs')
  | b :: rest =>
    let ch := if is_nil (children n) then repeat None blockSize else children n in
    let p := N.to_nat (b mod 64) in
    match nth_error ch p with
    | None => Panic
    | Some oc =>
      let c := match oc with None => Node [] [] | Some c => c end in
      if (2 <? length s)%nat && negb (is_nil (values c)) then Panic
      else c' <- insert_at rest value c ;; ch' <- list_set ch p (Some c') ;; Ok (Node ch' (values n))
    end
  end.

(** triegen.go:258-259: the test []rune(string(r))[0] == r: the rune is a scalar value. *)
Definition valid_rune (r : N) : bool := (r <? 0xD800) || ((0xE000 <=? r) && (r <? 0x110000)).

(** triegen.go:252-295 Insert. *)
Definition Insert (t : node) (r : N) (value : N) : res node :=
  if value =? 0 then Ok t
  else if negb (valid_rune r) then Panic
  else
    let s := utf8 r in
    if Nat.eqb (length s) 1 then
      b <- byte_at s 0 ;;
      vs <- list_set (values t) (N.to_nat b) value ;; Ok (Node (children t) vs)
    else insert_at s value t.

(** A sequence of calls of Insert on a new trie, as main.go:203-207 makes it. *)
Fixpoint inserts (t : node) (l : list (N * N)) : res node :=
  match l with
  | [] => Ok t
  | (r, v) :: rest => t' <- Insert t r v ;; inserts t' rest
  end.

(** triegen.go:77-118 builder: the tables and the two maps from hashes to block numbers (the map from hashes of ASCII blocks only
    matters with several tries), and maxHandle of the only compaction.  A row of IndexBlocks holds what printIndex prints for it. *)
Record builder := {
  b_index : list (list N);       (* IndexBlocks *)
  b_values : list (list N);      (* ValueBlocks *)
  b_iidx : list (N * N);         (* indexBlockIdx *)
  b_vidx : list (N * N);         (* valueBlockIdx *)
  b_maxHandle : N
}.

(** m[h] of a Go map. *)
Fixpoint find (h : N) (m : list (N * N)) : option N :=
  match m with
  | [] => None
  | (k, v) :: r => if k =? h then Some v else find h r
  end.

Section Hash.
  (** The hash of a sequence of 64-bit words (written with binary.BigEndian). *)
  Variable H : list N -> N.

  (** triegen.go:435-493 computeOffsets: the hash, the index of the node and the builder afterwards. *)
  Fixpoint computeOffsets (n : node) (b : builder) {struct n} : N * N * builder :=
    match n with Node ch vs =>
      let first := Nat.eqb (length (b_index b)) rootBlockOffset in
      let b0 := if first then {| b_index := b_index b ++ [[]]; b_values := b_values b; b_iidx := b_iidx b; b_vidx := b_vidx b; b_maxHandle := b_maxHandle b |} else b in
      let '(hs, row, b1) :=
        (fix go (l : list (option node)) (b : builder) : list N * list N * builder :=
           match l with
           | [] => ([], [], b)
           | None :: r => let '(hs, row, b') := go r b in (0 :: hs, 0 :: row, b')
           | Some c :: r =>
             let '(h, i, b') := computeOffsets c b in
             let '(hs, row, b'') := go r b' in (h :: hs, i :: row, b'')
           end) ch b0 in
      let hash := if is_nil ch && is_nil vs then 0 else H (hs ++ vs) in
      (* the row of the first block can be filled in now *)
      let b2 := if first then {| b_index := firstn rootBlockOffset (b_index b1) ++ row :: skipn (S rootBlockOffset) (b_index b1); b_values := b_values b1;
                                 b_iidx := (hash, N.of_nat (rootBlockOffset - blockOffset)) :: b_iidx b1; b_vidx := b_vidx b1; b_maxHandle := b_maxHandle b1 |} else b1 in
      if negb (is_nil ch) then
        match find hash (b_iidx b2) with
        | Some v => (hash, v, b2)
        | None =>
          let v := N.of_nat (length (b_index b2) - blockOffset) in
          (hash, v, {| b_index := b_index b2 ++ [row]; b_values := b_values b2; b_iidx := (hash, v) :: b_iidx b2; b_vidx := b_vidx b2; b_maxHandle := b_maxHandle b2 |})
        end
      else
        match find hash (b_vidx b2) with
        | Some v => (hash, v, b2)
        | None =>
          (* compact.go:45-49 simpleCompacter.Store *)
          let v := N.of_nat (length (b_values b2) - blockOffset) in
          (hash, v, {| b_index := b_index b2; b_values := b_values b2 ++ [vs]; b_iidx := b_iidx b2; b_vidx := (hash, v) :: b_vidx b2; b_maxHandle := N.max (b_maxHandle b2) v |})
        end
    end.

  (** triegen.go:169-185 the builder of Gen, then triegen.go:401-433 buildTrie: the ASCII blocks and the zero block, then the rest. *)
  Definition builder0 (t : node) : builder :=
    {| b_index := [[]; []; []]; b_values := [firstn blockSize (values t); skipn blockSize (values t); repeat 0 blockSize];
       b_iidx := [(0, 0)]; b_vidx := [(0, 0)]; b_maxHandle := 0 |}.
  Definition buildTrie (t : node) : N * builder := let '(h, _, b) := computeOffsets t (builder0 t) in (h, b).

  (** print.go:55-73 printValues and print.go:75-96 printIndex: the entries of one block of a composite literal; zeros are left out. *)
  Definition print_block (n : nat) (block : list N) : list (N * N) :=
    filter (fun e => negb (snd e =? 0)) (combine (map (fun i => N.of_nat (n * blockSize + i)) (seq 0 (length block))) block).
  Definition print_blocks (blocks : list (list N)) : list (N * N) :=
    concat (map (fun e => print_block (fst e) (snd e)) (combine (seq 0 (length blocks)) blocks)).
  (** print.go:146-156: the two arrays. *)
  Definition tables (b : builder) : arr * arr :=
    (arr_of (N.of_nat (length (b_values b) * blockSize)) (print_blocks (b_values b)),
     arr_of (N.of_nat (length (b_index b) * blockSize)) (print_blocks (b_index b))).

  (** triegen.go:362-375 maxValue and triegen.go:377-387 getIntType. *)
  Fixpoint maxValue (n : node) (m : N) {struct n} : N :=
    match n with Node ch vs =>
      fold_left N.max vs ((fix go l m := match l with [] => m | None :: r => go r m | Some c :: r => go r (maxValue c m) end) ch m)
    end.
  Definition intSize (v : N) : N := if v <? 2 ^ 8 then 1 else if v <? 2 ^ 16 then 2 else if v <? 2 ^ 32 then 4 else 8.
  (** triegen.go:324-360 build and triegen.go:297-322 Size, for one trie and one compaction. *)
  Definition Size (t : node) (b : builder) : N :=
    let cutoff := b_maxHandle b + 1 in
    let imax := N.max cutoff (N.of_nat (length (b_index b) - 1 - blockOffset)) in
    N.of_nat (length (b_index b) * blockSize) * intSize imax + N.of_nat (length (b_values b) * blockSize) * intSize (maxValue t 0).

  (** triegen.go:163-200 Gen: the two arrays of the generated file, with the size and the checksum of its header comment. *)
  Record generated := { g_values : arr; g_index : arr; g_size : N; g_checksum : N }.
  Definition Gen (t : node) : generated :=
    let '(h, b) := buildTrie t in
    {| g_values := fst (tables b); g_index := snd (tables b); g_size := Size t b; g_checksum := h |}.
End Hash.
