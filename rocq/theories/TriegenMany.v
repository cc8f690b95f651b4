(** Model of internal/gen/triegen with several tries that share their tables (triegen.go:163-200 Gen, 324-360 build, 401-433 buildTrie)
    and of the lookup that print.go prints for that case, through the handle of a trie.  Triegen.v is the case of one trie, which is the
    only one internal/gen/main.go uses; computeOffsets is the one of Triegen.v.  Still no options: the only compacter is simpleCompacter. *)
From Verif Require Import Base Trie Triegen.
Local Open Scope N_scope.

(** triegen.go:77-118 builder, with asciiBlockIdx. *)
Record shared := { s_builder : builder; s_ascii : list (N * N) }.

(** triegen.go:202-217 Trie: ASCIIIndex, StarterIndex and Checksum, which buildTrie sets. *)
Record handle := { h_ascii : N; h_starter : N; h_checksum : N }.

(** triegen.go:169-185: the builder Gen starts with. *)
Definition shared0 : shared :=
  {| s_builder := {| b_index := [[]; []; []]; b_values := []; b_iidx := [(0, 0)]; b_vidx := [(0, 0)]; b_maxHandle := 0 |}; s_ascii := [] |}.

Section Hash.
  Variable H : list N -> N.

  (** triegen.go:405-426: the ASCII blocks of a trie, and the zero block behind those of the first. *)
  Definition place_ascii (t : node) (s : shared) : N * shared :=
    let hash := H (values t) in
    match find hash (s_ascii s) with
    | Some v => (v, s)
    | None =>
      let b := s_builder s in
      let n := length (b_values b) in
      let v := N.of_nat n in
      (v, {| s_builder := {| b_index := b_index b;
                             b_values := (b_values b ++ [firstn blockSize (values t); skipn blockSize (values t)]) ++ (if Nat.eqb n 0 then [repeat 0 blockSize] else []);
                             b_iidx := b_iidx b; b_vidx := b_vidx b; b_maxHandle := b_maxHandle b |};
             s_ascii := (hash, v) :: s_ascii s |})
    end.

  (** triegen.go:401-433 buildTrie.  The index of a root is at least one. *)
  Definition buildTrie_shared (t : node) (s : shared) : handle * shared :=
    let '(v, s1) := place_ascii t s in
    let '(h, i, b) := computeOffsets H t (s_builder s1) in
    ({| h_ascii := v; h_starter := i - N.of_nat (rootBlockOffset - blockOffset); h_checksum := h |}, {| s_builder := b; s_ascii := s_ascii s1 |}).

  (** triegen.go:337-339: the loop of build over the tries. *)
  Fixpoint build_tries (ts : list node) (s : shared) : list handle * shared :=
    match ts with
    | [] => ([], s)
    | t :: r => let '(h, s1) := buildTrie_shared t s in let '(hs, s2) := build_tries r s1 in (h :: hs, s2)
    end.

  (** triegen.go:342-359 the width of the index type, and triegen.go:325-330 that of the value type. *)
  Definition index_size (b : builder) : N := intSize (N.max (b_maxHandle b + 1) (N.of_nat (length (b_index b) - 1 - blockOffset))).
  Definition value_size (ts : list node) : N := intSize (fold_left (fun m t => maxValue t m) ts 0).
  (** triegen.go:297-322 Size. *)
  Definition Size_many (ts : list node) (b : builder) : N :=
    N.of_nat (length (b_index b) * blockSize) * index_size b + N.of_nat (length (b_values b) * blockSize) * value_size ts
    + (if (1 <? length ts)%nat then 2 * index_size b * N.of_nat (length ts) else 0).

  (** triegen.go:163-200 Gen: the arrays, the handles, the bytes of the types of their entries (the handles have the type of the index,
      print.go:126-128), and the size and the checksum (a uint64 that wraps). *)
  Record generated_many := { gm_values : arr; gm_index : arr; gm_handles : list handle; gm_vsize : N; gm_isize : N; gm_size : N; gm_checksum : N }.
  Definition Gen_many (ts : list node) : generated_many :=
    let '(hs, s) := build_tries ts shared0 in
    let b := s_builder s in
    {| gm_values := fst (tables b); gm_index := snd (tables b); gm_handles := hs;
       gm_vsize := value_size ts; gm_isize := index_size b; gm_size := Size_many ts b;
       gm_checksum := fold_left (fun c h => (c + h_checksum h) mod 2 ^ 64) hs 0 |}.
End Hash.

(** print.go:121-124: the trie of a handle is the two arrays from an offset on.  The offsets are uint32; slicing beyond the end panics. *)
Record trie := { t_values : arr; t_index : arr; t_ascii : N; t_utf8Start : N }.
Definition newTrie (vs ix : arr) (h : handle) : res trie :=
  let a := u32 (N.shiftl (u32 (h_ascii h)) 6) in
  let m := u32 (N.shiftl (u32 (h_starter h)) 6) in
  if (a <=? arr_len vs) && (m <=? arr_len ix) then Ok {| t_values := vs; t_index := ix; t_ascii := a; t_utf8Start := m |} else Panic.

(** print.go:161-226 lookup as it is printed for several tries: t.ascii and t.utf8Start (print.go:33-34) take the place of the whole
    arrays for the first byte.  [lv] is lookupValue (print.go:137-144). *)
Definition lookup_with (lv : N -> N -> res N) (t : trie) (s : bytes) : res (N * nat) :=
  c0 <- byte_at s 0 ;;
  if c0 <? 0x80 then v <- arr_get (t_values t) (t_ascii t + c0) ;; Ok (v, 1%nat)
  else if c0 <? 0xC2 then Ok (0, 1%nat)
  else if c0 <? 0xE0 then
    if (length s <? 2)%nat then Ok (0, 0%nat) else
    i <- arr_get (t_index t) (t_utf8Start t + c0) ;;
    c1 <- byte_at s 1 ;;
    if notCont c1 then Ok (0, 1%nat) else
    v <- lv i c1 ;; Ok (v, 2%nat)
  else if c0 <? 0xF0 then
    if (length s <? 3)%nat then Ok (0, 0%nat) else
    i <- arr_get (t_index t) (t_utf8Start t + c0) ;;
    c1 <- byte_at s 1 ;;
    if notCont c1 then Ok (0, 1%nat) else
    i <- arr_get (t_index t) (u32 (u32 (N.shiftl i 6) + c1)) ;;
    c2 <- byte_at s 2 ;;
    if notCont c2 then Ok (0, 2%nat) else
    v <- lv i c2 ;; Ok (v, 3%nat)
  else if c0 <? 0xF8 then
    if (length s <? 4)%nat then Ok (0, 0%nat) else
    i <- arr_get (t_index t) (t_utf8Start t + c0) ;;
    c1 <- byte_at s 1 ;;
    if notCont c1 then Ok (0, 1%nat) else
    i <- arr_get (t_index t) (u32 (u32 (N.shiftl i 6) + c1)) ;;
    c2 <- byte_at s 2 ;;
    if notCont c2 then Ok (0, 2%nat) else
    i <- arr_get (t_index t) (u32 (u32 (N.shiftl i 6) + c2)) ;;
    c3 <- byte_at s 3 ;;
    if notCont c3 then Ok (0, 3%nat) else
    v <- lv i c3 ;; Ok (v, 4%nat)
  else Ok (0, 1%nat).

(** print.go:137-144 lookupValue with no options: there is one case. *)
Definition lookup_in (t : trie) (s : bytes) : res (N * nat) := lookup_with (lookupValue (t_values t)) t s.
