(** Tokens share memory with the text: slices of bytes as windows on the client's array, and clients who write to tokens they were given.
    Go: a []byte is a window on an array; iter.data[iter.start:iter.pos] (graphemes/iterator.go:105-107, words/iterator.go:82-84, sentences/iterator.go:80-82,
    phrases/iterator.go:80-82) is a window on the same array, whose capacity reaches to the end of the capacity of data. *)
From Verif Require Import Base SpecIter SpecApi Scanner.
From Verif Require Graphemes Words Sentences Phrases.

(** A window: where it begins in the array, len and cap. *)
Record window := { w_off : nat; w_len : nat; w_cap : nat }.
Definition content (mem : bytes) (w : window) : bytes := firstn (w_len w) (skipn (w_off w) mem).
Definition fits (mem : bytes) (w : window) : Prop := w_len w <= w_cap w /\ w_off w + w_cap w <= length mem.
(** w[lo:hi] *)
Definition sub (w : window) (lo hi : nat) : window := {| w_off := w_off w + lo; w_len := hi - lo; w_cap := w_cap w - lo |}.
(** w[i] = b, where the client has made sure that i < len(w) *)
Definition store (w : window) (i : nat) (b : N) (mem : bytes) : bytes := if i <? w_len w then put mem (w_off w + i) [b] else mem.
(** append(w, bs...): within the capacity it writes behind w, beyond it the result is in another array. *)
Definition append_to (w : window) (bs : bytes) (mem : bytes) : bytes := if w_len w + length bs <=? w_cap w then put mem (w_off w + w_len w) bs else mem.
(** copy(w, bs) *)
Definition copy_to (w : window) (bs : bytes) (mem : bytes) : bytes := put mem (w_off w) (firstn (w_len w) bs).

Inductive act (C : Type) :=
| ANext                                  (* Next; if it returns true, Value is kept *)
| AStore (k i : nat) (b : N)             (* byte i of the k-th token kept (from 0) becomes b *)
| AAppend (k : nat) (bs : bytes)         (* append to the k-th token kept *)
| AConfig (c : C).
Arguments ANext {C}. Arguments AStore {C} k i b. Arguments AAppend {C} k bs. Arguments AConfig {C} c.

Section Client.
  Variable A : api.
  (** The same iterator, after its array has changed. *)
  Variable over : It A -> bytes -> It A.
  (** What the client sees at each Next: false, or the token with Start and End.  [w]: the text; [ks]: the tokens kept. *)
  Fixpoint client (acts : list (act (Cfg A))) (w : window) (ks : list window) (it : It A) (mem : bytes) : res (list (option (bytes * nat * nat))) :=
    match acts with
    | [] => Ok []
    | ANext :: acts =>
        ' (b, it) <- a_next A (over it (content mem w)) ;;
        if b : bool then
          _ <- a_value A it ;;
          let t := sub w (a_start A it) (a_end A it) in
          l <- client acts w (ks ++ [t]) it mem ;; Ok (Some (content mem t, a_start A it, a_end A it) :: l)
        else l <- client acts w ks it mem ;; Ok (None :: l)
    | AStore k i b :: acts => client acts w ks it (match nth_error ks k with Some t => store t i b mem | None => mem end)
    | AAppend k bs :: acts => client acts w ks it (match nth_error ks k with Some t => append_to t bs mem | None => mem end)
    | AConfig c :: acts => client acts w ks (a_config A it c) mem
    end.
  (** for it.Next() { t := it.Value(); copy(t, f(t)) } *)
  Fixpoint transform (fuel : nat) (f : bytes -> bytes) (w : window) (it : It A) (mem : bytes) : res bytes :=
    match fuel with
    | O => OutOfFuel
    | S fuel =>
        ' (b, it) <- a_next A (over it (content mem w)) ;;
        if b : bool then
          _ <- a_value A it ;;
          let t := sub w (a_start A it) (a_end A it) in
          transform fuel f w it (copy_to t (f (content mem t)) mem)
        else Ok mem
    end.
End Client.

(** * bufio.Scanner.  Bytes returns a part of the buffer, in front of what is still to be split.  A Reader may use all of the buffer it is given as scratch space
    (package io, Reader). *)
Definition fit (n : nat) (l : bytes) : bytes := firstn n (l ++ repeat 0%N n).
Section Buffer.
  Variable rd : reader.
  (** What a Read leaves behind the bytes it returns. *)
  Variable scratch : rd_St rd -> nat -> bytes.
  (** [fill], [scan_loop], [Scan] of Scanner.v with such a reader. *)
  Fixpoint fill_s (tries : nat) (s : scanner) (r : rd_St rd) : scanner * rd_St rd :=
    let room := (length (sc_buf s) - sc_end s)%nat in
    let '(bs, err, r') := rd_read rd r room in
    if (room <? length bs)%nat then (set_err s ErrBadReadCount, r')
    else
      let s := with_buf s (firstn (sc_end s) (sc_buf s) ++ bs ++ fit (room - length bs) (scratch r room)) (sc_start s) (sc_end s + length bs) in
      match err with
      | Some e => (set_err s (SRead e), r')
      | None =>
        if (0 <? length bs)%nat then (with_token s (sc_token s) 0, r')
        else match tries with
             | O => (set_err s ErrNoProgress, r')
             | S tries' => fill_s tries' s r'
             end
      end.
  Fixpoint scan_loop_s (fuel : nat) (s : scanner) (r : rd_St rd) : res (bool * scanner * rd_St rd) :=
    match fuel with
    | O => OutOfFuel
    | S fuel' =>
      let more (s : scanner) : res (bool * scanner * rd_St rd) :=
        match sc_err s with
        | Some _ => Ok (false, with_buf s (sc_buf s) 0 0, r)
        | None =>
          s <- shift s ;;
          g <- grow s ;;
          match g with
          | None => Ok (false, set_err s ErrTooLong, r)
          | Some s =>
            let '(s, r') := fill_s maxConsecutiveEmptyReads s r in
            scan_loop_s fuel' s r'
          end
        end in
      let has_err := match sc_err s with Some _ => true | None => false end in
      if (sc_start s <? sc_end s)%nat || has_err then
        d <- slice (sc_buf s) (sc_start s) (sc_end s) ;;
        o <- sc_split s d has_err ;;
        match so_err o with
        | Some e => Ok (false, set_err s (SSplit e), r)
        | None =>
          if (so_advance o <? 0)%Z then Ok (false, set_err s ErrNegativeAdvance, r)
          else
            let n := Z.to_nat (so_advance o) in
            if (sc_end s - sc_start s <? n)%nat then Ok (false, set_err s ErrAdvanceTooFar, r)
            else
              let s := with_buf s (sc_buf s) (sc_start s + n) (sc_end s) in
              match so_token o with
              | Some tok =>
                if negb has_err || (0 <? n)%nat then Ok (true, with_token s (Some tok) 0, r)
                else if (maxConsecutiveEmptyReads <? S (sc_empties s))%nat then Panic
                else Ok (true, with_token s (Some tok) (S (sc_empties s)), r)
              | None => more (with_token s None (sc_empties s))
              end
        end
      else more s
    end.
  (** The client's loop.  After each Scan the client overwrites what is in the buffer in front of the data still to be split, that is, tokens. *)
  Variable hand : nat -> bytes -> bytes.
  Definition scribble (i : nat) (s : scanner) : scanner := with_buf s (fit (sc_start s) (hand i (sc_buf s)) ++ skipn (sc_start s) (sc_buf s)) (sc_start s) (sc_end s).
  Fixpoint scan_all_s (fuel i : nat) (s : scanner) (r : rd_St rd) : res (list bytes * option serr) :=
    match fuel with
    | O => OutOfFuel
    | S fuel' =>
      ' (b, s', r') <- scan_loop_s fuel (with_called s) r ;;
      if b : bool then
        ' (l, e) <- scan_all_s fuel' (S i) (scribble i s') r' ;; Ok (Bytes s' :: l, e)
      else Ok ([], Err s')
    end.
End Buffer.

(** * The four packages: the field data of the iterator (graphemes/iterator.go:25-42, words/iterator.go:5-10, sentences/iterator.go:22-27, phrases/iterator.go:22-27) is the
    window; its other fields do not change with the array. *)
Definition over_graphemes (it : Graphemes.iter) (d : bytes) : Graphemes.iter :=
  {| Graphemes.it_data := d; Graphemes.it_pos := Graphemes.it_pos it; Graphemes.it_start := Graphemes.it_start it; Graphemes.it_ansi7 := Graphemes.it_ansi7 it; Graphemes.it_ansi8 := Graphemes.it_ansi8 it |}.
Definition over_words (it : Words.iter) (d : bytes) : Words.iter :=
  {| Words.it_split := Words.it_split it; Words.it_data := d; Words.it_pos := Words.it_pos it; Words.it_start := Words.it_start it |}.
Definition over_sentences (it : Sentences.iter) (d : bytes) : Sentences.iter :=
  {| Sentences.it_data := d; Sentences.it_pos := Sentences.it_pos it; Sentences.it_start := Sentences.it_start it |}.
Definition over_phrases (it : Phrases.iter) (d : bytes) : Phrases.iter :=
  {| Phrases.it_data := d; Phrases.it_pos := Phrases.it_pos it; Phrases.it_start := Phrases.it_start it |}.
