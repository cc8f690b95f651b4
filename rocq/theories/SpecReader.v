(** Specification vocabulary: what an io.Reader delivers, for every way of delivering it. *)
From Verif Require Import Base SpecIter SpecApi Scanner.

Section Reader.
  Variable rd : reader.

  (** [delivers r d e]: whatever room it is offered, at every call the reader in state [r] returns some bytes - none,
      some, or as many as there is room for - that are the next bytes of [d], and it returns an error, namely [e],
      exactly when nothing of [d] is left: together with the last bytes or in a later call. *)
  CoInductive delivers : rd_St rd -> bytes -> rerr -> Prop :=
  | Delivers : forall r d e,
      (forall room bs err r', 0 < room -> rd_read rd r room = (bs, err, r') ->
         length bs <= room /\ exists rest, d = bs ++ rest /\ (err = None \/ err = Some e /\ rest = [])) ->
      (forall room bs r' rest, 0 < room -> rd_read rd r room = (bs, None, r') -> d = bs ++ rest -> delivers r' rest e) ->
      delivers r d e.

  (** [lively k r]: the reader never returns "nothing, but no error" more than 100 times in a row (the next time at
      most [k] times). *)
  CoInductive lively : nat -> rd_St rd -> Prop :=
  | Lively : forall k r,
      (forall room r', 0 < room -> rd_read rd r room = ([], None, r') -> k <> 0 /\ lively (pred k) r') ->
      (forall room bs r', 0 < room -> rd_read rd r room = (bs, None, r') -> bs <> [] -> lively 100 r') ->
      lively k r.
End Reader.

(** A reader that serves a given list of chunks, as far as there is room, one chunk per call, and then an error. *)
Definition chunk_reader (e : rerr) : reader := {|
  rd_St := list bytes;
  rd_read := fun cs room =>
    match cs with
    | [] => ([], Some e, [])
    | c :: rest => if room <? length c then (firstn room c, None, skipn room c :: rest) else (c, None, rest)
    end |}.

(** The same, but the error comes together with the last chunk. *)
Definition eager_reader (e : rerr) : reader := {|
  rd_St := list bytes;
  rd_read := fun cs room =>
    match cs with
    | [] => ([], Some e, [])
    | c :: rest => if room <? length c then (firstn room c, None, skipn room c :: rest)
                   else match rest with [] => (c, Some e, []) | _ => (c, None, rest) end
    end |}.

(** The scanner a client starts with: FromReader, perhaps with a buffer and a size limit of the client's. *)
Inductive fresh_scanner (f : splitfun) : scanner -> Prop :=
| fresh_default : fresh_scanner f (FromReader f)
| fresh_buffer : forall buf max s, Buffer (FromReader f) buf max = Ok s -> fresh_scanner f s.

(** The client's loop over an iterator for given data. *)
Definition iterating (A : api) (fuel : nat) (d : bytes) : res (list bytes) := tokens A fuel (a_new A d).

(** C13.  [scan_all] is the client's loop over the scanner, [iterate] the loop over an iterator.  If Err() returns nil in the end, the client has seen the tokens of the
    iterator over the whole data.  (The loop ends, whatever the reader does; [fuel] only has to be large.) *)
Definition reads_all (iterate : nat -> bytes -> res (list bytes)) (f : splitfun) : Prop :=
  forall rd r d s fuel, delivers rd r d EOF -> fresh_scanner f s -> length d + 2 < fuel ->
  exists l err, scan_all rd fuel s r = Ok (l, err)
    /\ (err = None -> iterate fuel d = Ok l).

(** ... and it does return nil when the reader does not stall and all the data would fit in the buffer. *)
Definition reads_all_short (iterate : nat -> bytes -> res (list bytes)) (f : splitfun) : Prop :=
  forall rd r d s fuel, delivers rd r d EOF -> lively rd 100 r -> fresh_scanner f s ->
  (N.of_nat (length d) < N.min (sc_max s) (2 ^ 62))%N -> length d + 2 < fuel ->
  exists l, scan_all rd fuel s r = Ok (l, None) /\ iterate fuel d = Ok l.

(** C14.  The reader delivers [d] and would then return the error [e]. *)
Definition reads_prefix (iterate : nat -> bytes -> res (list bytes)) (f : splitfun) : Prop :=
  forall rd r d e s fuel, delivers rd r d e -> fresh_scanner f s -> length d + 2 < fuel ->
  exists l err, scan_all rd fuel s r = Ok (l, err) /\
    match err with
    | None => e = EOF /\ iterate fuel d = Ok l
    | Some (SRead e') => e' = e /\ e <> EOF /\ iterate fuel d = Ok l
    | Some ErrTooLong => exists l2, iterate fuel d = Ok (l ++ l2)
    | Some ErrNoProgress => exists d1 d2, d = d1 ++ d2 /\ iterate fuel d1 = Ok l
    | Some _ => False
    end.
