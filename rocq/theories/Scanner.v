(** bufio.Scanner as used by the four FromReader functions (graphemes/reader.go:9-25, words/reader.go:9-36,
    sentences/reader.go:9-25, phrases/reader.go:9-26).  The repository only wraps Go's bufio.Scanner; what is modelled
    here is therefore mostly Go's src/bufio/scan.go (go 1.22), which is not part of /repo.
    Not modelled: ErrFinalToken (no split function of the repository returns it) and here the aliasing of the token with
    the buffer (the token is what Bytes or Text returns before the next Scan); for that see Alias.v. *)
From Verif Require Import Base.
Local Open Scope N_scope.

(** Errors a reader returns: io.EOF or some other error. *)
Inductive rerr := EOF | RErr (n : N).
(** Errors held by the scanner: the reader's, the split function's, and its own. *)
Inductive serr := SRead (e : rerr) | SSplit (n : N) | ErrTooLong | ErrNegativeAdvance | ErrAdvanceTooFar | ErrNoProgress | ErrBadReadCount.

(** An io.Reader: any state machine.  [read r room] is a call Read(p) with len(p) = room: the bytes put at the
    start of p, the error, and the reader's next state. *)
Record reader := { rd_St : Type; rd_read : rd_St -> nat -> bytes * option rerr * rd_St }.

(** bufio/scan.go: type Scanner; [buf] has length len(s.buf). *)
Record scanner := {
  sc_split : splitfun;
  sc_max : N;                 (* maxTokenSize *)
  sc_token : option bytes;
  sc_buf : bytes;
  sc_start : nat;
  sc_end : nat;
  sc_err : option serr;
  sc_empties : nat;
  sc_called : bool            (* scanCalled *)
}.

Definition MaxScanTokenSize : N := 64 * 1024.
Definition startBufSize : N := 4096.
Definition maxConsecutiveEmptyReads : nat := 100.
Definition maxInt : N := 2 ^ 63 - 1.

(** bufio.NewScanner and sc.Split(SplitFunc): graphemes/reader.go:19-25 and the three others. *)
Definition FromReader (f : splitfun) : scanner :=
  {| sc_split := f; sc_max := MaxScanTokenSize; sc_token := None; sc_buf := []; sc_start := 0; sc_end := 0;
     sc_err := None; sc_empties := 0; sc_called := false |}.

(** (s *Scanner) Split: panics after Scan. *)
Definition Split (s : scanner) (f : splitfun) : res scanner :=
  if sc_called s then Panic
  else Ok {| sc_split := f; sc_max := sc_max s; sc_token := sc_token s; sc_buf := sc_buf s; sc_start := sc_start s; sc_end := sc_end s;
     sc_err := sc_err s; sc_empties := sc_empties s; sc_called := sc_called s |}.

(** (s *Scanner) Buffer(buf, max): panics after Scan.  [buf] stands for buf[0:cap(buf)]; a negative max behaves as 0. *)
Definition Buffer (s : scanner) (buf : bytes) (max : N) : res scanner :=
  if sc_called s then Panic
  else Ok {| sc_split := sc_split s; sc_max := max; sc_token := sc_token s; sc_buf := buf; sc_start := sc_start s; sc_end := sc_end s;
     sc_err := sc_err s; sc_empties := sc_empties s; sc_called := sc_called s |}.

(** (s *Scanner) setErr. *)
Definition set_err (s : scanner) (e : serr) : scanner :=
  {| sc_split := sc_split s; sc_max := sc_max s; sc_token := sc_token s; sc_buf := sc_buf s; sc_start := sc_start s; sc_end := sc_end s;
     sc_err := match sc_err s with None => Some e | Some (SRead EOF) => Some e | Some e' => Some e' end;
     sc_empties := sc_empties s; sc_called := sc_called s |}.
Definition with_buf (s : scanner) (buf : bytes) (start fin : nat) : scanner :=
  {| sc_split := sc_split s; sc_max := sc_max s; sc_token := sc_token s; sc_buf := buf; sc_start := start; sc_end := fin;
     sc_err := sc_err s; sc_empties := sc_empties s; sc_called := sc_called s |}.
Definition with_token (s : scanner) (tok : option bytes) (empties : nat) : scanner :=
  {| sc_split := sc_split s; sc_max := sc_max s; sc_token := tok; sc_buf := sc_buf s; sc_start := sc_start s; sc_end := sc_end s;
     sc_err := sc_err s; sc_empties := empties; sc_called := sc_called s |}.
Definition with_called (s : scanner) : scanner :=
  {| sc_split := sc_split s; sc_max := sc_max s; sc_token := sc_token s; sc_buf := sc_buf s; sc_start := sc_start s; sc_end := sc_end s;
     sc_err := sc_err s; sc_empties := sc_empties s; sc_called := true |}.

(** Go's copy(buf[pos:], bs) when bs fits. *)
Definition put (buf : bytes) (pos : nat) (bs : bytes) : bytes := firstn pos buf ++ bs ++ skipn (pos + length bs) buf.

(** "First, shift data to beginning of buffer if there's lots of empty space or space is needed." *)
Definition shift (s : scanner) : res scanner :=
  if (0 <? sc_start s)%nat && (Nat.eqb (sc_end s) (length (sc_buf s)) || (length (sc_buf s) / 2 <? sc_start s)%nat) then
    d <- slice (sc_buf s) (sc_start s) (sc_end s) ;;
    Ok (with_buf s (put (sc_buf s) 0 d) 0 (sc_end s - sc_start s))
  else Ok s.

(** "Is the buffer full? If so, resize."  [None]: ErrTooLong. *)
Definition grow (s : scanner) : res (option scanner) :=
  if Nat.eqb (sc_end s) (length (sc_buf s)) then
    let len := N.of_nat (length (sc_buf s)) in
    if (sc_max s <=? len) || (maxInt / 2 <? len) then Ok None
    else
      let newSize := len * 2 in
      let newSize := if newSize =? 0 then startBufSize else newSize in
      let newSize := N.min newSize (sc_max s) in
      d <- slice (sc_buf s) (sc_start s) (sc_end s) ;;
      Ok (Some (with_buf s (put (repeat 0 (N.to_nat newSize)) 0 d) 0 (sc_end s - sc_start s)))
  else Ok (Some s).

Section Run.
  Variable rd : reader.

  (** "Finally we can read some input."  [tries] counts down the empty reads still allowed. *)
  Fixpoint fill (tries : nat) (s : scanner) (r : rd_St rd) : scanner * rd_St rd :=
    let room := (length (sc_buf s) - sc_end s)%nat in
    let '(bs, err, r') := rd_read rd r room in
    if (room <? length bs)%nat then (set_err s ErrBadReadCount, r')
    else
      let s := with_buf s (put (sc_buf s) (sc_end s) bs) (sc_start s) (sc_end s + length bs) in
      match err with
      | Some e => (set_err s (SRead e), r')
      | None =>
        if (0 <? length bs)%nat then (with_token s (sc_token s) 0, r')
        else match tries with
             | O => (set_err s ErrNoProgress, r')
             | S tries' => fill tries' s r'
             end
      end.

  (** (s *Scanner) Scan: the outer loop. *)
  Fixpoint scan_loop (fuel : nat) (s : scanner) (r : rd_St rd) : res (bool * scanner * rd_St rd) :=
    match fuel with
    | O => OutOfFuel
    | S fuel' =>
      let more (s : scanner) : res (bool * scanner * rd_St rd) :=
        match sc_err s with
        | Some _ => Ok (false, with_buf s (sc_buf s) 0 0, r)
        | None =>
          s <- shift s ;;
          g <- grow s ;;
          match g with
          | None => Ok (false, set_err s ErrTooLong, r)
          | Some s =>
            let '(s, r') := fill maxConsecutiveEmptyReads s r in
            scan_loop fuel' s r'
          end
        end in
      let has_err := match sc_err s with Some _ => true | None => false end in
      if (sc_start s <? sc_end s)%nat || has_err then
        d <- slice (sc_buf s) (sc_start s) (sc_end s) ;;
        o <- sc_split s d has_err ;;
        match so_err o with
        | Some e => Ok (false, set_err s (SSplit e), r)
        | None =>
          if (so_advance o <? 0)%Z then Ok (false, set_err s ErrNegativeAdvance, r)
          else
            let n := Z.to_nat (so_advance o) in
            if (sc_end s - sc_start s <? n)%nat then Ok (false, set_err s ErrAdvanceTooFar, r)
            else
              let s := with_buf s (sc_buf s) (sc_start s + n) (sc_end s) in
              match so_token o with
              | Some tok =>
                if negb has_err || (0 <? n)%nat then Ok (true, with_token s (Some tok) 0, r)
                else if (maxConsecutiveEmptyReads <? S (sc_empties s))%nat then Panic
                else Ok (true, with_token s (Some tok) (S (sc_empties s)), r)
              | None => more (with_token s None (sc_empties s))
              end
        end
      else more s
    end.
  Definition Scan (fuel : nat) (s : scanner) (r : rd_St rd) : res (bool * scanner * rd_St rd) := scan_loop fuel (with_called s) r.

  (** (s *Scanner) Err: nil for io.EOF. *)
  Definition Err (s : scanner) : option serr := match sc_err s with Some (SRead EOF) => None | e => e end.
  (** (s *Scanner) Bytes, Text. *)
  Definition Bytes (s : scanner) : bytes := match sc_token s with Some t => t | None => [] end.

  (** The client's loop: for s.Scan() { tokens = append(tokens, s.Text()) }; err := s.Err(). *)
  Fixpoint scan_all (fuel : nat) (s : scanner) (r : rd_St rd) : res (list bytes * option serr) :=
    match fuel with
    | O => OutOfFuel
    | S fuel' =>
      ' (b, s', r') <- Scan fuel s r ;;
      if b : bool then
        ' (l, e) <- scan_all fuel' s' r' ;; Ok (Bytes s' :: l, e)
      else Ok ([], Err s')
    end.
End Run.
