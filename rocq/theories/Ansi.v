(** Model of graphemes/ansi.go and graphemes/ansi8.go.
    The Go functions index [data]; here they recurse over the remaining bytes, [i] counting the bytes already
    passed.  A "-1" result is [None]. *)
From Verif Require Import Base.
Local Open Scope N_scope.

(** graphemes/iterator.go:49-56 *)
Definition esc : N := 0x1B.
Definition cr : N := 0x0D.
Definition bel : N := 0x07.
Definition can : N := 0x18.
Definition sub : N := 0x1A.
Definition st : N := 0x9C.

Definition inRange (lo hi b : N) : bool := (lo <=? b) && (b <=? hi).

(** graphemes/ansi.go:69-89 csiBodyLength.  0 means "no CSI body". *)
Fixpoint csiBodyLoop (data : bytes) (i : nat) (seenIntermediate : bool) : nat :=
  match data with
  | [] => 0%nat
  | b :: rest =>
    if inRange 0x30 0x3F b then
      if seenIntermediate then 0%nat else csiBodyLoop rest (S i) seenIntermediate
    else if inRange 0x20 0x2F b then csiBodyLoop rest (S i) true
    else if inRange 0x40 0x7E b then S i
    else 0%nat
  end.
Definition csiBodyLength (data : bytes) : nat := csiBodyLoop data 0 false.

(** graphemes/ansi.go:101-115 oscLength.  Go's -1 is [None]. *)
Fixpoint oscLoop (data : bytes) (i : nat) : option nat :=
  match data with
  | [] => None
  | b :: rest =>
    if b =? bel then Some (i + 1)%nat
    else if (b =? can) || (b =? sub) then Some i
    else if (b =? esc) && (match rest with b' :: _ => b' =? 0x5C | [] => false end) then Some (i + 2)%nat
    else oscLoop rest (S i)
  end.
Definition oscLength (data : bytes) : option nat := oscLoop data 0.

(** graphemes/ansi.go:128-138 stSequenceLength. *)
Fixpoint stLoop (data : bytes) (i : nat) : option nat :=
  match data with
  | [] => None
  | b :: rest =>
    if (b =? can) || (b =? sub) then Some i
    else if (b =? esc) && (match rest with b' :: _ => b' =? 0x5C | [] => false end) then Some (i + 2)%nat
    else stLoop rest (S i)
  end.
Definition stSequenceLength (data : bytes) : option nat := stLoop data 0.

(** graphemes/ansi.go:49-56: the nF loop, [i] starting at 2: intermediates, then one final byte. *)
Fixpoint nFLoop (data : bytes) (i : nat) : nat :=
  match data with
  | [] => 0%nat
  | b :: rest =>
    if inRange 0x20 0x2F b then nFLoop rest (S i)
    else if inRange 0x30 0x7E b then S i
    else 0%nat
  end.

(** graphemes/ansi.go:11-60 ansiEscapeLength. *)
Definition ansiEscapeLength (data : bytes) : nat :=
  match data with
  | b0 :: b1 :: rest =>
    if negb (b0 =? esc) then 0%nat
    else if b1 =? 0x5B then                       (* '[' CSI *)
      let body := csiBodyLength rest in
      if (body =? 0)%nat then 0%nat else (2 + body)%nat
    else if b1 =? 0x5D then                       (* ']' OSC *)
      match oscLength rest with None => 0%nat | Some body => (2 + body)%nat end
    else if (b1 =? 0x50) || (b1 =? 0x58) || (b1 =? 0x5E) || (b1 =? 0x5F) then   (* P X ^ _ *)
      match stSequenceLength rest with None => 0%nat | Some body => (2 + body)%nat end
    else if inRange 0x40 0x7E b1 then 2%nat
    else if inRange 0x30 0x3F b1 then 2%nat
    else if inRange 0x20 0x2F b1 then nFLoop rest 2
    else 0%nat
  | _ => 0%nat
  end.

(** graphemes/ansi8.go:53-64 oscLengthC1. *)
Fixpoint oscC1Loop (data : bytes) (i : nat) : option nat :=
  match data with
  | [] => None
  | b :: rest =>
    if (b =? bel) || (b =? st) then Some (i + 1)%nat
    else if (b =? can) || (b =? sub) then Some i
    else oscC1Loop rest (S i)
  end.
Definition oscLengthC1 (data : bytes) : option nat := oscC1Loop data 0.

(** graphemes/ansi8.go:68-79 stSequenceLengthC1. *)
Fixpoint stC1Loop (data : bytes) (i : nat) : option nat :=
  match data with
  | [] => None
  | b :: rest =>
    if (b =? can) || (b =? sub) then Some i
    else if b =? st then Some (i + 1)%nat
    else stC1Loop rest (S i)
  end.
Definition stSequenceLengthC1 (data : bytes) : option nat := stC1Loop data 0.

(** graphemes/ansi8.go:11-42 ansiEscapeLength8Bit. *)
Definition ansiEscapeLength8Bit (data : bytes) : nat :=
  match data with
  | [] => 0%nat
  | b0 :: rest =>
    if b0 =? 0x9B then
      let body := csiBodyLength rest in
      if (body =? 0)%nat then 0%nat else (1 + body)%nat
    else if b0 =? 0x9D then
      match oscLengthC1 rest with None => 0%nat | Some body => (1 + body)%nat end
    else if (b0 =? 0x90) || (b0 =? 0x98) || (b0 =? 0x9E) || (b0 =? 0x9F) then
      match stSequenceLengthC1 rest with None => 0%nat | Some body => (1 + body)%nat end
    else if inRange 0x80 0x9F b0 then 1%nat
    else 0%nat
  end.
