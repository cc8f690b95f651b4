(** words.FromReader and its Joiners: words/reader.go.  The three other packages have FromReader only
    (graphemes/reader.go:19-25, sentences/reader.go:19-25, phrases/reader.go:19-26): [Scanner.FromReader splitFunc]. *)
From Verif Require Import Base Scanner.
From Verif Require Words.

(** words/reader.go:19-26 FromReader. *)
Definition FromReader : scanner := Scanner.FromReader Words.splitFunc.
(** words/reader.go:30-34 (sc *Scanner).Joiners: sc.Split with a closure that calls j.splitFunc; panics after Scan. *)
Definition ScannerJoiners (sc : scanner) (j : option Words.Joiners) : res scanner := Scanner.Split sc (Words.joinersSplitFunc j).
