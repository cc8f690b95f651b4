(** Specification: sentence boundaries, UAX #29 section 5.1 (Unicode 17). *)
From Verif Require Import Base SpecUcd SpecRules.
Local Open Scope rule_scope.

Definition sc (k : sb) (c : N) : bool := sb_beq (SB c) k.

Definition CR := Cls (sc SB_CR).
Definition LF := Cls (sc SB_LF).
Definition Sep := Cls (sc SB_Sep).
Definition Sp := Cls (sc SB_Sp).
Definition Lower := Cls (sc SB_Lower).
Definition Upper := Cls (sc SB_Upper).
Definition OLetter := Cls (sc SB_OLetter).
Definition Numeric := Cls (sc SB_Numeric).
Definition ATerm := Cls (sc SB_ATerm).
Definition STerm := Cls (sc SB_STerm).
Definition SContinue := Cls (sc SB_SContinue).
Definition Close := Cls (sc SB_Close).
Definition ParaSep := Alt Sep (Alt CR LF).
Definition SATerm := Alt STerm ATerm.

(** SB5: the characters that are ignored, and those after which they are not. *)
Definition ignored (c : N) : bool := sc SB_Extend c || sc SB_Format c.
Definition para_sep (c : N) : bool := sc SB_Sep c || sc SB_CR c || sc SB_LF c.
Definition Ignored := Cls ignored.

(** SB8: not (OLetter | Upper | Lower | ParaSep | SATerm). *)
Definition NotStop := Cls (fun c =>
  negb (sc SB_OLetter c || sc SB_Upper c || sc SB_Lower c || para_sep c || sc SB_STerm c || sc SB_ATerm c)).

(** The rules up to SB5, on the text as it is. *)
Definition sentence_rules_1 : list rule := [
  (* SB3 *)    Suffix CR × LF;
  (* SB4 *)    Suffix ParaSep ÷ Any;
  (* SB5 *)    Suffix Any × Ignored
].

(** The rules after SB5, on the text without the ignored characters. *)
Definition sentence_rules_2 : list rule := [
  (* SB6 *)    Suffix ATerm × Numeric;
  (* SB7 *)    Suffix (Cat (Alt Upper Lower) ATerm) × Upper;
  (* SB8 *)    Suffix (Cat (Cat ATerm (Star Close)) (Star Sp)) × Cat (Star NotStop) Lower;
  (* SB8a *)   Suffix (Cat (Cat SATerm (Star Close)) (Star Sp)) × Alt SContinue SATerm;
  (* SB9 *)    Suffix (Cat SATerm (Star Close)) × Alt Close (Alt Sp ParaSep);
  (* SB10 *)   Suffix (Cat (Cat SATerm (Star Close)) (Star Sp)) × Alt Sp ParaSep;
  (* SB11 *)   Suffix (Cat (Cat (Cat SATerm (Star Close)) (Star Sp)) (Opt ParaSep)) ÷ Any;
  (* SB998 *)  Suffix Any × Any
].

Definition sentence_decides (b a : text) (o : op) : Prop :=
  says b a sentence_rules_1 (Some o)
  \/ says b a sentence_rules_1 None
     /\ says (reduce ignored para_sep None b) (reduce ignored para_sep (last_char b) a) sentence_rules_2 (Some o).
