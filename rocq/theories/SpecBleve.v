(** Specification: what the Bleve compatible functions of package words accept. *)
From Verif Require Import Base SpecUcd SpecWords.

Definition is_numeric (c : N) : Prop := WB c = WB_Numeric.
Definition is_extendnumlet (c : N) : Prop := WB c = WB_ExtendNumLet.
Definition is_mid (c : N) : Prop := WB c = WB_MidNum \/ WB c = WB_MidNumLet \/ WB c = WB_Single_Quote.

(** What may follow, according to whether the last character was a number.  One constructor per rule. *)
Inductive numeric_rest : bool -> list N -> Prop :=
| nr_end : forall n, numeric_rest n []
  (* WB8, WB13b: a number after a number or after an underscore *)
| nr_numeric : forall n c l, is_numeric c -> numeric_rest true l -> numeric_rest n (c :: l)
  (* WB13a: an underscore after a number or after an underscore *)
| nr_extendnumlet : forall n c l, is_extendnumlet c -> numeric_rest false l -> numeric_rest n (c :: l)
  (* WB11, WB12: a comma, full stop or quote between two numbers, with ignored characters before the second *)
| nr_mid : forall m i c l, is_mid m -> Forall (fun x => ignored x = true) i -> is_numeric c -> numeric_rest true l -> numeric_rest true (m :: i ++ c :: l).

(** The tokens of BleveNumeric: nothing, or a number or underscore and what may follow. *)
Definition bleve_numeric (cps : list N) : Prop :=
  match cps with
  | [] => True
  | c :: l => is_numeric c /\ numeric_rest true l \/ is_extendnumlet c /\ numeric_rest false l
  end.

(** The tokens of BleveIdeographic: nothing, or an ideograph and then ideographs, underscores and ignored characters. *)
Definition bleve_ideographic (cps : list N) : Prop :=
  match cps with
  | [] => True
  | c :: l => BleveIdeographic c = true /\ Forall (fun x => BleveIdeographic x = true \/ is_extendnumlet x \/ ignored x = true) l
  end.
