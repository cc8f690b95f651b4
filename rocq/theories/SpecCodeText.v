(** Specification: the loop every client of an iterator writes, with a program given by its text:
    [it := FromString(s)] (or FromBytes), settings, then [for it.Next() { use(it.Value()) }]. *)
From Coq Require Import String.
From Verif Require Import SpecIter SpecApi SpecUtf8 SpecRules.
From Verif Require Import Base GoSyntax GoSem SpecCode.
Local Open Scope string_scope.
Local Open Scope list_scope.

Section Loop.
  Context {C : Type}.
  Variable p : program.
  Variables rounds depth : nat.
  Variable config : val -> C -> heap -> out heap.
  Fixpoint go_loop (fuel : nat) (it : val) (h : heap) : out (list val) :=
    match fuel with
    | O => Forever
    | S fuel' =>
      ' (vs, h) <== method p rounds depth "Next" it [] h ;;
      match vs with
      | [VBool true] =>
        ' (vs, h) <== method p rounds depth "Value" it [] h ;;
        l <== go_loop fuel' it h ;;
        match vs with [v] => Done (v :: l) | _ => Stuck end
      | [VBool false] => Done []
      | _ => Stuck
      end
    end.
  Fixpoint go_configs (cs : list C) (it : val) (h : heap) : out heap :=
    match cs with [] => Done h | c :: r => h <== config it c h ;; go_configs r it h end.
  Definition go_tokens (fuel : nat) (cs : list C) (t : text) (h : heap) : out (list val) :=
    ' (vs, h) <== call p rounds depth ("", if is_string (fst t) then "FromString" else "FromBytes") [text_val t] h ;;
    match vs with [it] => h <== go_configs cs it h ;; go_loop fuel it h | _ => Stuck end.
End Loop.

(** The limits under which the loop runs: a text that fits in memory, nil only if empty, enough rounds for the loops, enough nesting for the calls. *)
Definition runs (t : text) (rounds depth fuel : nat) : Prop :=
  (fst t = NilBytes -> snd t = []) /\ (Z.of_nat (length (snd t)) < 2 ^ 62)%Z /\ (2 * length (snd t) + 2 <= rounds)%nat /\ (7 <= depth)%nat /\ (length (snd t) < fuel)%nat.

(** For well-formed text the loop yields the segments of the standard. *)
Definition text_conforms {C} (decides : list N -> list N -> SpecRules.op -> Prop) (p : program) (config : program -> nat -> nat -> val -> C -> heap -> out heap) : Prop :=
  forall t cps n k fuel h, scalars cps -> snd t = encode cps -> runs t n k fuel ->
  exists segs, go_tokens p n k (config p n k) fuel [] t h = Done (map (fun s => VData (fst t) (encode s)) segs) /\ segmentation decides cps segs.
(** For any bytes and any settings the loop ends without panic, and the tokens are the text, cut. *)
Definition text_lossless {C} (p : program) (config : program -> nat -> nat -> val -> C -> heap -> out heap) : Prop :=
  forall t cs n k fuel h, runs t n k fuel ->
  exists toks, go_tokens p n k (config p n k) fuel cs t h = Done (map (VData (fst t)) toks) /\ concat toks = snd t /\ Forall (fun x => x <> []) toks.
