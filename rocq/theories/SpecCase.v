(** Specification: simple case mappings (The Unicode Standard, section 3.13, UnicodeData.txt), character by character, as in Go's strings.ToLower, strings.ToUpper and strings.ToTitle. *)
From Verif Require Import Base SpecCaseTables.
Local Open Scope N_scope.

Definition by_table (l : list (N * N)) (c : N) : N := match find (fun e : N * N => fst e =? c) l with Some (_, d) => d | None => c end.
Definition lowered (t : list N) : list N := map (by_table lower_cases) t.
Definition uppered (t : list N) : list N := map (by_table upper_cases) t.
Definition titled (t : list N) : list N := map (by_table title_cases) t.

(** U+24C2, a capital M in a circle, is a pictograph; the small m in a circle U+24DC is not.  U+0345 is a mark, a small iota below; its upper case is the letter U+0399. *)
Definition circled_capital_m : N := 0x24C2.
Definition circled_small_m : N := 0x24DC.
Definition iota_below : N := 0x345.
Definition without (l : list N) (t : list N) : Prop := Forall (fun c => ~ In c l) t.
