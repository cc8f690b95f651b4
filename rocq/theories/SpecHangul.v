(** Specification: the canonical decomposition of Hangul syllables into conjoining jamo (The Unicode Standard, section 3.12). *)
From Verif Require Import Base.
Local Open Scope N_scope.

Definition SBase : N := 0xAC00. Definition LBase : N := 0x1100. Definition VBase : N := 0x1161. Definition TBase : N := 0x11A7.
Definition VCount : N := 21. Definition TCount : N := 28. Definition NCount : N := VCount * TCount. Definition SCount : N := 19 * NCount.

Definition syllable (c : N) : bool := (SBase <=? c) && (c <? SBase + SCount).
Definition jamo (c : N) : list N :=
  if syllable c then
    let i := c - SBase in
    let l := LBase + i / NCount in let v := VBase + (i mod NCount) / TCount in let t := TBase + i mod TCount in
    if t =? TBase then [l; v] else [l; v; t]
  else [c].
Definition decompose (cps : list N) : list N := flat_map jamo cps.
