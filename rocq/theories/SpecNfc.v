(** Specification: Normalization Form C (The Unicode Standard, section 3.11, D110 to D118; UAX #15), for the characters encoded by Unicode 15. *)
From Verif Require Import Base SpecHangul SpecDecomp SpecCanon SpecNorm.
Local Open Scope N_scope.

(** CompositionExclusions.txt of Unicode 15, as ranges.  Characters that are equivalent to another single character, or whose decomposition starts with a mark, need not be listed. *)
Definition composition_exclusions : list (N * N) := [
(0x958, 0x95F); (0x9DC, 0x9DD); (0x9DF, 0x9DF); (0xA33, 0xA33); (0xA36, 0xA36); (0xA59, 0xA5B); (0xA5E, 0xA5E); (0xB5C, 0xB5D); (0xF43, 0xF43); (0xF4D, 0xF4D); (0xF52, 0xF52);
(0xF57, 0xF57); (0xF5C, 0xF5C); (0xF69, 0xF69); (0xF76, 0xF76); (0xF78, 0xF78); (0xF93, 0xF93); (0xF9D, 0xF9D); (0xFA2, 0xFA2); (0xFA7, 0xFA7); (0xFAC, 0xFAC); (0xFB9, 0xFB9);
(0x2ADC, 0x2ADC); (0xFB1D, 0xFB1D); (0xFB1F, 0xFB1F); (0xFB2A, 0xFB36); (0xFB38, 0xFB3C); (0xFB3E, 0xFB3E); (0xFB40, 0xFB41); (0xFB43, 0xFB44); (0xFB46, 0xFB4E);
(0x1D15E, 0x1D164); (0x1D1BB, 0x1D1C0)].
Definition excluded (c : N) : bool := existsb (fun r : N * N => (fst r <=? c) && (c <=? snd r)) composition_exclusions.

(** The primary composite of two characters, if they have one. *)
Definition composed (a b : N) : option N :=
  if (LBase <=? a) && (a <? LBase + 19) && (VBase <=? b) && (b <? VBase + VCount) then Some (SBase + ((a - LBase) * VCount + (b - VBase)) * TCount)
  else if syllable a && ((a - SBase) mod TCount =? 0) && (TBase <? b) && (b <? TBase + TCount) then Some (a + (b - TBase))
  else option_map fst (find (fun e : N * list N => match snd e with [x; y] => (x =? a) && (y =? b) | _ => false end && negb (excluded (fst e))) decompositions).

(** [l] is the last character of class 0 (if there is one), as composed up to now, [m] the marks after it that have stayed.  A character is blocked by a mark of the same or a higher class. *)
Definition unblocked (m : list N) (c : N) : bool := forallb (fun x => ccc x <? ccc c) m.
Definition held (l : option N) (m : list N) : list N := match l with Some a => a :: m | None => m end.
Definition meets (l : option N) (m : list N) (c : N) : option N := match l with Some a => if unblocked m c then composed a c else None | None => None end.
Fixpoint compose (l : option N) (m t : list N) : list N :=
  match t with
  | [] => held l m
  | c :: r =>
    match meets l m c with
    | Some p => compose (Some p) m r
    | None => if ccc c =? 0 then held l m ++ compose (Some c) [] r else compose l (m ++ [c]) r
    end
  end.
Definition nfc (t : list N) : list N := compose None [] (nfd t).
