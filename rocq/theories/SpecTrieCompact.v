(** Specification: what a Compacter must do, and when its handles are not too many. *)
From Verif Require Import Base TriegenCompact.
Local Open Scope N_scope.

(** After a block has been stored (by a Compacter that said it could), the handler gives back each of its values for the handle that Store
    returned, whatever was stored before and is stored afterwards.  A handle is a uint32. *)
Definition faithful (c : compacter) : Prop := forall before vs after,
  length vs = 64%nat -> c_size c before vs <> None ->
  c_store c before vs < 2 ^ 32 /\ forall b, 0x80 <= b < 0xC0 -> c_handler c (before ++ vs :: after) (c_store c before vs) b = nth (N.to_nat (b - 0x80)) vs 0.

(** The largest handle a Compacter has returned for the blocks it has stored. *)
Fixpoint largest (c : compacter) (before rest : list (list N)) : N :=
  match rest with
  | [] => 0
  | v :: r => N.max (c_store c before v) (largest c (before ++ [v]) r)
  end.

(** How many numbers the handles take: from zero to the largest, for each Compacter. *)
Fixpoint handles (cs : list compacter) (stored : list (list (list N))) : N :=
  match cs, stored with
  | c :: cs', st :: r => largest c [] st + 1 + handles cs' r
  | _, _ => 0
  end.

(** The bytes a Compacter said it would need for the blocks it has stored. *)
Fixpoint said (c : compacter) (before rest : list (list N)) : N :=
  match rest with
  | [] => 0
  | v :: r => match c_size c before v with Some s => s | None => 0 end + said c (before ++ [v]) r
  end.

(** It stored only blocks that it said it could store, in less than [plain] bytes. *)
Fixpoint saved (plain : N) (c : compacter) (before rest : list (list N)) : Prop :=
  match rest with
  | [] => True
  | v :: r => (exists s, c_size c before v = Some s /\ s < plain) /\ saved plain c (before ++ [v]) r
  end.

(** The bytes all of them said they would need. *)
Fixpoint told (cs : list compacter) (stored : list (list (list N))) : N :=
  match cs, stored with
  | c :: cs', st :: r => said c [] st + told cs' r
  | _, _ => 0
  end.
