(** Length bounds of the escape-sequence parsers. *)
From Verif Require Import Base Ansi.
Local Open Scope N_scope.

Lemma csiBodyLoop_le : forall d i seen, (csiBodyLoop d i seen <= i + length d)%nat.
Proof.
  induction d as [|b d IH]; intros i seen; simpl; [lia|].
  destruct (inRange 0x30 0x3F b). { destruct seen; [lia|]. specialize (IH (S i) false). lia. }
  destruct (inRange 0x20 0x2F b). { specialize (IH (S i) true). lia. }
  destruct (inRange 0x40 0x7E b); lia.
Qed.

Lemma oscLoop_le : forall d i n, oscLoop d i = Some n -> (n <= i + length d)%nat.
Proof.
  induction d as [|b d IH]; intros i n H; simpl in H; [discriminate|]. simpl.
  destruct (b =? bel). { injection H as <-. lia. }
  destruct ((b =? can) || (b =? sub)). { injection H as <-. lia. }
  destruct d as [|b' d'].
  - rewrite andb_false_r in H. simpl in H. discriminate.
  - destruct ((b =? esc) && (b' =? 0x5C)). { injection H as <-. simpl. lia. }
    apply IH in H. lia.
Qed.

Lemma stLoop_le : forall d i n, stLoop d i = Some n -> (n <= i + length d)%nat.
Proof.
  induction d as [|b d IH]; intros i n H; simpl in H; [discriminate|]. simpl.
  destruct ((b =? can) || (b =? sub)). { injection H as <-. lia. }
  destruct d as [|b' d'].
  - rewrite andb_false_r in H. simpl in H. discriminate.
  - destruct ((b =? esc) && (b' =? 0x5C)). { injection H as <-. simpl. lia. }
    apply IH in H. lia.
Qed.

Lemma nFLoop_le : forall d i, (nFLoop d i <= i + length d)%nat.
Proof.
  induction d as [|b d IH]; intros i; simpl; [lia|].
  destruct (inRange 0x20 0x2F b). { specialize (IH (S i)). lia. }
  destruct (inRange 0x30 0x7E b); lia.
Qed.

Lemma oscC1Loop_le : forall d i n, oscC1Loop d i = Some n -> (n <= i + length d)%nat.
Proof.
  induction d as [|b d IH]; intros i n H; simpl in H; [discriminate|]. simpl.
  destruct ((b =? bel) || (b =? st)). { injection H as <-. lia. }
  destruct ((b =? can) || (b =? sub)). { injection H as <-. lia. }
  apply IH in H. lia.
Qed.

Lemma stC1Loop_le : forall d i n, stC1Loop d i = Some n -> (n <= i + length d)%nat.
Proof.
  induction d as [|b d IH]; intros i n H; simpl in H; [discriminate|]. simpl.
  destruct ((b =? can) || (b =? sub)). { injection H as <-. lia. }
  destruct (b =? st). { injection H as <-. lia. }
  apply IH in H. lia.
Qed.

Lemma ansiEscapeLength_le : forall d, (ansiEscapeLength d <= length d)%nat.
Proof.
  intros d. unfold ansiEscapeLength. destruct d as [|b0 [|b1 rest]]; simpl; try lia.
  destruct (negb (b0 =? esc)); [lia|].
  destruct (b1 =? 0x5B).
  { unfold csiBodyLength. pose proof (csiBodyLoop_le rest 0 false). destruct (csiBodyLoop rest 0 false =? 0)%nat; lia. }
  destruct (b1 =? 0x5D).
  { destruct (oscLength rest) as [n|] eqn:E; [|lia]. apply oscLoop_le in E. lia. }
  destruct ((b1 =? 0x50) || (b1 =? 0x58) || (b1 =? 0x5E) || (b1 =? 0x5F)).
  { destruct (stSequenceLength rest) as [n|] eqn:E; [|lia]. apply stLoop_le in E. lia. }
  destruct (inRange 0x40 0x7E b1); [lia|]. destruct (inRange 0x30 0x3F b1); [lia|].
  destruct (inRange 0x20 0x2F b1); [|lia]. pose proof (nFLoop_le rest 2). lia.
Qed.

Lemma ansiEscapeLength8Bit_le : forall d, (ansiEscapeLength8Bit d <= length d)%nat.
Proof.
  intros d. unfold ansiEscapeLength8Bit. destruct d as [|b0 rest]; simpl; try lia.
  destruct (b0 =? 0x9B).
  { unfold csiBodyLength. pose proof (csiBodyLoop_le rest 0 false). destruct (csiBodyLoop rest 0 false =? 0)%nat; lia. }
  destruct (b0 =? 0x9D).
  { destruct (oscLengthC1 rest) as [n|] eqn:E; [|lia]. apply oscC1Loop_le in E. lia. }
  destruct ((b0 =? 0x90) || (b0 =? 0x98) || (b0 =? 0x9E) || (b0 =? 0x9F)).
  { destruct (stSequenceLengthC1 rest) as [n|] eqn:E; [|lia]. apply stC1Loop_le in E. lia. }
  destruct (inRange 0x80 0x9F b0); lia.
Qed.
