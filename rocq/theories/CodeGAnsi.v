(** The text of graphemes/ansi.go and graphemes/ansi8.go, run, does what the model says. *)
From Coq Require Import String.
From Verif Require Import Base Trie GoSyntax GoSem GoFacts ProgGraphemes TableGraphemes Ansi AnsiFacts Engine Lk Graphemes CodeGBase.
Local Open Scope string_scope.
Local Open Scope list_scope.

Section Calls.
  Variable C : fid -> list val -> heap -> out (list val * heap).
  Variable n : nat.

  (** ** ansi.go, ansi8.go *)
  Ltac norm := rewrite ?of_N_eqb, ?of_N_eqb_pos, ?of_N_ltb_pos, ?of_N_leb_pos, ?pos_leb_of_N, ?of_nat_ltb, ?of_nat_ltb_pos, ?if_tf, ?if_hit, ?if_hit2, ?if_or, ?if_and; bi.
  Ltac go := repeat step; norm; repeat step.


  (** The loop [for i := ...; i < len(data); i++]: no bytes left, or the next byte. *)
  Ltac at_end E := apply skipn_nil in E; rewrite loop_S; repeat step; rewrite of_nat_ltb; match goal with |- context [(?i <? length ?d)%nat] =>
      replace (i <? length d)%nat with false by (symmetry; apply Nat.ltb_ge; lia) end; repeat step; reflexivity.
  Ltac at_byte E E1 E2 E3 := destruct (skipn_cons _ _ _ _ _ E) as (E1 & E2 & E3); rewrite loop_S; repeat step; rewrite of_nat_ltb; apply Nat.ltb_lt in E3 as E4; rewrite E4; repeat step;
      rewrite (index_at _ _ _ _ E1); unfold tbyte; bi; go.
  Ltac next IH E2 := repeat step; rewrite wrap_succ by lia; repeat step; eapply IH; [exact E2|lia|lia].
  Ltac gives := repeat step; rewrite ?wrap_succ, ?wrap_plus2 by lia; repeat step; try reflexivity; unfold oz, vint; repeat f_equal; lia.

  Lemma csiBodyLength_run : forall o d h, (length d < n)%nat -> (Z.of_nat (length d) < 2 ^ 62)%Z -> run_fun pg C n f_csiBodyLength [VData o d] h = Done ([vint (csiBodyLength d)], h).
  Proof.
    intros o d h N D. erewrite run_fun_finish by reflexivity. cbn [fd_body f_csiBodyLength]. repeat step.
    match goal with |- context [loop n ?l ?c ?b ?q [[("i", _)]; [("seenIntermediate", _); ?x] ; ?t] h] =>
      assert (X : forall rest i k seen, skipn i d = rest -> (length rest < k)%nat -> (i <= length d)%nat ->
        finish pg f_csiBodyLength (obind (leave (loop k l c b q [[("i", vint i)]; [("seenIntermediate", VBool seen); x]; t] h)) (then_ pg C n [SReturn [EInt 0]]))
        = Done ([vint (csiBodyLoop rest i seen)], h)) end.
    { induction rest as [|b rest IH]; intros i k seen E K L; cbn [length] in K; (destruct k as [|k]; [lia|]).
      - at_end E.
      - at_byte E E1 E2 E3. cbn [csiBodyLoop]. unfold inRange.
        destruct ((48 <=? b) && (b <=? 63))%N; [destruct seen; [gives|next IH E2]|]. go.
        destruct ((32 <=? b) && (b <=? 47))%N; [next IH E2|]. go.
        destruct ((64 <=? b) && (b <=? 126))%N; [gives|]. gives. }
    apply (X d 0%nat n false); [reflexivity|exact N|lia].
  Qed.

  Ltac osc_loop f L :=
    match goal with |- context [loop ?m ?l ?c ?b ?q [[("i", _)]; [("data", VData ?o ?d)] ; ?t] ?h] =>
      assert (X : forall rest i k, skipn i d = rest -> (length rest < k)%nat -> (i <= length d)%nat ->
        finish pg f (obind (leave (loop k l c b q [[("i", vint i)]; [("data", VData o d)]; t] h)) (then_ pg C n [SReturn [EUn "-" (EInt 1)]]))
        = Done ([VInt tint (oz (L rest i))], h)) end.

  Lemma oscLength_run : forall o d h, (length d < n)%nat -> (Z.of_nat (length d) < 2 ^ 62)%Z -> run_fun pg C n f_oscLength [VData o d] h = Done ([VInt tint (oz (oscLength d))], h).
  Proof.
    intros o d h N D. erewrite run_fun_finish by reflexivity. cbn [fd_body f_oscLength]. repeat step. osc_loop f_oscLength oscLoop.
    { induction rest as [|b rest IH]; intros i k E K L; cbn [length] in K; (destruct k as [|k]; [lia|]); [at_end E|]. at_byte E E1 E2 E3. cbn [oscLoop].
      destruct (b =? bel)%N; [gives|]. go.
      destruct ((b =? can) || (b =? sub))%N; [gives|]. go. rewrite wrap_succ by lia. rewrite of_nat_ltb. destruct rest as [|b' rest'].
      - apply skipn_nil in E2 as E5. replace (S i <? length d)%nat with false by (symmetry; apply Nat.ltb_ge; lia).
        rewrite ?andb_false_r. next IH E2.
      - destruct (skipn_cons _ _ _ _ _ E2) as (F1 & _ & F3). apply Nat.ltb_lt in F3 as F4. rewrite F4, andb_true_r.
        destruct (b =? esc)%N; [|next IH E2].
        rewrite (index_at _ _ _ _ F1). unfold tbyte. bi. go. destruct (b' =? 92)%N; [gives|next IH E2]. }
    apply (X d 0%nat n); [reflexivity|exact N|lia].
  Qed.
  Lemma stSequenceLength_run : forall o d h, (length d < n)%nat -> (Z.of_nat (length d) < 2 ^ 62)%Z -> run_fun pg C n f_stSequenceLength [VData o d] h = Done ([VInt tint (oz (stSequenceLength d))], h).
  Proof.
    intros o d h N D. erewrite run_fun_finish by reflexivity. cbn [fd_body f_stSequenceLength]. repeat step. osc_loop f_stSequenceLength stLoop.
    { induction rest as [|b rest IH]; intros i k E K L; cbn [length] in K; (destruct k as [|k]; [lia|]); [at_end E|]. at_byte E E1 E2 E3. cbn [stLoop].
      destruct ((b =? can) || (b =? sub))%N; [gives|]. repeat step. try (rewrite (index_at _ _ _ _ E1); unfold tbyte; bi). go. rewrite wrap_succ by lia. rewrite of_nat_ltb. destruct rest as [|b' rest'].
      - apply skipn_nil in E2 as E5. replace (S i <? length d)%nat with false by (symmetry; apply Nat.ltb_ge; lia).
        rewrite ?andb_false_r. next IH E2.
      - destruct (skipn_cons _ _ _ _ _ E2) as (F1 & _ & F3). apply Nat.ltb_lt in F3 as F4. rewrite F4, andb_true_r.
        destruct (b =? esc)%N; [|next IH E2].
        rewrite (index_at _ _ _ _ F1). unfold tbyte. bi. go. destruct (b' =? 92)%N; [gives|next IH E2]. }
    apply (X d 0%nat n); [reflexivity|exact N|lia].
  Qed.
  Lemma oscLengthC1_run : forall o d h, (length d < n)%nat -> (Z.of_nat (length d) < 2 ^ 62)%Z -> run_fun pg C n f_oscLengthC1 [VData o d] h = Done ([VInt tint (oz (oscLengthC1 d))], h).
  Proof.
    intros o d h N D. erewrite run_fun_finish by reflexivity. cbn [fd_body f_oscLengthC1]. repeat step. osc_loop f_oscLengthC1 oscC1Loop.
    { induction rest as [|b rest IH]; intros i k E K L; cbn [length] in K; (destruct k as [|k]; [lia|]); [at_end E|]. at_byte E E1 E2 E3. cbn [oscC1Loop].
      destruct ((b =? bel) || (b =? st))%N; [gives|]. go.
      destruct ((b =? can) || (b =? sub))%N; [gives|]. go. next IH E2. }
    apply (X d 0%nat n); [reflexivity|exact N|lia].
  Qed.
  Lemma stSequenceLengthC1_run : forall o d h, (length d < n)%nat -> (Z.of_nat (length d) < 2 ^ 62)%Z -> run_fun pg C n f_stSequenceLengthC1 [VData o d] h = Done ([VInt tint (oz (stSequenceLengthC1 d))], h).
  Proof.
    intros o d h N D. erewrite run_fun_finish by reflexivity. cbn [fd_body f_stSequenceLengthC1]. repeat step. osc_loop f_stSequenceLengthC1 stC1Loop.
    { induction rest as [|b rest IH]; intros i k E K L; cbn [length] in K; (destruct k as [|k]; [lia|]); [at_end E|]. at_byte E E1 E2 E3. cbn [stC1Loop].
      destruct ((b =? can) || (b =? sub))%N; [gives|]. go.
      destruct (b =? st)%N; [gives|]. go. next IH E2. }
    apply (X d 0%nat n); [reflexivity|exact N|lia].
  Qed.

  Hypothesis C_csi : forall o d h, (length d < n)%nat -> (Z.of_nat (length d) < 2 ^ 62)%Z -> C ("", "csiBodyLength") [VData o d] h = Done ([VInt (Typed "int" I64) (Z.of_nat (csiBodyLength d))], h).
  Hypothesis C_osc : forall o d h, (length d < n)%nat -> (Z.of_nat (length d) < 2 ^ 62)%Z -> C ("", "oscLength") [VData o d] h = Done ([VInt (Typed "int" I64) (oz (oscLength d))], h).
  Hypothesis C_st : forall o d h, (length d < n)%nat -> (Z.of_nat (length d) < 2 ^ 62)%Z -> C ("", "stSequenceLength") [VData o d] h = Done ([VInt (Typed "int" I64) (oz (stSequenceLength d))], h).
  Hypothesis C_oscC1 : forall o d h, (length d < n)%nat -> (Z.of_nat (length d) < 2 ^ 62)%Z -> C ("", "oscLengthC1") [VData o d] h = Done ([VInt (Typed "int" I64) (oz (oscLengthC1 d))], h).
  Hypothesis C_stC1 : forall o d h, (length d < n)%nat -> (Z.of_nat (length d) < 2 ^ 62)%Z -> C ("", "stSequenceLengthC1") [VData o d] h = Done ([VInt (Typed "int" I64) (oz (stSequenceLengthC1 d))], h).

  Ltac small := repeat match goal with |- context [Pos.to_nat ?q] => let v := eval compute in (Pos.to_nat q) in change (Pos.to_nat q) with v end.
  Ltac fst_byte k b := match goal with |- context [index (VData ?o ?d) k] => change (index (VData o d) k) with (@Done val (VInt (Typed "uint8" U8) (Z.of_N b))) end; bi.
  Lemma ansiEscapeLength_run : forall o d h, (length d < n)%nat -> (Z.of_nat (length d) < 2 ^ 62)%Z -> run_fun pg C n f_ansiEscapeLength [VData o d] h = Done ([vint (ansiEscapeLength d)], h).
  Proof.
    intros o d h N D. erewrite run_fun_finish by reflexivity. cbn [fd_body f_ansiEscapeLength].
    go. small. destruct d as [|b0 [|b1 rest]]; [cbn [length Nat.ltb Nat.leb]; repeat step; reflexivity..|].
    set (d := b0 :: b1 :: rest) in *. change (length d <? 2)%nat with false. repeat step.
    fst_byte 0%Z b0. go. unfold ansiEscapeLength, d; fold d. destruct (b0 =? esc)%N; cbn [negb]; [|repeat step; reflexivity]. repeat step. fst_byte 1%Z b1. go.
    assert (LR : (length d = 2 + length rest)%nat) by reflexivity.
    destruct (b1 =? 91)%N.
    { repeat step. change 2%Z with (Z.of_nat 2). rewrite cut_from by lia. bi. change (skipn 2 d) with rest. rewrite C_csi by lia. repeat step. rewrite of_nat_eqb0.
      pose proof (csiBodyLoop_le rest 0 false). fold (csiBodyLength rest) in *. destruct (csiBodyLength rest =? 0)%nat; repeat step; [reflexivity|]. change 2%Z with (Z.of_nat 2). rewrite wrap_add by lia. reflexivity. }
    go. destruct (b1 =? 93)%N.
    { repeat step. change 2%Z with (Z.of_nat 2). rewrite cut_from by lia. bi. change (skipn 2 d) with rest. rewrite C_osc by lia. repeat step.
      unfold oz. destruct (oscLength rest) eqn:E; [|repeat step; reflexivity]. apply oscLoop_le in E. destruct (Z.ltb_spec (Z.of_nat n0) 0); [lia|]. repeat step. change 2%Z with (Z.of_nat 2). rewrite wrap_add by lia. reflexivity. }
    go. rewrite !orb_assoc. destruct ((b1 =? 80) || (b1 =? 88) || (b1 =? 94) || (b1 =? 95))%N.
    { repeat step. change 2%Z with (Z.of_nat 2). rewrite cut_from by lia. bi. change (skipn 2 d) with rest. rewrite C_st by lia. repeat step.
      unfold oz. destruct (stSequenceLength rest) eqn:E; [|repeat step; reflexivity]. apply stLoop_le in E. destruct (Z.ltb_spec (Z.of_nat n0) 0); [lia|]. repeat step. change 2%Z with (Z.of_nat 2). rewrite wrap_add by lia. reflexivity. }
    unfold inRange. go. destruct ((64 <=? b1) && (b1 <=? 126))%N; [gives|].
    go. destruct ((48 <=? b1) && (b1 <=? 63))%N; [gives|].
    go. destruct ((32 <=? b1) && (b1 <=? 47))%N; [|gives]. go.
    match goal with |- finish _ _ (obind (leave (leave (obind (leave (loop n ?l ?c ?b ?q [[]; [("i", _)]; []; ?e1; ?e2] h)) ?r1))) ?r2) = _ =>
      assert (X : forall r i k, skipn i d = r -> (length r < k)%nat -> (i <= length d)%nat ->
        finish pg f_ansiEscapeLength (obind (leave (leave (obind (leave (loop k l c b q [[]; [("i", vint i)]; []; e1; e2] h)) r1))) r2) = Done ([vint (nFLoop r i)], h)) end.
    { clearbody d. induction r as [|x r IH]; intros i k E K L; cbn [length] in K; (destruct k as [|k]; [lia|]); rewrite loop_S; repeat step; rewrite of_nat_ltb.
      - apply skipn_nil in E. assert (F : (i <? length d)%nat = false) by (apply Nat.ltb_ge; lia). rewrite F. repeat step. rewrite of_nat_ltb, F. repeat step. reflexivity.
      - destruct (skipn_cons _ _ _ _ _ E) as (E1 & E2 & E3). apply Nat.ltb_lt in E3 as F. rewrite F. repeat step. rewrite (index_at _ _ _ _ E1). unfold tbyte. bi. go. cbn [nFLoop]. unfold inRange.
        destruct ((32 <=? x) && (x <=? 47))%N.
        + next IH E2.
        + repeat step. rewrite of_nat_ltb, F. repeat step. rewrite (index_at _ _ _ _ E1). unfold tbyte. bi. go. destruct ((48 <=? x) && (x <=? 126))%N; gives. }
    apply (X rest 2%nat n); [reflexivity|lia|lia].
  Qed.
  Lemma ansiEscapeLength8Bit_run : forall o d h, (length d < n)%nat -> (Z.of_nat (length d) < 2 ^ 62)%Z -> run_fun pg C n f_ansiEscapeLength8Bit [VData o d] h = Done ([vint (ansiEscapeLength8Bit d)], h).
  Proof.
    intros o d h N D. erewrite run_fun_finish by reflexivity. cbn [fd_body f_ansiEscapeLength8Bit].
    repeat step. rewrite of_nat_eqb0. destruct d as [|b0 rest]; [cbn [length Nat.eqb]; repeat step; reflexivity|].
    set (d := b0 :: rest) in *. change (length d =? 0)%nat with false. repeat step.
    fst_byte 0%Z b0. go. unfold ansiEscapeLength8Bit, d; fold d.
    assert (LR : (length d = 1 + length rest)%nat) by reflexivity.
    destruct (b0 =? 155)%N.
    { repeat step. change 1%Z with (Z.of_nat 1). rewrite cut_from by lia. bi. change (skipn 1 d) with rest. rewrite C_csi by lia. repeat step. rewrite of_nat_eqb0.
      pose proof (csiBodyLoop_le rest 0 false). fold (csiBodyLength rest) in *. destruct (csiBodyLength rest =? 0)%nat; repeat step; [reflexivity|]. change 1%Z with (Z.of_nat 1). rewrite wrap_add by lia. reflexivity. }
    go. destruct (b0 =? 157)%N.
    { repeat step. change 1%Z with (Z.of_nat 1). rewrite cut_from by lia. bi. change (skipn 1 d) with rest. rewrite C_oscC1 by lia. repeat step.
      unfold oz. destruct (oscLengthC1 rest) eqn:E; [|repeat step; reflexivity]. apply oscC1Loop_le in E. destruct (Z.ltb_spec (Z.of_nat n0) 0); [lia|]. repeat step. change 1%Z with (Z.of_nat 1). rewrite wrap_add by lia. reflexivity. }
    go. rewrite !orb_assoc. destruct ((b0 =? 144) || (b0 =? 152) || (b0 =? 158) || (b0 =? 159))%N.
    { repeat step. change 1%Z with (Z.of_nat 1). rewrite cut_from by lia. bi. change (skipn 1 d) with rest. rewrite C_stC1 by lia. repeat step.
      unfold oz. destruct (stSequenceLengthC1 rest) eqn:E; [|repeat step; reflexivity]. apply stC1Loop_le in E. destruct (Z.ltb_spec (Z.of_nat n0) 0); [lia|]. repeat step. change 1%Z with (Z.of_nat 1). rewrite wrap_add by lia. reflexivity. }
    repeat step. fst_byte 0%Z b0. unfold inRange. go. destruct ((128 <=? b0) && (b0 <=? 159))%N; gives.
  Qed.
End Calls.
