(** The text of phrases/seek.go and phrases/splitfunc.go, run, does what the model says. *)
From Coq Require Import String.
From Verif Require Import Base Trie GoSyntax GoSem GoFacts ProgPhrases TablePhrases Engine Lk Phrases CodePBase.
Local Open Scope string_scope.
Local Open Scope list_scope.

Definition sub_cond : option expr := Eval vm_compute in match nth_error (fd_body f_subsequent) 1 with Some (SFor _ _ c _ _) => c | _ => None end.
Definition sub_body : list stmt := Eval vm_compute in match nth_error (fd_body f_subsequent) 1 with Some (SFor _ _ _ _ b) => b | _ => [] end.
Definition sub_tail : list stmt := Eval vm_compute in skipn 2 (fd_body f_subsequent).

Section Calls.
  Variable C : fid -> list val -> heap -> out (list val * heap).
  Variable n : nat.

  Hypothesis C_is : forall a b h, C ("property", "is") [VInt (Typed "property" U32) (Z.of_N a); VInt (Typed "property" U32) (Z.of_N b)] h = Done ([VBool (is a b)], h).
  Hypothesis C_lookup : forall o s v w h, phrases_lookup s = Ok (v, w) -> C ("", "lookup") [VData o s] h = Done ([VInt (Typed "property" U32) (Z.of_N v); VInt (Typed "int" I64) (Z.of_nat w)], h).

  Ltac calls := repeat first [rewrite of_lor | rewrite of_land | rewrite C_is; bi | rewrite if_and; bi | rewrite if_or; bi ].
  Ltac goc := repeat step; calls; repeat step.
  Definition subenv (props : N) (o : origin) (d : bytes) (e ty : bool) (i : nat) : vars :=
    [[("i", vint i); ("properties", vp props); ("data", VData o d); ("atEOF", VBool e); ("advance", vint 0); ("more", VBool false)]; [("T", VType ty)]].
  Lemma lookup_width : forall d i v w, (i < length d)%nat -> phrases_lookup (skipn i d) = Ok (v, w) -> (w <= length d - i)%nat.
  Proof.
    intros d i v w L H. rewrite <- skipn_length. destruct (p_lk (skipn i d)) as (v0 & w0 & L1 & L2 & _); [intros F; apply skipn_nil in F; lia|].
    rewrite H in L1. injection L1 as _ <-. exact L2.
  Qed.
  Lemma subsequent_loop_run : forall props o d e ty h, (Z.of_nat (length d) < 2 ^ 62)%Z -> forall fuel i adv more k, subsequent_loop fuel props d e i = Ok (adv, more) -> (fuel <= k)%nat -> (i <= length d)%nat ->
    finish pp f_subsequent (obind (leave (loop k "" (cond_ pp C sub_cond) (scoped_ pp C n sub_body) (init_ pp C n None) ([] :: subenv props o d e ty i) h)) (then_ pp C n sub_tail))
    = Done ([VInt tint (oz adv); VBool more], h).
  Proof.
    intros props o d e ty h D. induction fuel as [|fuel IH]; intros i adv more k G K P; [discriminate|].
    destruct k as [|k]; [lia|]. rewrite loop_S. cbn [subsequent_loop] in G. unfold sub_cond at 1. unfold sub_body at 1. unfold subenv.
    repeat step. rewrite of_nat_ltb. repeat step. destruct (Nat.ltb_spec i (length d)) as [L|L].
    2: { repeat step. unfold sub_tail. repeat step. destruct e; injection G as <- <-; repeat step; reflexivity. }
    repeat step. unfold slice_from in G. rewrite (proj2 (Nat.ltb_ge _ _) P) in G. cbn [bind] in G.
    destruct (phrases_lookup (skipn i d)) as [[v w]| |] eqn:Lk; try discriminate. cbn [bind] in G.
    rewrite cut_from by exact P. bi. erewrite C_lookup by exact Lk. repeat step. rewrite of_nat_eqb0.
    destruct (w =? 0)%nat eqn:W0. { repeat step. destruct e; injection G as <- <-; repeat step; reflexivity. }
    pose proof (lookup_width _ _ _ _ L Lk) as W.
    goc. destruct (is v _Ignore). { repeat step. rewrite wrap_add by lia. repeat step. refine (IH (i + w)%nat _ _ _ G _ _); lia. }
    goc. destruct (is v props); injection G as <- <-; repeat step; reflexivity.
  Qed.
  Lemma subsequent_run : forall props o d e adv more h, (length d < n)%nat -> (Z.of_nat (length d) < 2 ^ 62)%Z -> subsequent props d e = Ok (adv, more) ->
    run_fun pp C n f_subsequent [vp props; VData o d; VBool e] h = Done ([VInt tint (oz adv); VBool more], h).
  Proof.
    intros props o d e adv more h N D H. erewrite run_fun_finish by reflexivity. cbn [fd_body f_subsequent]. unfold subsequent in H.
    repeat step. exact (subsequent_loop_run props o d e (match o with Str => true | _ => false end) h D _ 0%nat _ _ n H N ltac:(lia)).
  Qed.

  (** ** splitFunc *)
  Definition penv (o : origin) (d : bytes) (b ty : bool) (s : pstate) (w : nat) : vars :=
   [[("w", vint w); ("current", vp (p_current s)); ("regionalIndicatorCount", vint (p_ri s)); ("lastLastExIgnore", vp (p_lastLastEx s));
     ("lastExIgnore", vp (p_lastEx s)); ("pos", vint (p_pos s)); ("empty", VData (if ty then Str else NilBytes) []);
     ("data", VData o d); ("atEOF", VBool b); ("advance", vint 0); ("token", VData (if ty then Str else NilBytes) []); ("err", VNil)];
    [("T", VType ty)]].
  Hypothesis C_sub : forall props o d e adv more h, (length d < n)%nat -> (Z.of_nat (length d) < 2 ^ 62)%Z -> subsequent props d e = Ok (adv, more) ->
    C ("", "subsequent") [VInt (Typed "property" U32) (Z.of_N props); VData o d; VBool e] h = Done ([VInt (Typed "int" I64) (oz adv); VBool more], h).
  Ltac joined IH G := cbn [bind] in G; repeat step; rewrite wrap_add by lia; repeat step; refine (IH _ _ _ _ G _ _ _); cbn [p_pos p_ri]; lia.
  Ltac broken G := cbn [bind] in G; repeat step; injection G as <-; unfold split_tail; repeat step; rewrite cut_to by lia; repeat step; reflexivity.
  Lemma subsequent_bound : forall props d e a m, subsequent props d e = Ok (Some a, m) -> (a <= length d)%nat.
  Proof.
    intros props d e a m H. unfold subsequent in H. revert H. generalize (S (length d)) as fuel, 0%nat as i. induction fuel as [|fuel IH]; intros i H; [discriminate|].
    cbn [subsequent_loop] in H. destruct (Nat.ltb_spec i (length d)) as [L|L]; [|destruct e; discriminate].
    destruct (slice_from d i); try discriminate. cbn [bind] in H. destruct (phrases_lookup a0) as [[v w]| |]; try discriminate. cbn [bind] in H.
    destruct (w =? 0)%nat; [destruct e; discriminate|]. destruct (is v _Ignore); [exact (IH _ H)|]. destruct (is v props); [|discriminate]. injection H as <- _. lia.
  Qed.
  (** A rule that looks ahead: when it does not apply, or finds nothing, the rules after it are tried; they are dealt with once. *)
  Ltac ahead IH G b P2 :=
    goc; match type of G with bind (lookahead ?c ?props ?after b ?w ?ri ?next) ?K = ?R =>
      let SU := fresh "SU" in let X := fresh "X" in let T := fresh "T" in
      evar (X : Prop); enough (T : bind next K = R -> X);
      [ unfold X in T; clear X;
        change (lookahead c props after b w ri next) with (if c then ' (adv, more) <- subsequent props after b ;; if more : bool then Ok PMore else match adv with Some a => Ok (PJoin (w + a) ri) | None => next end else next) in G;
        destruct c;
        [ repeat step; rewrite wrap_add by lia; rewrite cut_from by exact P2; bi; repeat step;
          destruct (subsequent props after b) as [[adv more]| |] eqn:SU; try discriminate; cbn [bind] in G;
          erewrite C_sub; [|rewrite skipn_length; lia|rewrite skipn_length; lia|exact SU]; repeat step;
          destruct more; [injection G as <-; repeat step; reflexivity|]; repeat step;
          destruct adv as [a|]; cbn [oz];
          [ apply subsequent_bound in SU; rewrite skipn_length in SU;
            replace (Z.of_nat a =? -1)%Z with false by (symmetry; apply Z.eqb_neq; lia); cbn [bind] in G; repeat step; rewrite wrap_add by lia; rewrite wrap_add by lia; repeat step; refine (IH _ _ _ _ G _ _ _); cbn [p_pos p_ri]; lia
          | change (-1 =? -1)%Z with true; repeat step; exact (T G) ]
        | repeat step; exact (T G) ]
      | unfold X; clear X G; intros G ] end.
  Ltac rule IH G := goc; match type of G with (bind (if ?c then _ else _) _) = _ => destruct c; [joined IH G|] end.
  Lemma split_loop : forall o d b ty h, (length d < n)%nat -> (Z.of_nat (length d) < 2 ^ 62)%Z -> forall fuel s r w k, p_loop fuel d b s = Ok r -> (fuel <= k)%nat ->
    (p_pos s <= length d)%nat -> (p_ri s <= p_pos s)%nat ->
    finish pp f_splitFunc (obind (leave (loop k "" (cond_ pp C None) (scoped_ pp C n split_body) (init_ pp C n None) ([] :: penv o d b ty s w) h)) (then_ pp C n split_tail))
    = Done (match r with None => [VInt tint 0; VData (if ty then Str else NilBytes) []; VNil] | Some pos => [vint pos; VData o (firstn pos d); VNil] end, h).
  Proof.
    intros o d b ty h N D. induction fuel as [|fuel IH]; intros s r w k G K P R; [discriminate|].
    destruct k as [|k]; [lia|]. rewrite loop_S. cbn [p_loop] in G. cbn [cond_]. unfold split_body at 1. unfold penv at 1.
    repeat step. rewrite of_nat_eqb. repeat step.
    destruct (p_pos s =? length d)%nat eqn:E.
    { repeat step. destruct b; cbn [negb] in *; injection G as <-.
      - repeat step. unfold split_tail; repeat step. rewrite cut_to by assumption. repeat step. reflexivity.
      - repeat step. reflexivity. }
    unfold slice_from in G. assert (L : (length d <? p_pos s)%nat = false) by (apply Nat.ltb_ge; exact P). rewrite L in G. cbn [bind] in G.
    destruct (phrases_lookup (skipn (p_pos s) d)) as [[cur w']| |] eqn:Lk; try discriminate. cbn [bind] in G.
    goc. set (la := p_current s) in *.
    merge [("lastLastExIgnore", vp (if negb (is la _Ignore) then p_lastEx s else p_lastLastEx s)); ("lastExIgnore", vp (if negb (is la _Ignore) then la else p_lastEx s))]
      ltac:(destruct (is la _Ignore); repeat step; reflexivity).
    set (lle := if negb (is la _Ignore) then p_lastEx s else p_lastLastEx s) in G |- *. clearbody lle.
    set (le := if negb (is la _Ignore) then la else p_lastEx s) in G |- *. clearbody le. clearbody la.
    apply Nat.eqb_neq in E. pose proof (lookup_width d (p_pos s) _ _ ltac:(lia) Lk) as W.
    repeat step. rewrite cut_from by exact P. bi. erewrite C_lookup by exact Lk. repeat step.
    rewrite of_nat_eqb0. destruct (w' =? 0)%nat eqn:W0.
    { repeat step. destruct b; injection G as <-.
      - unfold split_tail; repeat step. rewrite cut_to by lia. repeat step. reflexivity.
      - repeat step. reflexivity. }
    apply Nat.eqb_neq in W0. assert (P2 : (p_pos s + w' <= length d)%nat) by lia. rewrite (proj2 (Nat.ltb_ge _ _) P2) in G. cbn [bind] in G.
    unfold p_rules in G. rewrite !N.lor_assoc in G.
    goc. rewrite of_N_eqb0.
    destruct (N.lor cur la =? 0)%N; [broken G|].
    rule IH G.
    goc. match type of G with (bind (if ?c then _ else _) _) = _ => destruct c; [broken G|] end.
    do 4 rule IH G.
    ahead IH G b P2.
    do 2 rule IH G. ahead IH G b P2.
    do 3 rule IH G. ahead IH G b P2.
    do 3 rule IH G.
    goc. match type of G with (bind (if ?c then _ else _) _) = _ => destruct c; [|broken G] end.
    goc. rewrite wrap_succ by lia. change (2 =? 0)%Z with false. bi. goc.
    assert (A : (wrap I64 (Z.rem (Z.of_nat (S (p_ri s))) 2) =? 1)%Z = ((p_ri s + 1) mod 2 =? 1)%nat)
     by (replace (p_ri s + 1)%nat with (S (p_ri s)) by lia; rewrite Z.rem_mod_nonneg by lia; rewrite wrap_int by (pose proof (Z.mod_pos_bound (Z.of_nat (S (p_ri s))) 2); lia);
      change 2%Z with (Z.of_nat 2); rewrite <- Nat2Z.inj_mod; apply (of_nat_eqb _ 1)).
    rewrite A; clear A; replace (S (p_ri s)) with (p_ri s + 1)%nat by lia; destruct ((p_ri s + 1) mod 2 =? 1)%nat; [joined IH G|broken G].
  Qed.

  Lemma splitFunc_run : forall o d e r h, (o = NilBytes -> d = []) -> (2 * length d + 2 <= n)%nat -> (Z.of_nat (length d) < 2 ^ 62)%Z -> splitFunc d e = Ok r ->
    run_fun pp C n f_splitFunc [VData o d; VBool e] h = Done (out_vals o r, h).
  Proof.
    intros o d e r h O N D H. erewrite run_fun_finish by reflexivity. cbn [fd_body f_splitFunc]. unfold splitFunc in H.
    assert (T : d <> [] -> forall b, VData o b = tok_val o (Some b)) by (intros F b; destruct o; try reflexivity; elim F; auto).
    repeat step. rewrite of_nat_eqb0. destruct d as [|b0 rest]; [injection H as <-; cbn [length Nat.eqb]; repeat step; destruct o; reflexivity|].
    specialize (T ltac:(discriminate)). set (d := b0 :: rest) in *. change (is_nil d) with false in H. change (length d =? 0)%nat with false.
    assert (L0 : (0 < length d)%nat) by (cbn; lia).
    unfold slice_from in H. change (length d <? 0)%nat with false in H. cbn [bind skipn] in H. 
    destruct (phrases_lookup d) as [[cur w]| |] eqn:Lk; try discriminate. cbn [bind] in H.
    assert (W : (w <= length d)%nat) by (destruct (p_lk d ltac:(discriminate)) as (v0 & w0 & L1 & L2 & _); rewrite Lk in L1; injection L1 as _ <-; exact L2).
    clearbody d. repeat step. rewrite cut_to, firstn_all by lia. bi. erewrite C_lookup by exact Lk. repeat step. rewrite of_nat_eqb0.
    destruct (w =? 0)%nat eqn:W0.
    { repeat step. destruct e; cbn [negb] in H |- *.
      - unfold slice_to in H. rewrite Nat.ltb_irrefl in H. cbn [bind] in H. injection H as <-. repeat step. rewrite cut_to by lia. repeat step. rewrite T. reflexivity.
      - injection H as <-. repeat step. destruct o; reflexivity. }
    repeat step. rewrite Z.add_0_l, wrap_int by lia. repeat step.
    destruct (p_loop _ _ _ _) as [q| |] eqn:G in H; try discriminate. cbn [bind] in H.
    refine (eq_trans (split_loop o d e (match o with Str => true | _ => false end) h ltac:(lia) D _ _ _ w n G _ _ _) _); [lia|exact W|cbn; lia|].
    destruct q as [pos|]; [|injection H as <-; destruct o; reflexivity].
    unfold slice_to in H. destruct (length d <? pos)%nat; [discriminate|]. cbn [bind] in H. injection H as <-. rewrite T. reflexivity.
  Qed.
End Calls.
