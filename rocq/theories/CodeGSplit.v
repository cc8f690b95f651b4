(** The text of graphemes/splitfunc.go, run, does what the model says. *)
From Coq Require Import String.
From Verif Require Import Base Trie GoSyntax GoSem GoFacts ProgGraphemes TableGraphemes Ansi AnsiFacts Engine Lk Graphemes CodeGBase.
Local Open Scope string_scope.
Local Open Scope list_scope.

Section Calls.
  Variable C : fid -> list val -> heap -> out (list val * heap).
  Variable n : nat.

  Hypothesis C_is : forall a b h, C ("property", "is") [VInt (Typed "property" U32) (Z.of_N a); VInt (Typed "property" U32) (Z.of_N b)] h = Done ([VBool (is a b)], h).
  Hypothesis C_lookup : forall o s v w h, graphemes_lookup s = Ok (v, w) -> C ("", "lookup") [VData o s] h = Done ([VInt (Typed "property" U32) (Z.of_N v); VInt (Typed "int" I64) (Z.of_nat w)], h).

  Definition genv (o : origin) (d : bytes) (b : bool) (ty : bool) (s : gstate) (w : nat) : vars :=
   [[("w", vint w); ("current", vp (g_current s)); ("incb", VInt (Typed "incbState" I64) (Z.of_nat (incbNum (g_incb s))));
     ("regionalIndicatorCount", vint (g_ri s)); ("lastLastExIgnore", vp (g_lastLastEx s)); ("lastExIgnore", vp (g_lastEx s)); ("pos", vint (g_pos s));
     ("empty", VData (if ty then Str else NilBytes) []); ("data", VData o d); ("atEOF", VBool b); ("advance", vint 0); ("token", VData (if ty then Str else NilBytes) []); ("err", VNil)];
    [("T", VType ty)]].
  Ltac calls := repeat first [rewrite of_lor | rewrite of_land | rewrite C_is; bi | rewrite if_and; bi | rewrite if_or; bi ].
  Ltac goc := repeat step; calls; repeat step.

  Ltac joined IH G := repeat step; rewrite wrap_int by lia; rewrite <- Nat2Z.inj_add; repeat step;
    refine (IH _ _ _ _ G _ _ _); cbn [g_pos g_ri]; lia.
  Ltac broken G := repeat step; injection G as <-; unfold split_tail; repeat step; rewrite cut_to by lia; repeat step; reflexivity.
  Ltac fin := cbn [incbNum Z.of_nat Pos.of_succ_nat Pos.succ Z.eqb Z.leb Z.compare Pos.eqb Pos.compare Pos.compare_cont negb Nat.leb]; repeat step; reflexivity.
  Ltac incb_ := unfold g_incb_update; rewrite ?N.lor_assoc;
    match goal with |- (if is ?x (N.lor ?y ?z) then _ else _) = _ => destruct (is x (N.lor y z)); [|fin] end; goc; cbn [Bool.eqb];
    match goal with |- context [is ?x _InCBConsonant] => destruct (is x _InCBConsonant); [goc; destruct (g_incb _); fin|] end; goc; cbn [Bool.eqb];
    match goal with |- context [is ?x _InCBLinker] => destruct (is x _InCBLinker); [goc; destruct (g_incb _); fin|] end; fin.
  Lemma split_loop : forall o d b ty h, (Z.of_nat (length d) < 2 ^ 62)%Z -> forall fuel s r w k, g_loop fuel d b s = Ok r -> (fuel <= k)%nat ->
    (g_pos s <= length d)%nat -> (g_ri s <= g_pos s)%nat ->
    finish pg f_splitFunc (obind (leave (loop k "" (cond_ pg C None) (scoped_ pg C n split_body) (init_ pg C n None) ([] :: genv o d b ty s w) h)) (then_ pg C n split_tail))
    = Done (match r with None => [VInt tint 0; VData (if ty then Str else NilBytes) []; VNil] | Some pos => [vint pos; VData o (firstn pos d); VNil] end, h).
  Proof.
    intros o d b ty h D. induction fuel as [|fuel IH]; intros s r w k G K P R; [discriminate|].
    destruct k as [|k]; [lia|]. rewrite loop_S. cbn [g_loop] in G. cbn [cond_]. unfold split_body at 1. unfold genv at 1.
    repeat step. rewrite of_nat_eqb. repeat step.
    destruct (g_pos s =? length d)%nat eqn:E.
    { repeat step. destruct b; cbn [negb] in *; injection G as <-.
      - repeat step. unfold split_tail; repeat step. rewrite cut_to by assumption. repeat step. reflexivity.
      - repeat step. reflexivity. }
    unfold slice_from in G. assert (L : (length d <? g_pos s)%nat = false) by (apply Nat.ltb_ge; exact P). rewrite L in G. cbn [bind] in G.
    destruct (graphemes_lookup (skipn (g_pos s) d)) as [[cur w']| |] eqn:Lk; try discriminate. cbn [bind] in G.
    goc.
    merge [("lastLastExIgnore", vp (if negb (is (g_current s) _Extend) then g_lastEx s else g_lastLastEx s)); ("lastExIgnore", vp (if negb (is (g_current s) _Extend) then g_current s else g_lastEx s))]
      ltac:(destruct (is (g_current s) _Extend); repeat step; reflexivity).
    goc. 
    merge [("incb", VInt (Typed "incbState" I64) (Z.of_nat (incbNum (g_incb_update (g_current s) (g_incb s)))))]
      ltac:(incb_).
    assert (W : (w' <= length d - g_pos s)%nat) by (rewrite <- skipn_length; destruct (g_lk (skipn (g_pos s) d)) as (v0 & w0 & L1 & L2 & _);
      [intros F; apply skipn_nil in F; apply Nat.eqb_neq in E; lia|rewrite Lk in L1; injection L1 as _ <-; exact L2]).
    repeat step. rewrite cut_from by exact P. bi. erewrite C_lookup by exact Lk. repeat step.
    rewrite of_nat_eqb0. destruct (w' =? 0)%nat eqn:W0.
    { repeat step. destruct b; injection G as <-.
      - unfold split_tail; repeat step. rewrite cut_to by lia. repeat step. reflexivity.
      - repeat step. reflexivity. }
    apply Nat.eqb_neq in W0.
    set (incb := g_incb_update _ _) in G |- *. clearbody incb.
    change _Ignore with _Extend in G.
    set (lle := if negb (is (g_current s) _Extend) then g_lastEx s else g_lastLastEx s) in G |- *. clearbody lle.
    set (le := if negb (is (g_current s) _Extend) then g_current s else g_lastEx s) in G |- *. clearbody le.
    unfold g_rules in G. rewrite !N.lor_assoc in G.
    goc. rewrite of_N_eqb0.
    destruct (N.lor cur (g_current s) =? 0)%N; [broken G|].
    goc. destruct (is cur _LF && is (g_current s) _CR); [joined IH G|].
    goc. destruct (is (N.lor cur (g_current s)) _); [broken G|].
    goc. destruct (is cur _ && is (g_current s) _); [joined IH G|].
    goc. destruct (is cur _ && is (g_current s) _); [joined IH G|].
    goc. destruct (is cur _ && is (g_current s) _); [joined IH G|].
    goc. destruct (is cur _); [joined IH G|].
    goc. destruct (is cur _); [joined IH G|].
    goc. destruct (is (g_current s) _); [joined IH G|].
    goc. replace (Z.of_nat (incbNum incb) =? 2)%Z with (match incb with incbLinker => true | _ => false end) by (destruct incb; reflexivity). goc.
    destruct (match incb with incbLinker => true | _ => false end && is cur _InCBConsonant); [joined IH G|].
    goc. destruct (is cur _ && is (g_current s) _ && is lle _); [joined IH G|].
    goc. destruct (is (N.land cur (g_current s)) _); [|broken G].
    goc. assert (A : wrap I64 (Z.of_nat (g_ri s) + 1) = Z.of_nat (g_ri s + 1)) by (rewrite wrap_int; lia). rewrite A. clear A.
    change (2 =? 0)%Z with false. bi. goc.
    assert (A : (wrap I64 (Z.rem (Z.of_nat (g_ri s + 1)) 2) =? 1)%Z = ((g_ri s + 1) mod 2 =? 1)%nat).
    { rewrite Z.rem_mod_nonneg by lia. rewrite wrap_int by (pose proof (Z.mod_pos_bound (Z.of_nat (g_ri s + 1)) 2); lia).
      change 2%Z with (Z.of_nat 2). rewrite <- Nat2Z.inj_mod. apply (of_nat_eqb _ 1). }
     rewrite A. clear A. destruct ((g_ri s + 1) mod 2 =? 1)%nat; [joined IH G|broken G].
  Qed.

  Lemma splitFunc_run : forall o d e r h, (o = NilBytes -> d = []) -> (length d < n)%nat -> (Z.of_nat (length d) < 2 ^ 62)%Z -> splitFunc d e = Ok r ->
    run_fun pg C n f_splitFunc [VData o d; VBool e] h = Done (out_vals o r, h).
  Proof.
    intros o d e r h O N D H. erewrite run_fun_finish by reflexivity. cbn [fd_body f_splitFunc]. unfold splitFunc in H.
    assert (T : d <> [] -> forall b, VData o b = tok_val o (Some b)) by (intros F b; destruct o; try reflexivity; elim F; auto).
    repeat step. rewrite of_nat_eqb0. destruct d as [|b0 rest]; [injection H as <-; cbn [length Nat.eqb]; repeat step; destruct o; reflexivity|].
    specialize (T ltac:(discriminate)). set (d := b0 :: rest) in *. change (is_nil d) with false in H. change (length d =? 0)%nat with false.
    assert (L0 : (0 < length d)%nat) by (cbn; lia).
    unfold slice_from in H. change (length d <? 0)%nat with false in H. cbn [bind skipn] in H. 
    destruct (graphemes_lookup d) as [[cur w]| |] eqn:Lk; try discriminate. cbn [bind] in H.
    assert (W : (w <= length d)%nat) by (destruct (g_lk d ltac:(discriminate)) as (v0 & w0 & L1 & L2 & _); rewrite Lk in L1; injection L1 as _ <-; exact L2).
    clearbody d. repeat step. rewrite cut_to, firstn_all by lia. bi. erewrite C_lookup by exact Lk. repeat step. rewrite of_nat_eqb0.
    destruct (w =? 0)%nat eqn:W0.
    { repeat step. destruct e; cbn [negb] in H |- *.
      - unfold slice_to in H. rewrite Nat.ltb_irrefl in H. cbn [bind] in H. injection H as <-. repeat step. rewrite cut_to by lia. repeat step. rewrite T. reflexivity.
      - injection H as <-. repeat step. destruct o; reflexivity. }
    repeat step. rewrite Z.add_0_l, wrap_int by lia. repeat step.
    destruct (g_loop _ _ _ _) as [q| |] eqn:G in H; try discriminate. cbn [bind] in H.
    refine (eq_trans (split_loop o d e (match o with Str => true | _ => false end) h D _ _ _ w n G _ _ _) _); [lia|exact W|cbn; lia|].
    destruct q as [pos|]; [|injection H as <-; destruct o; reflexivity].
    unfold slice_to in H. destruct (length d <? pos)%nat; [discriminate|]. cbn [bind] in H. injection H as <-. rewrite T. reflexivity.
  Qed.
End Calls.
