(** The text of sentences/seek.go and sentences/splitfunc.go, run, does what the model says. *)
From Coq Require Import String.
From Verif Require Import Base Trie GoSyntax GoSem GoFacts ProgSentences TableSentences Engine Lk Sentences CodeSBase.
Local Open Scope string_scope.
Local Open Scope list_scope.

Definition sub_cond : option expr := Eval vm_compute in match nth_error (fd_body f_subsequent) 1 with Some (SFor _ _ c _ _) => c | _ => None end.
Definition sub_body : list stmt := Eval vm_compute in match nth_error (fd_body f_subsequent) 1 with Some (SFor _ _ _ _ b) => b | _ => [] end.
Definition sub_tail : list stmt := Eval vm_compute in skipn 2 (fd_body f_subsequent).

Section Calls.
  Variable C : fid -> list val -> heap -> out (list val * heap).
  Variable n : nat.

  Hypothesis C_is : forall a b h, C ("property", "is") [VInt (Typed "property" U16) (Z.of_N a); VInt (Typed "property" U16) (Z.of_N b)] h = Done ([VBool (is a b)], h).
  Hypothesis C_lookup : forall o s v w h, sentences_lookup s = Ok (v, w) -> C ("", "lookup") [VData o s] h = Done ([VInt (Typed "property" U16) (Z.of_N v); VInt (Typed "int" I64) (Z.of_nat w)], h).

  Ltac calls := repeat first [rewrite of_lor | rewrite of_land | rewrite C_is; bi | rewrite if_and; bi | rewrite if_or; bi ].
  Ltac goc := repeat step; calls; repeat step.
  Definition subenv (props : N) (o : origin) (d : bytes) (e ty : bool) (i : nat) : vars :=
    [[("i", vint i); ("properties", vp props); ("data", VData o d); ("atEOF", VBool e); ("advance", vint 0); ("more", VBool false)]; [("T", VType ty)]].
  Lemma lookup_width : forall d i v w, (i < length d)%nat -> sentences_lookup (skipn i d) = Ok (v, w) -> (w <= length d - i)%nat.
  Proof.
    intros d i v w L H. rewrite <- skipn_length. destruct (s_lk (skipn i d)) as (v0 & w0 & L1 & L2 & _); [intros F; apply skipn_nil in F; lia|].
    rewrite H in L1. injection L1 as _ <-. exact L2.
  Qed.
  Lemma subsequent_loop_run : forall props o d e ty h, (Z.of_nat (length d) < 2 ^ 62)%Z -> forall fuel i adv more k, subsequent_loop fuel props d e i = Ok (adv, more) -> (fuel <= k)%nat -> (i <= length d)%nat ->
    finish ps f_subsequent (obind (leave (loop k "" (cond_ ps C sub_cond) (scoped_ ps C n sub_body) (init_ ps C n None) ([] :: subenv props o d e ty i) h)) (then_ ps C n sub_tail))
    = Done ([VInt tint (oz adv); VBool more], h).
  Proof.
    intros props o d e ty h D. induction fuel as [|fuel IH]; intros i adv more k G K P; [discriminate|].
    destruct k as [|k]; [lia|]. rewrite loop_S. cbn [subsequent_loop] in G. unfold sub_cond at 1. unfold sub_body at 1. unfold subenv.
    repeat step. rewrite of_nat_ltb. repeat step. destruct (Nat.ltb_spec i (length d)) as [L|L].
    2: { repeat step. unfold sub_tail. repeat step. destruct e; injection G as <- <-; repeat step; reflexivity. }
    repeat step. unfold slice_from in G. rewrite (proj2 (Nat.ltb_ge _ _) P) in G. cbn [bind] in G.
    destruct (sentences_lookup (skipn i d)) as [[v w]| |] eqn:Lk; try discriminate. cbn [bind] in G.
    rewrite cut_from by exact P. bi. erewrite C_lookup by exact Lk. repeat step. rewrite of_nat_eqb0.
    destruct (w =? 0)%nat eqn:W0. { repeat step. destruct e; injection G as <- <-; repeat step; reflexivity. }
    pose proof (lookup_width _ _ _ _ L Lk) as W.
    goc. destruct (is v _Ignore). { repeat step. rewrite wrap_add by lia. repeat step. refine (IH (i + w)%nat _ _ _ G _ _); lia. }
    goc. destruct (is v props); injection G as <- <-; repeat step; reflexivity.
  Qed.
  Lemma subsequent_run : forall props o d e adv more h, (length d < n)%nat -> (Z.of_nat (length d) < 2 ^ 62)%Z -> subsequent props d e = Ok (adv, more) ->
    run_fun ps C n f_subsequent [vp props; VData o d; VBool e] h = Done ([VInt tint (oz adv); VBool more], h).
  Proof.
    intros props o d e adv more h N D H. erewrite run_fun_finish by reflexivity. cbn [fd_body f_subsequent]. unfold subsequent in H.
    repeat step. exact (subsequent_loop_run props o d e (match o with Str => true | _ => false end) h D _ 0%nat _ _ n H N ltac:(lia)).
  Qed.

  (** ** splitFunc *)
  Definition senv (o : origin) (d : bytes) (b ty : bool) (s : sstate) (w : nat) : vars :=
   [[("w", vint w); ("current", vp (s_current s)); ("lastExIgnoreParaSepSpClose", vp (h_lastExParaSepSpClose (s_hist s))); ("lastExIgnoreSpClose", vp (h_lastExSpClose (s_hist s)));
     ("lastExIgnoreClose", vp (h_lastExClose (s_hist s))); ("lastExIgnoreSp", vp (h_lastExSp (s_hist s))); ("lastLastExIgnore", vp (h_lastLastEx (s_hist s)));
     ("lastExIgnore", vp (h_lastEx (s_hist s))); ("pos", vint (s_pos s)); ("empty", VData (if ty then Str else NilBytes) []);
     ("data", VData o d); ("atEOF", VBool b); ("advance", vint 0); ("token", VData (if ty then Str else NilBytes) []); ("err", VNil)];
    [("T", VType ty)]].
  Hypothesis C_sub : forall props o d e adv more h, (length d < n)%nat -> (Z.of_nat (length d) < 2 ^ 62)%Z -> subsequent props d e = Ok (adv, more) ->
    C ("", "subsequent") [VInt (Typed "property" U16) (Z.of_N props); VData o d; VBool e] h = Done ([VInt (Typed "int" I64) (oz adv); VBool more], h).
  Definition sb8_loop : stmt := Eval vm_compute in match nth_error split_body 16 with Some (SIf _ _ th _) => nth 1 th (GoSyntax.SBreak "") | _ => GoSyntax.SBreak "" end.
  Definition sb8_cond : option expr := Eval vm_compute in match sb8_loop with SFor _ _ c _ _ => c | _ => None end.
  Definition sb8_body : list stmt := Eval vm_compute in match sb8_loop with SFor _ _ _ _ b => b | _ => [] end.
  Definition scanenv (p : nat) (la : N) (e : vars) : vars :=
    [] :: [("p", vint p)] :: [] :: [("last", vp la); ("eot", VBool false)] :: [] :: e.
  Definition with_spos (pos : nat) (s : sstate) : sstate := {| s_pos := pos; s_current := s_current s; s_hist := s_hist s |}.
  Lemma scan_run : forall o d b ty h s w la, (Z.of_nat (length d) < 2 ^ 62)%Z -> forall fuel p res k, sb8_scan fuel d b p = Ok res -> (fuel <= k)%nat -> (p <= length d)%nat ->
    exists q, (q <= length d)%nat /\ match res with ScanAt p' => p' = q | _ => True end /\
    loop k "" (cond_ ps C sb8_cond) (scoped_ ps C n sb8_body) (init_ ps C n None) (scanenv p la (senv o d b ty s w)) h
    = Done (match res with ScanAt _ => Fall | ScanEOF => Brk "main" | ScanMore => Ret [VInt Untyped 0; VData (if ty then Str else NilBytes) []; VNil] end,
            scanenv q la (senv o d b ty (match res with ScanEOF => with_spos (length d) s | _ => s end) w), h).
  Proof.
    intros o d b ty h s w la D. induction fuel as [|fuel IH]; intros p res k G K P; [discriminate|].
    destruct k as [|k]; [lia|]. rewrite loop_S. cbn [sb8_scan] in G. rewrite ?N.lor_assoc in G.
    destruct (Nat.ltb_spec p (length d)) as [L|L].
    2: { injection G as <-. exists p. repeat split; [lia|]. unfold sb8_cond, scanenv, senv. repeat step. rewrite of_nat_ltb, (proj2 (Nat.ltb_ge _ _) L). repeat step. reflexivity. }
    unfold slice_from in G. rewrite (proj2 (Nat.ltb_ge _ _) P) in G. cbn [bind] in G.
    destruct (sentences_lookup (skipn p d)) as [[v w']| |] eqn:Lk; try discriminate. cbn [bind] in G.
    pose proof (lookup_width _ _ _ _ L Lk) as W.
    destruct (w' =? 0)%nat eqn:W0.
    { exists p. split; [lia|]. split; [destruct b; injection G as <-; exact I|]. unfold sb8_cond at 1, sb8_body at 1, scanenv, senv. repeat step. rewrite of_nat_ltb, (proj2 (Nat.ltb_lt _ _) L). repeat step.
      rewrite cut_from by exact P. bi. erewrite C_lookup by exact Lk. repeat step. rewrite of_nat_eqb0, W0. repeat step.
      destruct b; injection G as <-; repeat step; reflexivity. }
    destruct (is v _) eqn:S in G.
    { injection G as <-. exists p. repeat split; [lia|]. unfold sb8_cond at 1, sb8_body at 1, scanenv, senv. repeat step. rewrite of_nat_ltb, (proj2 (Nat.ltb_lt _ _) L). repeat step.
      rewrite cut_from by exact P. bi. erewrite C_lookup by exact Lk. repeat step. rewrite of_nat_eqb0, W0. goc. rewrite S. repeat step. reflexivity. }
    destruct (IH (p + w')%nat res k G ltac:(lia) ltac:(lia)) as (q & Q & R & X). exists q. split; [exact Q|]. split; [exact R|]. rewrite <- X.
    unfold sb8_cond at 1, sb8_body at 1, scanenv at 1 2, senv at 1 2. repeat step. rewrite of_nat_ltb, (proj2 (Nat.ltb_lt _ _) L). repeat step.
    rewrite cut_from by exact P. bi. erewrite C_lookup by exact Lk. repeat step. rewrite of_nat_eqb0, W0. goc. rewrite S. repeat step. rewrite wrap_add by lia. repeat step. reflexivity.
  Qed.
  Ltac joined IH G := cbn [bind] in G; repeat step; rewrite wrap_add by lia; repeat step; refine (IH _ _ _ _ G _ _); cbn [s_pos]; lia.
  Ltac broken G := cbn [bind] in G; repeat step; injection G as <-; unfold split_tail; repeat step; rewrite cut_to by lia; repeat step; reflexivity.
  Ltac tail_rules IH G :=
    goc; match type of G with context [is ?c (N.lor _SContinue _SATerm) && ?x] => destruct (is c (N.lor _SContinue _SATerm) && x); [joined IH G|] end;
    goc; match type of G with context [is ?c (N.lor (N.lor _Close _Sp) _ParaSep) && ?x] => destruct (is c (N.lor (N.lor _Close _Sp) _ParaSep) && x); [joined IH G|] end;
    goc; match type of G with context [is ?c (N.lor _Sp _ParaSep) && ?x] => destruct (is c (N.lor _Sp _ParaSep) && x); [joined IH G|] end;
    goc; match type of G with context [?x || (is ?c _ParaSep && ?y)] => destruct (x || (is c _ParaSep && y)); [broken G|joined IH G] end.
  Lemma subsequent_bound : forall props d e a m, subsequent props d e = Ok (Some a, m) -> (a <= length d)%nat.
  Proof.
    intros props d e a m H. unfold subsequent in H. revert H. generalize (S (length d)) as fuel, 0%nat as i. induction fuel as [|fuel IH]; intros i H; [discriminate|].
    cbn [subsequent_loop] in H. destruct (Nat.ltb_spec i (length d)) as [L|L]; [|destruct e; discriminate].
    destruct (slice_from d i); try discriminate. cbn [bind] in H. destruct (sentences_lookup a0) as [[v w]| |]; try discriminate. cbn [bind] in H.
    destruct (w =? 0)%nat; [destruct e; discriminate|]. destruct (is v _Ignore); [exact (IH _ H)|]. destruct (is v props); [|discriminate]. injection H as <- _. lia.
  Qed.
  Lemma split_loop : forall o d b ty h, (length d < n)%nat -> (Z.of_nat (length d) < 2 ^ 62)%Z -> forall fuel s r w k, s_loop fuel d b s = Ok r -> (fuel <= k)%nat -> (s_pos s <= length d)%nat ->
    finish ps f_splitFunc (obind (leave (loop k "main" (cond_ ps C None) (scoped_ ps C n split_body) (init_ ps C n None) ([] :: senv o d b ty s w) h)) (then_ ps C n split_tail))
    = Done (match r with None => [VInt tint 0; VData (if ty then Str else NilBytes) []; VNil] | Some pos => [vint pos; VData o (firstn pos d); VNil] end, h).
  Proof.
    intros o d b ty h N D. induction fuel as [|fuel IH]; intros s r w k G K P; [discriminate|].
    destruct k as [|k]; [lia|]. rewrite loop_S. cbn [s_loop] in G. cbn [cond_]. unfold split_body at 1. unfold senv at 1.
    repeat step. rewrite of_nat_eqb. repeat step.
    destruct (s_pos s =? length d)%nat eqn:E.
    { repeat step. destruct b; cbn [negb] in *; injection G as <-.
      - repeat step. unfold split_tail; repeat step. rewrite cut_to by assumption. repeat step. reflexivity.
      - repeat step. reflexivity. }
    unfold slice_from in G. assert (L : (length d <? s_pos s)%nat = false) by (apply Nat.ltb_ge; exact P). rewrite L in G. cbn [bind] in G.
    destruct (sentences_lookup (skipn (s_pos s) d)) as [[cur w']| |] eqn:Lk; try discriminate. cbn [bind] in G.
    goc. set (hi := s_hist s) in *. set (la := s_current s) in *.
    merge [("lastLastExIgnore", vp (h_lastLastEx (s_update la hi))); ("lastExIgnore", vp (h_lastEx (s_update la hi)))]
      ltac:(cbn [s_update h_lastLastEx h_lastEx]; destruct (is la _Ignore); repeat step; reflexivity).
    goc.
    merge [("lastExIgnoreSp", vp (h_lastExSp (s_update la hi)))]
      ltac:(change (h_lastExSp (s_update la hi)) with (if negb (is (h_lastEx (s_update la hi)) _Sp) then h_lastEx (s_update la hi) else h_lastExSp hi); destruct (is (h_lastEx _) _Sp); repeat step; reflexivity).
    goc.
    merge [("lastExIgnoreClose", vp (h_lastExClose (s_update la hi)))]
      ltac:(change (h_lastExClose (s_update la hi)) with (if negb (is (h_lastEx (s_update la hi)) _Close) then h_lastEx (s_update la hi) else h_lastExClose hi); destruct (is (h_lastEx _) _Close); repeat step; reflexivity).
    goc.
    merge [("lastExIgnoreSpClose", vp (h_lastExSpClose (s_update la hi)))]
      ltac:(change (h_lastExSpClose (s_update la hi)) with (if negb (is (h_lastExSp (s_update la hi)) _Close) then h_lastExSp (s_update la hi) else h_lastExSpClose hi); destruct (is (h_lastExSp _) _Close); repeat step; reflexivity).
    goc.
    merge [("lastExIgnoreParaSepSpClose", vp (h_lastExParaSepSpClose (s_update la hi)))]
      ltac:(change (h_lastExParaSepSpClose (s_update la hi)) with (if negb (is (h_lastExSpClose (s_update la hi)) _ParaSep) then h_lastExSpClose (s_update la hi) else h_lastExParaSepSpClose hi); destruct (is (h_lastExSpClose _) _ParaSep); repeat step; reflexivity).
    set (hi' := s_update la hi) in *. clearbody hi'. clearbody la. clearbody hi.
    apply Nat.eqb_neq in E. pose proof (lookup_width d (s_pos s) _ _ ltac:(lia) Lk) as W.
    repeat step. rewrite cut_from by exact P. bi. erewrite C_lookup by exact Lk. repeat step.
    rewrite of_nat_eqb0. destruct (w' =? 0)%nat eqn:W0.
    { repeat step. destruct b; injection G as <-.
      - unfold split_tail; repeat step. rewrite cut_to by lia. repeat step. reflexivity.
      - repeat step. reflexivity. }
    apply Nat.eqb_neq in W0. unfold s_rules, s_rules_tail in G. rewrite ?N.lor_assoc in G.
    goc. rewrite of_N_eqb0.
    destruct (N.lor cur la =? 0)%N; [joined IH G|].
    goc. destruct (is cur _LF && is la _CR); [joined IH G|].
    goc. destruct (is la _ParaSep); [broken G|].
    goc. destruct (is cur (N.lor _Extend _Format)); [joined IH G|].
    goc. destruct (is cur _Numeric && _); [joined IH G|].
    goc. destruct (is cur _Upper && _ && _); [joined IH G|].
    goc. destruct (is (h_lastExSpClose hi') _ATerm).
    2: { tail_rules IH G. }
    destruct (sb8_scan _ d b _) as [sc| |] eqn:SC; try discriminate. cbn [bind] in G.
    destruct (scan_run o d b ty h {| s_pos := s_pos s; s_current := cur; s_hist := hi' |} w' la D _ _ _ n SC N P) as (q & Q & R & X).
    repeat step. match goal with |- context [loop n "" ?c ?b' ?po ?e ?h0] => change (loop n "" c b' po e h0) with (loop n "" (cond_ ps C sb8_cond) (scoped_ ps C n sb8_body) (init_ ps C n None) (scanenv (s_pos s) la (senv o d b ty {| s_pos := s_pos s; s_current := cur; s_hist := hi' |} w')) h) end.
    rewrite X. clear X. unfold scanenv, senv, with_spos. cbn [s_pos s_current s_hist].
    destruct sc as [p'| |]; cbn [s_pos s_current s_hist].
    3: { injection G as <-. repeat step. reflexivity. }
    2: { broken G. }
    subst p'. repeat step. unfold slice_from in G. rewrite (proj2 (Nat.ltb_ge _ _) Q) in G. cbn [bind] in G.
    destruct (subsequent _Lower (skipn q d) b) as [[adv more]| |] eqn:SU; try discriminate. cbn [bind] in G.
    rewrite cut_from by exact Q. bi. erewrite C_sub; [|rewrite skipn_length; lia|rewrite skipn_length; lia|exact SU]. repeat step.
    destruct more; [injection G as <-; repeat step; reflexivity|]. repeat step.
    assert (AD : match adv with Some a => (q + a <= length d)%nat | None => True end).
    { destruct adv as [a|]; [|exact I]. apply subsequent_bound in SU. rewrite skipn_length in SU. lia. }
    destruct adv as [a|]; cbn [oz].
    - replace (Z.of_nat a =? -1)%Z with false by (symmetry; apply Z.eqb_neq; lia). cbn [bind] in G. repeat step. rewrite wrap_add by lia. repeat step. refine (IH _ _ _ _ G _ _); cbn [s_pos]; lia.
    - change (-1 =? -1)%Z with true. repeat step. tail_rules IH G.
  Qed.

  Lemma splitFunc_run : forall o d e r h, (o = NilBytes -> d = []) -> (2 * length d + 2 <= n)%nat -> (Z.of_nat (length d) < 2 ^ 62)%Z -> splitFunc d e = Ok r ->
    run_fun ps C n f_splitFunc [VData o d; VBool e] h = Done (out_vals o r, h).
  Proof.
    intros o d e r h O N D H. erewrite run_fun_finish by reflexivity. cbn [fd_body f_splitFunc]. unfold splitFunc in H.
    assert (T : d <> [] -> forall b, VData o b = tok_val o (Some b)) by (intros F b; destruct o; try reflexivity; elim F; auto).
    repeat step. rewrite of_nat_eqb0. destruct d as [|b0 rest]; [injection H as <-; cbn [length Nat.eqb]; repeat step; destruct o; reflexivity|].
    specialize (T ltac:(discriminate)). set (d := b0 :: rest) in *. change (is_nil d) with false in H. change (length d =? 0)%nat with false.
    assert (L0 : (0 < length d)%nat) by (cbn; lia).
    unfold slice_from in H. change (length d <? 0)%nat with false in H. cbn [bind skipn] in H. 
    destruct (sentences_lookup d) as [[cur w]| |] eqn:Lk; try discriminate. cbn [bind] in H.
    assert (W : (w <= length d)%nat) by (destruct (s_lk d ltac:(discriminate)) as (v0 & w0 & L1 & L2 & _); rewrite Lk in L1; injection L1 as _ <-; exact L2).
    clearbody d. repeat step. rewrite cut_to, firstn_all by lia. bi. erewrite C_lookup by exact Lk. repeat step. rewrite of_nat_eqb0.
    destruct (w =? 0)%nat eqn:W0.
    { repeat step. destruct e; cbn [negb] in H |- *.
      - unfold slice_to in H. rewrite Nat.ltb_irrefl in H. cbn [bind] in H. injection H as <-. repeat step. rewrite cut_to by lia. repeat step. rewrite T. reflexivity.
      - injection H as <-. repeat step. destruct o; reflexivity. }
    repeat step. rewrite Z.add_0_l, wrap_int by lia. repeat step.
    destruct (s_loop _ _ _ _) as [q| |] eqn:G in H; try discriminate. cbn [bind] in H.
    refine (eq_trans (split_loop o d e (match o with Str => true | _ => false end) h ltac:(lia) D _ _ _ w n G _ _) _); [lia|exact W|].
    destruct q as [pos|]; [|injection H as <-; destruct o; reflexivity].
    unfold slice_to in H. destruct (length d <? pos)%nat; [discriminate|]. cbn [bind] in H. injection H as <-. rewrite T. reflexivity.
  Qed.
End Calls.
