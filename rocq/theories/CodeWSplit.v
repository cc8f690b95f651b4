(** The text of words/seek.go and words/splitfunc.go, run, does what the model says. *)
From Coq Require Import String.
From Verif Require Import Base Trie GoSyntax GoSem GoFacts ProgWords TableWords Engine Lk Utf8 Words CodeWBase.
Local Open Scope string_scope.
Local Open Scope list_scope.

Definition sub_cond : option expr := Eval vm_compute in match nth_error (fd_body f_subsequent) 1 with Some (SFor _ _ c _ _) => c | _ => None end.
Definition sub_body : list stmt := Eval vm_compute in match nth_error (fd_body f_subsequent) 1 with Some (SFor _ _ _ _ b) => b | _ => [] end.
Definition sub_tail : list stmt := Eval vm_compute in skipn 2 (fd_body f_subsequent).

Section Calls.
  Variable C : fid -> list val -> heap -> out (list val * heap).
  Variable n : nat.

  Hypothesis C_is : forall a b h, C ("property", "is") [VInt (Typed "property" U32) (Z.of_N a); VInt (Typed "property" U32) (Z.of_N b)] h = Done ([VBool (is a b)], h).
  Hypothesis C_lookup : forall o s v w h, words_lookup s = Ok (v, w) -> C ("", "lookup") [VData o s] h = Done ([VInt (Typed "property" U32) (Z.of_N v); VInt (Typed "int" I64) (Z.of_nat w)], h).

  Ltac calls := repeat first [rewrite of_lor | rewrite of_land | rewrite C_is; bi | rewrite if_and; bi | rewrite if_or; bi ].
  Ltac goc := repeat step; calls; repeat step.
  Definition subenv (props : N) (o : origin) (d : bytes) (e ty : bool) (i : nat) : vars :=
    [[("i", vint i); ("properties", vp props); ("data", VData o d); ("atEOF", VBool e); ("advance", vint 0); ("more", VBool false)]; [("T", VType ty)]].
  Lemma lookup_width : forall d i v w, (i < length d)%nat -> words_lookup (skipn i d) = Ok (v, w) -> (w <= length d - i)%nat.
  Proof.
    intros d i v w L H. rewrite <- skipn_length. destruct (w_lk (skipn i d)) as (v0 & w0 & L1 & L2 & _); [intros F; apply skipn_nil in F; lia|].
    rewrite H in L1. injection L1 as _ <-. exact L2.
  Qed.
  Lemma subsequent_loop_run : forall props o d e ty h, (Z.of_nat (length d) < 2 ^ 62)%Z -> forall fuel i adv more k, subsequent_loop fuel props d e i = Ok (adv, more) -> (fuel <= k)%nat -> (i <= length d)%nat ->
    finish pw f_subsequent (obind (leave (loop k "" (cond_ pw C sub_cond) (scoped_ pw C n sub_body) (init_ pw C n None) ([] :: subenv props o d e ty i) h)) (then_ pw C n sub_tail))
    = Done ([VInt tint (oz adv); VBool more], h).
  Proof.
    intros props o d e ty h D. induction fuel as [|fuel IH]; intros i adv more k G K P; [discriminate|].
    destruct k as [|k]; [lia|]. rewrite loop_S. cbn [subsequent_loop] in G. unfold sub_cond at 1. unfold sub_body at 1. unfold subenv.
    repeat step. rewrite of_nat_ltb. repeat step. destruct (Nat.ltb_spec i (length d)) as [L|L].
    2: { repeat step. unfold sub_tail. repeat step. destruct e; injection G as <- <-; repeat step; reflexivity. }
    repeat step. unfold slice_from in G. rewrite (proj2 (Nat.ltb_ge _ _) P) in G. cbn [bind] in G.
    destruct (words_lookup (skipn i d)) as [[v w]| |] eqn:Lk; try discriminate. cbn [bind] in G.
    rewrite cut_from by exact P. bi. erewrite C_lookup by exact Lk. repeat step. rewrite of_nat_eqb0.
    destruct (w =? 0)%nat eqn:W0. { repeat step. destruct e; injection G as <- <-; repeat step; reflexivity. }
    pose proof (lookup_width _ _ _ _ L Lk) as W.
    goc. destruct (is v _Ignore). { repeat step. rewrite wrap_add by lia. repeat step. refine (IH (i + w)%nat _ _ _ G _ _); lia. }
    goc. destruct (is v props); injection G as <- <-; repeat step; reflexivity.
  Qed.
  Lemma subsequent_run : forall props o d e adv more h, (length d < n)%nat -> (Z.of_nat (length d) < 2 ^ 62)%Z -> subsequent props d e = Ok (adv, more) ->
    run_fun pw C n f_subsequent [vp props; VData o d; VBool e] h = Done ([VInt tint (oz adv); VBool more], h).
  Proof.
    intros props o d e adv more h N D H. erewrite run_fun_finish by reflexivity. cbn [fd_body f_subsequent]. unfold subsequent in H.
    repeat step. exact (subsequent_loop_run props o d e (match o with Str => true | _ => false end) h D _ 0%nat _ _ n H N ltac:(lia)).
  Qed.

  (** ** Runes and joiners *)
  Lemma exec_typeswitch : forall x a sb bb d e h, exec pw C n (STypeSwitch x (ECall (EId "any") [a]) [(TyName "string" [], sb); (TySlice (TyName "byte" []), bb)] d) e h
    = ' (v, h) <== one (eval pw C a e h) ;; match v with VData o b => leave (scoped_ pw C n (match o with Str => sb | _ => bb end) ([(x, v)] :: e) h) | _ => Stuck end.
  Proof. intros. cbn [exec]. destruct (one (eval pw C a e h)) as [[[] h']| | |]; try reflexivity. destruct o; reflexivity. Qed.
  Lemma decodeRune_run : forall o d h, run_fun pw C n f_decodeRune [VData o d] h = Done ([VInt trune (Z.of_N (fst (DecodeRune d))); vint (snd (DecodeRune d))], h).
  Proof.
    intros. erewrite run_fun_finish by reflexivity. cbn [fd_body f_decodeRune]. rewrite block_cons, exec_typeswitch.
    destruct o; repeat step; destruct (DecodeRune d); repeat step; reflexivity.
  Qed.
  Definition runes_rep (m : option (list Z)) (l : list N) : Prop := match m with None => l = [] | Some r => r = map Z.of_N l end.
  Definition rc_body : list stmt := Eval vm_compute in match nth_error (fd_body f_runesContain) 0 with Some (SRange _ _ _ b) => b | _ => [] end.
  Definition rc_tail : list stmt := Eval vm_compute in skipn 1 (fd_body f_runesContain).
  Lemma runesContain_run : forall m l r h, runes_rep m l -> run_fun pw C n f_runesContain [VRunes m; VInt trune (Z.of_N r)] h = Done ([VBool (runesContain l r)], h).
  Proof.
    intros m l r h R. erewrite run_fun_finish by reflexivity. cbn [fd_body f_runesContain]. rewrite block_cons, exec_range. repeat step.
    destruct m as [m|]; cbn [runes_rep] in R; subst.
    2: { repeat step. reflexivity. }
    cbn [map]. generalize (Some (map Z.of_N l)) as m. intros m.
    assert (G : forall l, finish pw f_runesContain (obind (each "" (fun z e h => leave (scoped_ pw C n rc_body ([("r", VInt trune z)] :: e) h)) (map Z.of_N l) [[("runes", VRunes m); ("rune", VInt trune (Z.of_N r))]; []] h) (then_ pw C n rc_tail)) = Done ([VBool (runesContain l r)], h)).
    { clear l. induction l as [|x l IH]. { unfold rc_tail. repeat step. reflexivity. }
      cbn [map each]. unfold rc_body at 1. repeat step. rewrite of_N_eqb. cbn [runesContain]. destruct (x =? r)%N; repeat step; [reflexivity|exact IH]. }
    exact (G l).
  Qed.
  (** A receiver that is nil ([None]) or points to the two slices. *)
  Definition joiner_at (j : option Joiners) (jl : option nat) (h : heap) : Prop :=
    match j, jl with
    | None, None => True
    | Some j, Some l => exists m le, hget l h = Some ("Joiners", [("Middle", VRunes m); ("Leading", VRunes le)]) /\ runes_rep m (Middle j) /\ runes_rep le (Leading j)
    | _, _ => False
    end.

  (** ** splitFunc *)
  Hypothesis C_decode : forall o d h, C ("", "decodeRune") [VData o d] h = Done ([VInt (Typed "int32" I32) (Z.of_N (fst (DecodeRune d))); VInt (Typed "int" I64) (Z.of_nat (snd (DecodeRune d)))], h).
  Hypothesis C_contain : forall m l r h, runes_rep m l -> C ("", "runesContain") [VRunes m; VInt (Typed "int32" I32) (Z.of_N r)] h = Done ([VBool (runesContain l r)], h).
  Definition wenv (jl : option nat) (o : origin) (d : bytes) (b ty : bool) (s : wstate) (w : nat) : vars :=
   [[("w", vint w); ("current", vp (w_current s)); ("regionalIndicatorCount", vint (w_ri s)); ("lastLastExIgnore", vp (w_lastLastEx s));
     ("lastExIgnore", vp (w_lastEx s)); ("pos", vint (w_pos s)); ("empty", VData (if ty then Str else NilBytes) []);
     ("j", VPtr "Joiners" jl); ("data", VData o d); ("atEOF", VBool b); ("advance", vint 0); ("token", VData (if ty then Str else NilBytes) []); ("err", VNil)];
    [("T", VType ty)]].
  Hypothesis C_sub : forall props o d e adv more h, (length d < n)%nat -> (Z.of_nat (length d) < 2 ^ 62)%Z -> subsequent props d e = Ok (adv, more) ->
    C ("", "subsequent") [VInt (Typed "property" U32) (Z.of_N props); VData o d; VBool e] h = Done ([VInt (Typed "int" I64) (oz adv); VBool more], h).
  Ltac joined IH G := cbn [bind] in G; repeat step; rewrite wrap_add by lia; repeat step; refine (IH _ _ _ _ G _ _ _); cbn [w_pos w_ri]; lia.
  Ltac broken G := cbn [bind] in G; repeat step; injection G as <-; unfold split_tail; repeat step; rewrite cut_to by lia; repeat step; reflexivity.
  Lemma subsequent_bound : forall props d e a m, subsequent props d e = Ok (Some a, m) -> (a <= length d)%nat.
  Proof.
    intros props d e a m H. unfold subsequent in H. revert H. generalize (S (length d)) as fuel, 0%nat as i. induction fuel as [|fuel IH]; intros i H; [discriminate|].
    cbn [subsequent_loop] in H. destruct (Nat.ltb_spec i (length d)) as [L|L]; [|destruct e; discriminate].
    destruct (slice_from d i); try discriminate. cbn [bind] in H. destruct (words_lookup a0) as [[v w]| |]; try discriminate. cbn [bind] in H.
    destruct (w =? 0)%nat; [destruct e; discriminate|]. destruct (is v _Ignore); [exact (IH _ H)|]. destruct (is v props); [|discriminate]. injection H as <- _. lia.
  Qed.
  (** A rule that looks ahead: when it does not apply, or finds nothing, the rules after it are tried; they are dealt with once. *)
  Ltac ahead IH G b P2 :=
    goc; match type of G with bind (lookahead ?c ?props ?after b ?w ?ri ?next) ?K = ?R =>
      let SU := fresh "SU" in let X := fresh "X" in let T := fresh "T" in
      evar (X : Prop); enough (T : bind next K = R -> X);
      [ unfold X in T; clear X;
        change (lookahead c props after b w ri next) with (if c then ' (adv, more) <- subsequent props after b ;; if more : bool then Ok WMore else match adv with Some a => Ok (WJoin (w + a) ri) | None => next end else next) in G;
        destruct c;
        [ repeat step; rewrite wrap_add by lia; rewrite cut_from by exact P2; bi; repeat step;
          destruct (subsequent props after b) as [[adv more]| |] eqn:SU; try discriminate; cbn [bind] in G;
          erewrite C_sub; [|rewrite skipn_length; lia|rewrite skipn_length; lia|exact SU]; repeat step;
          destruct more; [injection G as <-; repeat step; reflexivity|]; repeat step;
          destruct adv as [a|]; cbn [oz];
          [ apply subsequent_bound in SU; rewrite skipn_length in SU;
            replace (Z.of_nat a =? -1)%Z with false by (symmetry; apply Z.eqb_neq; lia); cbn [bind] in G; repeat step; cbn [negb]; repeat step; rewrite wrap_add by lia; rewrite wrap_add by lia; repeat step; refine (IH _ _ _ _ G _ _ _); cbn [w_pos w_ri]; lia
          | change (-1 =? -1)%Z with true; repeat step; cbn [negb]; repeat step; exact (T G) ]
        | repeat step; exact (T G) ]
      | unfold X; clear X G; intros G ] end.
  Ltac rule IH G := goc; match type of G with (bind (if ?c then _ else _) _) = _ => destruct c; [joined IH G|] end.
  (** The condition on the receiver and one of its slices, and what happens under it. *)
  Ltac become v tac := match goal with |- ?l = _ => let t := active l in let X := fresh in assert (X : t = v) by tac; rewrite X; clear X end.
  Lemma split_loop : forall j jl o d b ty h, joiner_at j jl h -> (length d < n)%nat -> (Z.of_nat (length d) < 2 ^ 62)%Z -> forall fuel s r w k, w_loop fuel j d b s = Ok r -> (fuel <= k)%nat ->
    (w_pos s <= length d)%nat -> (w_ri s <= w_pos s)%nat ->
    finish pw f_jsplit (obind (leave (loop k "" (cond_ pw C None) (scoped_ pw C n split_body) (init_ pw C n None) ([] :: wenv jl o d b ty s w) h)) (then_ pw C n split_tail))
    = Done (match r with None => [VInt tint 0; VData (if ty then Str else NilBytes) []; VNil] | Some pos => [vint pos; VData o (firstn pos d); VNil] end, h).
  Proof.
    intros j jl o d b ty h J N D. induction fuel as [|fuel IH]; intros s r w k G K P R; [discriminate|].
    destruct k as [|k]; [lia|]. rewrite loop_S. cbn [w_loop] in G. cbn [cond_]. unfold split_body at 1. unfold wenv at 1.
    repeat step. rewrite of_nat_eqb. repeat step.
    destruct (w_pos s =? length d)%nat eqn:E.
    { repeat step. destruct b; cbn [negb] in *; injection G as <-.
      - repeat step. unfold split_tail; repeat step. rewrite cut_to by assumption. repeat step. reflexivity.
      - repeat step. reflexivity. }
    unfold slice_from in G. assert (L : (length d <? w_pos s)%nat = false) by (apply Nat.ltb_ge; exact P). rewrite L in G. cbn [bind] in G.
    destruct (words_lookup (skipn (w_pos s) d)) as [[cur0 w']| |] eqn:Lk; try discriminate. cbn [bind] in G.
    goc. set (la := w_current s) in *.
    merge [("lastLastExIgnore", vp (if negb (is la _Ignore) then w_lastEx s else w_lastLastEx s)); ("lastExIgnore", vp (if negb (is la _Ignore) then la else w_lastEx s))]
      ltac:(destruct (is la _Ignore); repeat step; reflexivity).
    set (lle := if negb (is la _Ignore) then w_lastEx s else w_lastLastEx s) in G |- *. clearbody lle.
    set (le := if negb (is la _Ignore) then la else w_lastEx s) in G |- *. clearbody le. clearbody la.
    apply Nat.eqb_neq in E. pose proof (lookup_width d (w_pos s) _ _ ltac:(lia) Lk) as W.
    repeat step. rewrite cut_from by exact P. bi. erewrite C_lookup by exact Lk. repeat step.
    rewrite of_nat_eqb0. destruct (w' =? 0)%nat eqn:W0.
    { repeat step. destruct b; injection G as <-.
      - unfold split_tail; repeat step. rewrite cut_to by lia. repeat step. reflexivity.
      - repeat step. reflexivity. }
    apply Nat.eqb_neq in W0. assert (P2 : (w_pos s + w' <= length d)%nat) by lia. rewrite (proj2 (Nat.ltb_ge _ _) P2) in G. cbn [bind] in G.
    repeat step.
    set (hm := match jl with None => false | Some l => match hget l h with Some (_, (_, VRunes (Some _)) :: _) => true | _ => false end end).
    become (@Done (list val * heap) ([VBool hm], h))
      ltac:(destruct j as [j|], jl as [jl|]; cbn [joiner_at] in J; try contradiction; [destruct J as (m & ml & J & J1 & J2); subst hm; rewrite J; destruct m; reflexivity|reflexivity]).
    repeat step.
    merge [("current", vp (middleBits j (skipn (w_pos s) d) cur0))]
      ltac:(destruct j as [j|], jl as [jl|]; cbn [joiner_at] in J; try contradiction; 
        [destruct J as (m & ml & J & J1 & J2); subst hm; rewrite J; destruct m as [m|];
          [repeat step; rewrite cut_from by exact P; bi; rewrite C_decode; repeat step; rewrite J; bi; erewrite C_contain by exact J1; repeat step;
           cbn [middleBits]; destruct (runesContain _ _); repeat step; rewrite ?of_lor; repeat step; reflexivity
          |cbn [runes_rep] in J1; repeat step; cbn [middleBits]; rewrite J1; reflexivity]
        |subst hm; repeat step; reflexivity]).
    clear hm. set (cur := middleBits j (skipn (w_pos s) d) cur0) in G |- *. clearbody cur.
    unfold w_rules in G. rewrite !N.lor_assoc in G.
    do 3 rule IH G.
    goc. match type of G with (bind (if ?c then _ else _) _) = _ => destruct c; [broken G|] end.
    do 2 rule IH G.
    ahead IH G b P2.
    do 2 rule IH G. ahead IH G b P2.
    do 2 rule IH G. ahead IH G b P2.
    do 3 rule IH G.
    goc. match type of G with (bind (if ?c then _ else _) _) = _ => destruct c; [|broken G] end.
    goc. rewrite wrap_succ by lia. change (2 =? 0)%Z with false. bi. goc.
    assert (A : (wrap I64 (Z.rem (Z.of_nat (S (w_ri s))) 2) =? 1)%Z = ((w_ri s + 1) mod 2 =? 1)%nat)
     by (replace (w_ri s + 1)%nat with (S (w_ri s)) by lia; rewrite Z.rem_mod_nonneg by lia; rewrite wrap_int by (pose proof (Z.mod_pos_bound (Z.of_nat (S (w_ri s))) 2); lia);
      change 2%Z with (Z.of_nat 2); rewrite <- Nat2Z.inj_mod; apply (of_nat_eqb _ 1)).
    rewrite A; clear A; replace (S (w_ri s)) with (w_ri s + 1)%nat by lia; destruct ((w_ri s + 1) mod 2 =? 1)%nat; [joined IH G|broken G].
  Qed.
End Calls.
