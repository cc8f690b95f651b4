(** The text of the split functions of words, from the top, and of words/bleve_compat.go, run, does what the model says. *)
From Coq Require Import String.
From Verif Require Import Base Trie GoSyntax GoSem GoFacts ProgWords TableWords Engine Lk Utf8 Words CodeWBase CodeWSplit.
Local Open Scope string_scope.
Local Open Scope list_scope.

Section Calls.
  Variable C : fid -> list val -> heap -> out (list val * heap).
  Variable n : nat.

  Hypothesis C_is : forall a b h, C ("property", "is") [VInt (Typed "property" U32) (Z.of_N a); VInt (Typed "property" U32) (Z.of_N b)] h = Done ([VBool (is a b)], h).
  Hypothesis C_lookup : forall o s v w h, words_lookup s = Ok (v, w) -> C ("", "lookup") [VData o s] h = Done ([VInt (Typed "property" U32) (Z.of_N v); VInt (Typed "int" I64) (Z.of_nat w)], h).
  Hypothesis C_decode : forall o d h, C ("", "decodeRune") [VData o d] h = Done ([VInt (Typed "int32" I32) (Z.of_N (fst (DecodeRune d))); VInt (Typed "int" I64) (Z.of_nat (snd (DecodeRune d)))], h).
  Hypothesis C_contain : forall m l r h, runes_rep m l -> C ("", "runesContain") [VRunes m; VInt (Typed "int32" I32) (Z.of_N r)] h = Done ([VBool (runesContain l r)], h).
  Hypothesis C_sub : forall props o d e adv more h, (length d < n)%nat -> (Z.of_nat (length d) < 2 ^ 62)%Z -> subsequent props d e = Ok (adv, more) ->
    C ("", "subsequent") [VInt (Typed "property" U32) (Z.of_N props); VData o d; VBool e] h = Done ([VInt (Typed "int" I64) (oz adv); VBool more], h).
  Ltac become v tac := match goal with |- ?l = _ => let t := active l in let X := fresh in assert (X : t = v) by tac; rewrite X; clear X end.

  Lemma jsplit_run : forall j jl o d e r h, joiner_at j jl h -> (o = NilBytes -> d = []) -> (2 * length d + 2 <= n)%nat -> (Z.of_nat (length d) < 2 ^ 62)%Z -> joinersSplitFunc j d e = Ok r ->
    run_fun pw C n f_jsplit [VPtr "Joiners" jl; VData o d; VBool e] h = Done (out_vals o r, h).
  Proof.
    intros j jl o d e r h J O N D H. erewrite run_fun_finish by reflexivity. cbn [fd_body f_jsplit]. unfold joinersSplitFunc in H.
    assert (T : d <> [] -> forall b, VData o b = tok_val o (Some b)) by (intros F b; destruct o; try reflexivity; elim F; auto).
    repeat step. rewrite of_nat_eqb0. destruct d as [|b0 rest]; [injection H as <-; cbn [length Nat.eqb]; repeat step; destruct o; reflexivity|].
    specialize (T ltac:(discriminate)). set (d := b0 :: rest) in *. change (is_nil d) with false in H. change (length d =? 0)%nat with false.
    assert (L0 : (0 < length d)%nat) by (cbn; lia).
    unfold slice_from in H. change (length d <? 0)%nat with false in H. cbn [bind skipn] in H.
    destruct (words_lookup d) as [[cur0 w]| |] eqn:Lk; try discriminate. cbn [bind] in H.
    assert (W : (w <= length d)%nat) by (destruct (w_lk d ltac:(discriminate)) as (v0 & w0 & L1 & L2 & _); rewrite Lk in L1; injection L1 as _ <-; exact L2).
    clearbody d. repeat step. rewrite cut_to, firstn_all by lia. bi. erewrite C_lookup by exact Lk. repeat step. rewrite of_nat_eqb0.
    destruct (w =? 0)%nat eqn:W0.
    { repeat step. destruct e; cbn [negb] in H |- *.
      - unfold slice_to in H. rewrite Nat.ltb_irrefl in H. cbn [bind] in H. injection H as <-. repeat step. rewrite cut_to by lia. repeat step. rewrite T. reflexivity.
      - injection H as <-. repeat step. destruct o; reflexivity. }
    repeat step.
    set (hl := match jl with None => false | Some l => match hget l h with Some (_, [_; (_, VRunes (Some _))]) => true | _ => false end end).
    become (@Done (list val * heap) ([VBool hl], h))
      ltac:(destruct j as [j|], jl as [jl|]; cbn [joiner_at] in J; try contradiction; [destruct J as (m & ml & J & J1 & J2); subst hl; rewrite J; destruct ml; reflexivity|reflexivity]).
    repeat step.
    merge [("current", vp (leadingBits j d cur0))]
      ltac:(destruct j as [j|], jl as [jl|]; cbn [joiner_at] in J; try contradiction; 
        [destruct J as (m & ml & J & J1 & J2); subst hl; rewrite J; destruct ml as [ml|];
          [repeat step; rewrite cut_to, firstn_all by lia; bi; rewrite C_decode; repeat step; rewrite J; bi; erewrite C_contain by exact J2; repeat step;
           cbn [leadingBits]; destruct (runesContain _ _); repeat step; rewrite ?of_lor; repeat step; reflexivity
          |cbn [runes_rep] in J2; repeat step; cbn [leadingBits]; rewrite J2; reflexivity]
        |subst hl; repeat step; reflexivity]).
    clear hl. set (cur := leadingBits j d cur0) in H |- *. clearbody cur.
    repeat step. rewrite Z.add_0_l, wrap_int by lia. repeat step.
    destruct (w_loop _ _ _ _ _) as [q| |] eqn:G in H; try discriminate. cbn [bind] in H.
    refine (eq_trans (split_loop C n C_is C_lookup C_decode C_contain C_sub j jl o d e (match o with Str => true | _ => false end) h J ltac:(lia) D _ _ _ w n G _ _ _) _); [lia|exact W|cbn; lia|].
    destruct q as [pos|]; [|injection H as <-; destruct o; reflexivity].
    unfold slice_to in H. destruct (length d <? pos)%nat; [discriminate|]. cbn [bind] in H. injection H as <-. rewrite T. reflexivity.
  Qed.

  Hypothesis C_jsplit : forall j jl o d e r h, joiner_at j jl h -> (o = NilBytes -> d = []) -> (2 * length d + 2 <= n)%nat -> (Z.of_nat (length d) < 2 ^ 62)%Z -> joinersSplitFunc j d e = Ok r ->
    C ("Joiners", "splitFunc") [VPtr "Joiners" jl; VData o d; VBool e] h = Done (out_vals o r, h).
  Definition no_joiners : object := ("Joiners", [("Middle", VRunes None); ("Leading", VRunes None)]).
  Lemma splitFunc_run : forall o d e r h, (o = NilBytes -> d = []) -> (2 * length d + 2 <= n)%nat -> (Z.of_nat (length d) < 2 ^ 62)%Z -> splitFunc d e = Ok r ->
    run_fun pw C n f_splitFunc [VData o d; VBool e] h = Done (out_vals o r, h ++ [no_joiners]).
  Proof.
    intros o d e r h O N D H. erewrite run_fun_finish by reflexivity. cbn [fd_body f_splitFunc]. repeat step.
    erewrite C_jsplit; [| |exact O|exact N|exact D|exact H]; [|exists None, None; split; [apply hget_new|split; reflexivity]].
    unfold out_vals. destruct (so_err r); cbn [err_val]; destruct (so_token r); cbn [tok_val]; repeat step; reflexivity.
  Qed.

  (** ** bleve_compat.go *)
  Ltac calls := repeat first [rewrite of_lor | rewrite of_land | rewrite C_is; bi | rewrite if_and; bi | rewrite if_or; bi ].
  Ltac goc := repeat step; calls; repeat step.
  Definition bi_cond : option expr := Eval vm_compute in match nth_error (fd_body f_BleveIdeographic) 1 with Some (SFor _ _ c _ _) => c | _ => None end.
  Definition bi_body : list stmt := Eval vm_compute in match nth_error (fd_body f_BleveIdeographic) 1 with Some (SFor _ _ _ _ b) => b | _ => [] end.
  Definition bi_tail : list stmt := Eval vm_compute in skipn 2 (fd_body f_BleveIdeographic).
  Lemma ideographic_loop : forall o d h, (Z.of_nat (length d) < 2 ^ 62)%Z -> forall fuel pos r k, bi_loop fuel d pos = Ok r -> (fuel <= k)%nat -> (pos <= length d)%nat ->
    finish pw f_BleveIdeographic (obind (leave (loop k "" (cond_ pw C bi_cond) (scoped_ pw C n bi_body) (init_ pw C n None) ([] :: [[("pos", vint pos); ("token", VData o d)]; []]) h)) (then_ pw C n bi_tail))
    = Done ([VBool r], h).
  Proof.
    intros o d h D. induction fuel as [|fuel IH]; intros pos r k G K P; [discriminate|]. destruct k as [|k]; [lia|]. rewrite loop_S. cbn [bi_loop] in G.
    unfold bi_cond at 1. unfold bi_body at 1. repeat step. rewrite of_nat_ltb. repeat step. destruct (Nat.ltb_spec pos (length d)) as [L|L].
    2: { injection G as <-. repeat step. unfold bi_tail. repeat step. reflexivity. }
    unfold slice_from in G. rewrite (proj2 (Nat.ltb_ge _ _) P) in G. cbn [bind] in G. destruct (words_lookup (skipn pos d)) as [[cur w]| |] eqn:Lk; try discriminate. cbn [bind] in G.
    pose proof (lookup_width _ _ _ _ L Lk) as W.
    repeat step. rewrite cut_from by exact P. bi. erewrite C_lookup by exact Lk. repeat step. rewrite of_nat_eqb0. rewrite !N.lor_assoc in G. destruct (pos =? 0)%nat; goc.
    - destruct (is cur _BleveIdeographic); repeat step; [|injection G as <-; reflexivity]. rewrite wrap_add by lia. repeat step. refine (IH _ _ _ G _ _); lia.
    - destruct (is cur _); repeat step; [|injection G as <-; reflexivity]. rewrite wrap_add by lia. repeat step. refine (IH _ _ _ G _ _); lia.
  Qed.
  Lemma ideographic_run : forall o d r h, (length d < n)%nat -> (Z.of_nat (length d) < 2 ^ 62)%Z -> BleveIdeographic d = Ok r -> run_fun pw C n f_BleveIdeographic [VData o d] h = Done ([VBool r], h).
  Proof.
    intros o d r h N D H. erewrite run_fun_finish by reflexivity. cbn [fd_body f_BleveIdeographic]. repeat step. exact (ideographic_loop o d h D _ 0%nat _ n H N ltac:(lia)).
  Qed.
  Definition bn_cond : option expr := Eval vm_compute in match nth_error (fd_body f_BleveNumeric) 4 with Some (SFor _ _ c _ _) => c | _ => None end.
  Definition bn_body : list stmt := Eval vm_compute in match nth_error (fd_body f_BleveNumeric) 4 with Some (SFor _ _ _ _ b) => b | _ => [] end.
  Definition bn_tail : list stmt := Eval vm_compute in skipn 5 (fd_body f_BleveNumeric).
  Definition bnenv (o : origin) (d : bytes) (pos : nat) (w : nat) (cur le lle : N) : vars :=
    [[("lastLastExIgnore", vp lle); ("lastExIgnore", vp le); ("current", vp cur); ("w", vint w); ("pos", vint pos); ("token", VData o d)]; []].
  Ltac again IH G := repeat step; rewrite wrap_add by lia; repeat step; refine (IH _ _ _ _ _ _ _ G _ _); lia.
  Ltac rule IH G := goc; match type of G with (if ?c then _ else _) = _ => destruct c; [again IH G|] end.
  Lemma numeric_loop : forall o d h, (length d < n)%nat -> (Z.of_nat (length d) < 2 ^ 62)%Z -> forall fuel pos w0 cur0 le0 lle0 r k, bn_loop fuel d pos cur0 le0 lle0 = Ok r -> (fuel <= k)%nat -> (pos <= length d)%nat ->
    finish pw f_BleveNumeric (obind (leave (loop k "" (cond_ pw C bn_cond) (scoped_ pw C n bn_body) (init_ pw C n None) ([] :: bnenv o d pos w0 cur0 le0 lle0) h)) (then_ pw C n bn_tail))
    = Done ([VBool r], h).
  Proof.
    intros o d h N D. induction fuel as [|fuel IH]; intros pos w0 cur0 le0 lle0 r k G K P; [discriminate|]. destruct k as [|k]; [lia|]. rewrite loop_S. cbn [bn_loop] in G.
    unfold bn_cond at 1. unfold bn_body at 1. unfold bnenv. repeat step. rewrite of_nat_ltb. repeat step. destruct (Nat.ltb_spec pos (length d)) as [L|L].
    2: { injection G as <-. repeat step. unfold bn_tail. repeat step. reflexivity. }
    unfold slice_from in G. rewrite (proj2 (Nat.ltb_ge _ _) P) in G. cbn [bind] in G. destruct (words_lookup (skipn pos d)) as [[cur w]| |] eqn:Lk; try discriminate. cbn [bind] in G.
    pose proof (lookup_width _ _ _ _ L Lk) as W. assert (P2 : (pos + w <= length d)%nat) by lia. rewrite (proj2 (Nat.ltb_ge _ _) P2) in G. cbn [bind] in G.
    goc.
    merge [("lastLastExIgnore", vp (if negb (is cur0 _Ignore) then le0 else lle0)); ("lastExIgnore", vp (if negb (is cur0 _Ignore) then cur0 else le0))]
      ltac:(destruct (is cur0 _Ignore); repeat step; reflexivity).
    set (lle := if negb (is cur0 _Ignore) then le0 else lle0) in G |- *. clearbody lle.
    set (le := if negb (is cur0 _Ignore) then cur0 else le0) in G |- *. clearbody le.
    repeat step. rewrite cut_from by exact P. bi. erewrite C_lookup by exact Lk. repeat step. rewrite of_nat_eqb0. destruct (pos =? 0)%nat; goc.
    { destruct (is cur _); [again IH G|repeat step; injection G as <-; reflexivity]. }
    do 2 rule IH G. goc. cbv zeta in G.
    match type of G with (if ?c then _ else ?next) = ?R =>
      evar (X : Prop); enough (T : next = R -> X);
      [ unfold X in T; clear X; destruct c;
        [ repeat step; rewrite wrap_add by lia; rewrite cut_from by exact P2; bi; repeat step;
          destruct (subsequent _Numeric (skipn (pos + w) d) true) as [[adv more]| |] eqn:SU; try discriminate; cbn [bind] in G;
          erewrite C_sub; [|rewrite skipn_length; lia|rewrite skipn_length; lia|exact SU]; repeat step;
          destruct adv as [a|]; cbn [oz];
          [ apply subsequent_bound in SU; rewrite skipn_length in SU;
            replace (Z.of_nat a =? -1)%Z with false by (symmetry; apply Z.eqb_neq; lia); repeat step; rewrite wrap_add by lia; rewrite wrap_add by lia; repeat step; refine (IH _ _ _ _ _ _ _ G _ _); lia
          | change (-1 =? -1)%Z with true; repeat step; exact (T G) ]
        | repeat step; exact (T G) ]
      | unfold X; clear X G; intros G ] end.
    do 2 rule IH G. repeat step. injection G as <-. reflexivity.
  Qed.
  Lemma numeric_run : forall o d r h, (length d < n)%nat -> (Z.of_nat (length d) < 2 ^ 62)%Z -> BleveNumeric d = Ok r -> run_fun pw C n f_BleveNumeric [VData o d] h = Done ([VBool r], h).
  Proof.
    intros o d r h N D H. erewrite run_fun_finish by reflexivity. cbn [fd_body f_BleveNumeric]. repeat step. exact (numeric_loop o d h N D _ 0%nat 0%nat 0%N 0%N 0%N _ n H N ltac:(lia)).
  Qed.
End Calls.
