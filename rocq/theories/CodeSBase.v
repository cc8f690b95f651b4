(** The text of package sentences, run by the interpreter of
    GoSem.v, does what the model says: here the functions, and the lookup of sentences/trie.go. *)
From Coq Require Import String.
From Verif Require Import Base Trie GoSyntax GoSem GoFacts ProgSentences TableSentences Engine Lk Sentences.
Local Open Scope string_scope.
Local Open Scope list_scope.

(** ** The functions *)
Definition fun_of (f : fid) : fundecl := match find_fun f ps_funs with Some f => f | None => Build_fundecl [] None "" [] [] [] end.
Definition f_is : fundecl := Eval vm_compute in fun_of ("property", "is").
Definition f_lookup : fundecl := Eval vm_compute in fun_of ("", "lookup").
Definition f_lookupValue : fundecl := Eval vm_compute in fun_of ("", "lookupValue").
Definition f_splitFunc : fundecl := Eval vm_compute in fun_of ("", "splitFunc").
Definition f_subsequent : fundecl := Eval vm_compute in fun_of ("", "subsequent").
Definition f_FromString : fundecl := Eval vm_compute in fun_of ("", "FromString").
Definition f_FromBytes : fundecl := Eval vm_compute in fun_of ("", "FromBytes").
Definition f_isASCIIAlphanumericOrSpace : fundecl := Eval vm_compute in fun_of ("", "isASCIIAlphanumericOrSpace").
Definition f_Next : fundecl := Eval vm_compute in fun_of ("Iterator", "Next").
Definition f_Value : fundecl := Eval vm_compute in fun_of ("Iterator", "Value").
Definition f_Start : fundecl := Eval vm_compute in fun_of ("Iterator", "Start").
Definition f_End : fundecl := Eval vm_compute in fun_of ("Iterator", "End").
Definition f_Reset : fundecl := Eval vm_compute in fun_of ("Iterator", "Reset").
Definition f_SetText : fundecl := Eval vm_compute in fun_of ("Iterator", "SetText").
Definition f_First : fundecl := Eval vm_compute in fun_of ("Iterator", "First").
Definition split_body : list stmt := Eval vm_compute in match nth_error (fd_body f_splitFunc) 12 with Some (SFor _ _ _ _ b) => b | _ => [] end.
Definition split_tail : list stmt := Eval vm_compute in skipn 13 (fd_body f_splitFunc).

Ltac red_ t :=
  let t' := eval lazy beta iota zeta delta [eval evals evalm one obind some name_val unknown get_var assoc has put set_var add_var declare declare_all define_all assign assign_all
     innermost like settle has_fun find_fun fid_eqb fst snd p_funs p_types p_structs p_globals p_letter p_number ps ps_funs ps_types ps_structs ps_consts sentences_tables app
     String.eqb Ascii.eqb Bool.eqb apply select fields_of binop arith compare join_ty wrapt nil_val std builtin qual String.append int_type basic conv zero zero1 zeros
     conv_all finish set_vars enter params results infer map concat hits Z.opp fd_recv fd_params fd_results fd_tparams vp tprop tint tbyte trune vint
     f_is f_lookup f_lookupValue f_splitFunc f_subsequent f_FromString f_FromBytes f_isASCIIAlphanumericOrSpace f_Next f_Value f_Start f_End f_Reset f_SetText f_First] in t in
  change t with t'.
Ltac step := step_with ltac:(fun t => red_ t).
Ltac merge upd tac := merge_with ltac:(fun t => red_ t) upd tac.
Definition oz (r : option nat) : Z := match r with Some n => Z.of_nat n | None => -1 end%Z.

Lemma wrap_u16 : forall x, (x < 65536)%N -> wrap U16 (Z.of_N x) = Z.of_N x.
Proof. intros. exact (wrap_id U16 (Z.of_N x) ltac:(lia)). Qed.

Section Calls.
  Variable C : fid -> list val -> heap -> out (list val * heap).
  Variable n : nat.

  (** ** trie.go and the method is *)
  Lemma is_run : forall a b h, run_fun ps C n f_is [vp a; vp b] h = Done ([VBool (is a b)], h).
  Proof.
    intros. erewrite run_fun_finish by reflexivity. cbn [fd_body f_is].
    repeat step. rewrite of_land, of_N_eqb0. reflexivity.
  Qed.


  (** ** trie.go *)
  Lemma values_small : forall i v, arr_get sentencesValues i = Ok v -> (v < 65536)%N.
  Proof. intros i v H. apply N.ltb_lt. apply (arr_all (fun x => x <? 65536)%N sentencesValues i v eq_refl); [vm_compute; reflexivity|exact H]. Qed.
  Lemma index_small : forall i v, arr_get sentencesIndex i = Ok v -> (v < 65536)%N.
  Proof. intros i v H. apply N.ltb_lt. apply (arr_all (fun x => x <? 65536)%N sentencesIndex i v eq_refl); [vm_compute; reflexivity|exact H]. Qed.
  Lemma lookupValue_run : forall m b v h, (b < 4294967296)%N -> lookupValue sentencesValues m b = Ok v ->
    run_fun ps C n f_lookupValue [VInt (Typed "uint32" U32) (Z.of_N m); VInt tbyte (Z.of_N b)] h = Done ([vp v], h).
  Proof.
    intros m b v h B H. erewrite run_fun_finish by reflexivity. cbn [fd_body f_lookupValue]. unfold lookupValue in H.
    repeat step. change (6 <? 0)%Z with false. bi. repeat step.
    rewrite of_shiftl, !wrap_u32, (u32_id b B), <- N2Z.inj_add, wrap_u32. rewrite (index_arr _ _ _ _ H). bi. repeat step.
    rewrite wrap_u16 by (eapply values_small; exact H). repeat step. reflexivity.
  Qed.
  Hypothesis C_lookupValue : forall m b v h, (b < 4294967296)%N -> lookupValue sentencesValues m b = Ok v ->
    C ("", "lookupValue") [VInt (Typed "uint32" U32) (Z.of_N m); VInt (Typed "uint8" U8) (Z.of_N b)] h = Done ([VInt (Typed "property" U16) (Z.of_N v)], h).
  Ltac cmp := rewrite ?of_N_ltb_pos, ?of_N_leb_pos, ?pos_leb_of_N, ?of_nat_ltb_pos, ?if_tf, ?if_hit, ?if_or, ?if_and;
    repeat match goal with |- context [Pos.to_nat ?q] => let v := eval compute in (Pos.to_nat q) in change (Pos.to_nat q) with v end; bi; repeat step.
  Ltac lk_if H := match goal with |- ?l = _ => let t := active l in lazymatch t with if ?b then _ else _ =>
     destruct b eqn:?; [try (injection H as <- <-; repeat step; reflexivity)|repeat step; cmp] end end.
  Ltac lk_arr H := match type of H with context [arr_get sentencesIndex ?i] => let x := fresh "i" in let E := fresh "Ei" in
     destruct (arr_get sentencesIndex i) as [x| |] eqn:E; try discriminate; cbn [bind] in H; repeat step; rewrite (index_arr _ _ _ _ E); bi; repeat step; cmp;
     pose proof (index_small _ _ E) end.
  Ltac lk_byte H q := match type of H with context [byte_at ?s ?k] => let x := fresh "c" in let E := fresh "Ec" in
     destruct (byte_at s k) as [x| |] eqn:E; try discriminate; cbn [bind] in H; repeat step; rewrite (index_pos _ _ q _ E); bi; repeat step; cmp end.
  Ltac lk_off := change (6 <? 0)%Z with false; bi; repeat step; 
    rewrite ?wrap_u32; rewrite ?u32_id by lia; rewrite of_shiftl, wrap_u32, <- N2Z.inj_add, wrap_u32.
  Ltac lk_last H := match type of H with context [lookupValue ?a ?i ?b] => let x := fresh "v" in let E := fresh "Ev" in
     destruct (lookupValue a i b) as [x| |] eqn:E; try discriminate; cbn [bind] in H; injection H as <- <-;
     rewrite ?wrap_u32; rewrite ?u32_id by lia; erewrite C_lookupValue by (first [exact E | lia]); bi; repeat step; reflexivity end.
  Ltac lk_cont H := match type of H with context [notCont ?c] => change (notCont c) with ((c <? 128) || (192 <=? c))%N in H; lk_if H;
    match goal with E : ((c <? 128) || (192 <=? c))%N = false |- _ => apply orb_false_elim in E; destruct E as [_ E]; apply N.leb_gt in E end end.
  Lemma lookup_run : forall o s v w h, sentences_lookup s = Ok (v, w) -> run_fun ps C n f_lookup [VData o s] h = Done ([vp v; vint w], h).
  Proof.
    intros o s v w h H. erewrite run_fun_finish by reflexivity. cbn [fd_body f_lookup]. unfold sentences_lookup, lookup in H.
    destruct (byte_at s 0) as [c0| |] eqn:E0; try discriminate. cbn [bind] in H.
    repeat step. rewrite (index_0 o s c0 E0). bi. repeat step. cmp.
    lk_if H.
    { destruct (arr_get sentencesValues c0) eqn:E; try discriminate. cbn [bind] in H. repeat step. rewrite (index_arr _ _ _ _ E). bi. repeat step.
      injection H as <- <-. reflexivity. }
    lk_if H. lk_if H.
    { repeat step. cmp. lk_if H. lk_arr H. lk_byte H 1%positive. lk_cont H. lk_last H. }
    lk_if H.
    { repeat step. cmp. lk_if H. lk_arr H. lk_byte H 1%positive. lk_cont H. lk_off. lk_arr H. lk_byte H 2%positive. lk_cont H.  lk_last H. }
    lk_if H.
    { repeat step. cmp. lk_if H. lk_arr H. lk_byte H 1%positive. lk_cont H. lk_off. lk_arr H. lk_byte H 2%positive. lk_cont H. lk_off. lk_arr H. lk_byte H 3%positive. lk_cont H. lk_last H. }
    repeat step. injection H as <- <-. reflexivity.
  Qed.
End Calls.
