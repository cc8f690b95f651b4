(** The text of internal/iterators and internal/iterators/filter, run, gives the model. *)
From Coq Require Import String.
From Verif Require Import SpecIter SpecApi.
From Verif Require Import Base Utf8 GoSyntax GoSem GoFacts SpecCode SpecCode2 SpecIterators ProgOther.
From Verif Require Iterators Filter FilterFacts Conform.
Local Open Scope string_scope.
Local Open Scope list_scope.

Definition fun_of (f : fid) (l : list (fid * fundecl)) : fundecl := match find_fun f l with Some f => f | None => Build_fundecl [] None "" [] [] [] end.
Definition f_New : fundecl := Eval vm_compute in fun_of ("", "New") pi_funs.
Definition f_SetText : fundecl := Eval vm_compute in fun_of ("Iterator", "SetText") pi_funs.
Definition f_Split : fundecl := Eval vm_compute in fun_of ("Iterator", "Split") pi_funs.
Definition f_Next : fundecl := Eval vm_compute in fun_of ("Iterator", "Next") pi_funs.
Definition f_Value : fundecl := Eval vm_compute in fun_of ("Iterator", "Value") pi_funs.
Definition f_Start : fundecl := Eval vm_compute in fun_of ("Iterator", "Start") pi_funs.
Definition f_End : fundecl := Eval vm_compute in fun_of ("Iterator", "End") pi_funs.
Definition f_Reset : fundecl := Eval vm_compute in fun_of ("Iterator", "Reset") pi_funs.
Definition f_First : fundecl := Eval vm_compute in fun_of ("Iterator", "First") pi_funs.
Definition f_AlphaNumeric : fundecl := Eval vm_compute in fun_of ("", "AlphaNumeric") pf_funs.

Ltac red_ t :=
  let t' := eval lazy beta iota zeta delta [eval evals evalm one obind some name_val unknown get_var assoc has put set_var add_var declare declare_all define_all assign assign_all
     innermost like settle has_fun find_fun fid_eqb fst snd p_funs p_types p_structs p_globals p_letter p_number pi_ pi_funs pi_types pi_structs pf pf_funs pf_types pf_structs pf_globals app
     String.eqb Ascii.eqb Bool.eqb apply select fields_of binop arith compare join_ty wrapt nil_val std builtin qual String.append int_type basic conv zero zero1 zeros
     conv_all finish set_vars enter params results infer map concat hits Z.opp fd_recv fd_params fd_results fd_tparams tint tbyte trune vint
     f_New f_SetText f_Split f_Next f_Value f_Start f_End f_Reset f_First f_AlphaNumeric] in t in
  change t with t'.
Ltac step := step_with ltac:(fun t => red_ t).

(** iterator.go:7-12: an iterator in memory. *)
Definition obj (o : origin) (it : Iterators.iter) : object :=
  ("Iterator", [("split", VExt (Iterators.it_split it)); ("data", VData o (Iterators.it_data it)); ("start", zint (Iterators.it_start it)); ("pos", zint (Iterators.it_pos it))]).
Definition inv (it : Iterators.iter) : Prop :=
  returns_ints (Iterators.it_split it) /\ (Iterators.len (Iterators.it_data it) < 2 ^ 62)%Z
  /\ (- 2 ^ 63 <= Iterators.it_pos it <= Iterators.len (Iterators.it_data it))%Z /\ (Iterators.it_pos it < 2 ^ 63)%Z.

Lemma wrap_wrap : forall z, wrap I64 z = Iterators.wrap z.
Proof. intros. unfold wrap, Iterators.wrap, range. replace (z - - 2 ^ 63)%Z with (z + 2 ^ 63)%Z by lia. lia. Qed.
Lemma cut_z : forall o d lo hi, (hi <= Iterators.len d)%Z -> cut o d lo hi = outcome (v <- Iterators.zslice d lo hi ;; Ok (VData o v)).
Proof.
  intros o d lo hi H. unfold cut, Iterators.zslice. unfold Iterators.len in *.
  destruct (Z.ltb_spec lo 0), (Z.leb_spec 0 lo); try lia; cbn [orb andb]; [reflexivity|].
  destruct (Z.ltb_spec hi lo), (Z.leb_spec lo hi); try lia; cbn [orb andb]; [reflexivity|].
  destruct (Z.ltb_spec (Z.of_nat (length d)) hi), (Z.leb_spec hi (Z.of_nat (length d))); try lia. reflexivity.
Qed.

Section Calls.
  Variable C : fid -> list val -> heap -> out (list val * heap).
  Variable n : nat.
  Ltac mem M B := repeat first [step | rewrite M; bi | rewrite hget_hset by exact B; bi | rewrite hset_hset ].
  Ltac whole M f := erewrite run_fun_finish by reflexivity; cbn [fd_body f]; pose proof (hget_bound _ _ _ M) as B; unfold obj, zint, tint in M.

  Lemma New_run : forall f o d h, run_fun pi_ C n f_New [VExt f; VData o d] h = Done ([VPtr "Iterator" (Some (length h))], alloc h (obj o (Iterators.New f d))).
  Proof. intros. destruct o; erewrite run_fun_finish by reflexivity; cbn [fd_body f_New]; repeat step; reflexivity. Qed.
  Lemma Value_run : forall o it l h, inv it -> hget l h = Some (obj o it) ->
    run_fun pi_ C n f_Value [VPtr "Iterator" (Some l)] h = outcome (v <- Iterators.Value it ;; Ok ([VData o v], h)).
  Proof.
    intros o it l h (_ & _ & I & _) M. whole M f_Value. mem M B. rewrite cut_z by apply I. unfold Iterators.Value.
    destruct (Iterators.zslice _ _ _); cbn [bind outcome]; mem M B; reflexivity.
  Qed.
  Lemma Start_run : forall o it l h, hget l h = Some (obj o it) -> run_fun pi_ C n f_Start [VPtr "Iterator" (Some l)] h = Done ([zint (Iterators.Start it)], h).
  Proof. intros o it l h M. whole M f_Start. mem M B. reflexivity. Qed.
  Lemma End_run : forall o it l h, hget l h = Some (obj o it) -> run_fun pi_ C n f_End [VPtr "Iterator" (Some l)] h = Done ([zint (Iterators.End_ it)], h).
  Proof. intros o it l h M. whole M f_End. mem M B. reflexivity. Qed.
  Lemma Reset_run : forall o it l h, hget l h = Some (obj o it) -> run_fun pi_ C n f_Reset [VPtr "Iterator" (Some l)] h = Done ([], hset l (obj o (Iterators.Reset it)) h).
  Proof. intros o it l h M. whole M f_Reset. mem M B. reflexivity. Qed.
  Lemma SetText_run : forall o it o' d l h, hget l h = Some (obj o it) ->
    run_fun pi_ C n f_SetText [VPtr "Iterator" (Some l); VData o' d] h = Done ([], hset l (obj o' (Iterators.SetText it d)) h).
  Proof. intros o it o' d l h M. whole M f_SetText. mem M B. reflexivity. Qed.
  Lemma Split_run : forall o it f l h, hget l h = Some (obj o it) ->
    run_fun pi_ C n f_Split [VPtr "Iterator" (Some l); VExt f] h = Done ([], hset l (obj o (Iterators.Split it f)) h).
  Proof. intros o it f l h M. whole M f_Split. mem M B. reflexivity. Qed.
  Lemma First_run : forall o it l h, inv it -> hget l h = Some (obj o it) ->
    run_fun pi_ C n f_First [VPtr "Iterator" (Some l)] h = outcome (v <- Iterators.First it ;; Ok ([VData o v], h)).
  Proof.
    intros o it l h I M. whole M f_First. mem M B. unfold Iterators.First. change (Z.of_nat (length (Iterators.it_data it))) with (Iterators.len (Iterators.it_data it)).
    destruct (Iterators.len (Iterators.it_data it) =? 0)%Z; mem M B. { reflexivity. }
    destruct (Iterators.it_split it (Iterators.it_data it) true) as [r| |] eqn:E; cbn [bind outcome]; try reflexivity.
    unfold out_vals. destruct (so_err r); cbn [err_val]; mem M B. { reflexivity. }
    destruct (Z.leb_spec (so_advance r) 0) as [L0|L0]; mem M B. { reflexivity. }
    change (Z.of_nat (length (Iterators.it_data it))) with (Iterators.len (Iterators.it_data it)).
    destruct (Z.ltb_spec (Iterators.len (Iterators.it_data it)) (so_advance r)) as [L1|L1]; mem M B. { reflexivity. }
    rewrite cut_z by exact L1. destruct (Iterators.zslice _ _ _); cbn [bind outcome]; mem M B; reflexivity.
  Qed.
  Lemma Next_run : forall o it l h, inv it -> hget l h = Some (obj o it) ->
    run_fun pi_ C n f_Next [VPtr "Iterator" (Some l)] h = outcome (let (it', r) := Iterators.Next it in b <- r ;; Ok ([VBool b], hset l (obj o it') h)).
  Proof.
    intros o it l h (I1 & I2 & I3 & I4) M. pose proof M as M0. whole M f_Next. mem M B. unfold Iterators.Next. 
    change (Z.of_nat (length (Iterators.it_data it))) with (Iterators.len (Iterators.it_data it)).
    destruct (Iterators.it_pos it =? Iterators.len (Iterators.it_data it))%Z; mem M B. { cbn. rewrite hset_same by exact M0. reflexivity. }
    change (Z.of_nat (length (Iterators.it_data it))) with (Iterators.len (Iterators.it_data it)).
    destruct (Iterators.len (Iterators.it_data it) <? Iterators.it_pos it)%Z; mem M B. { reflexivity. }
    change (Z.of_nat (length (Iterators.it_data it))) with (Iterators.len (Iterators.it_data it)).
    rewrite cut_z by lia. destruct (Iterators.zslice _ _ _) as [d| |]; cbn [bind outcome]; mem M B; try reflexivity.
    change (Z.of_nat (length d)) with (Iterators.len d). destruct (Iterators.len d =? 1)%Z; mem M B. { rewrite wrap_wrap. reflexivity. }
    destruct (Iterators.it_split it d true) as [r| |] eqn:E; cbn [bind outcome]; try reflexivity.
    unfold out_vals. destruct (so_err r); cbn [err_val]; mem M B. { reflexivity. }
    destruct (Z.leb_spec (so_advance r) 0) as [L0|L0]; mem M B. { reflexivity. }
    rewrite wrap_wrap. cbn [Iterators.at_ Iterators.it_data Iterators.it_pos Iterators.it_start]. 
    change (Z.of_nat (length (Iterators.it_data it))) with (Iterators.len (Iterators.it_data it)).
    destruct (Iterators.len (Iterators.it_data it) <? _)%Z; mem M B; reflexivity.
  Qed.
End Calls.

Lemma call_S : forall n k f fd vs h, find_fun f pi_funs = Some fd -> call pi_ n (S k) f vs h = run_fun pi_ (call pi_ n k) n fd vs h.
Proof. intros n k f fd vs h H. cbn [call]. change (p_funs pi_) with pi_funs. rewrite H. reflexivity. Qed.
Lemma wrap_range : forall z, (- 2 ^ 63 <= Iterators.wrap z < 2 ^ 63)%Z.
Proof. intros. unfold Iterators.wrap. pose proof (Z.mod_pos_bound (z + 2 ^ 63) (2 ^ 64) ltac:(lia)). lia. Qed.
Lemma next_inv : forall it it' b, inv it -> Iterators.Next it = (it', Ok b) -> inv it'.
Proof.
  intros it it' b (I1 & I2 & I3 & I4) H. unfold Iterators.Next in H. destruct (Z.eqb_spec (Iterators.it_pos it) (Iterators.len (Iterators.it_data it))). { injection H as <- <-. unfold inv. tauto. }
  destruct (_ <? _)%Z; [discriminate|]. destruct (Iterators.zslice _ _ _) as [d| |]; try discriminate.
  assert (IW : forall z, (Iterators.wrap z <= Iterators.len (Iterators.it_data it))%Z -> inv (Iterators.at_ (Iterators.at_ it (Iterators.it_pos it) (Iterators.it_pos it)) (Iterators.it_pos it) (Iterators.wrap z))).
  { intros z L. pose proof (wrap_range z). unfold inv. cbn [Iterators.at_ Iterators.it_split Iterators.it_data Iterators.it_pos]. split; [assumption|lia]. }
  destruct (_ =? 1)%Z.
  - injection H as <- <-. apply IW. unfold Iterators.wrap. cbn [Iterators.at_ Iterators.it_pos]. rewrite Z.mod_small; lia.
  - destruct (Iterators.it_split it d true) as [r| |]; try discriminate. destruct (so_err r); try discriminate. destruct (_ <=? _)%Z; try discriminate.
    cbn [Iterators.at_ Iterators.it_data Iterators.it_pos Iterators.it_start] in H. match type of H with context [(?a <? ?b)%Z] => destruct (Z.ltb_spec a b) end; [discriminate|].
    injection H as <- <-. now apply IW.
Qed.
Lemma outcome_bind : forall A B (r : res A) (k : A -> res B), outcome (bind r k) = obind (outcome r) (fun a => outcome (k a)).
Proof. intros. destruct r; reflexivity. Qed.

Section Client.
  Variables n k : nat.
  Notation depth := (S k).
  Lemma it_step : forall str max u o it l h, it_use_proper str max u -> (Z.of_nat max < 2 ^ 62)%Z -> inv it -> hget l h = Some (obj o it) ->
    (exists vs o' it' h', it_use o it u = Ok (vs, o', it') /\ go_it_use pi_ n depth (VPtr "Iterator" (Some l)) u h = Done (vs, h') /\ inv it' /\ hget l h' = Some (obj o' it'))
    \/ (exists r, it_use o it u = r /\ go_it_use pi_ n depth (VPtr "Iterator" (Some l)) u h = outcome (_ <- r ;; Ok ([], [])) /\ r = Panic \/ it_use o it u = OutOfFuel /\ go_it_use pi_ n depth (VPtr "Iterator" (Some l)) u h = Forever).
  Proof.
    intros str max u o it l h P M I G. pose proof (hget_bound _ _ _ G) as B. destruct u; cbn [it_use go_it_use]; unfold method; erewrite call_S by reflexivity.
    - rewrite (Next_run _ _ o it) by assumption. destruct (Iterators.Next it) as [it' [b| |]] eqn:E; cbn [bind outcome].
      + left. do 4 eexists. split; [reflexivity|]. split; [reflexivity|]. split; [eapply next_inv; eassumption|now apply hget_hset].
      + right. exists Panic. left. repeat split.
      + right. exists Panic. right. repeat split.
    - rewrite (Value_run _ _ o it) by assumption. destruct (Iterators.Value it) as [v| |]; cbn [bind outcome].
      + left. do 4 eexists. split; [reflexivity|]. split; [reflexivity|]. split; assumption.
      + right. exists Panic. left. repeat split.
      + right. exists Panic. right. repeat split.
    - rewrite (Start_run _ _ o it) by assumption. left. do 4 eexists. split; [reflexivity|]. split; [reflexivity|]. split; assumption.
    - rewrite (End_run _ _ o it) by assumption. left. do 4 eexists. split; [reflexivity|]. split; [reflexivity|]. split; assumption.
    - rewrite (Reset_run _ _ o it) by assumption. left. do 4 eexists. split; [reflexivity|]. split; [reflexivity|]. split; [|now apply hget_hset].
      destruct I as (I1 & I2 & I3). unfold inv. cbn [Iterators.Reset Iterators.it_split Iterators.it_data Iterators.it_pos]. unfold Iterators.len in *. split; [assumption|lia].
    - unfold text_val. rewrite (SetText_run _ _ o it) by assumption. left. do 4 eexists. split; [reflexivity|]. split; [reflexivity|]. split; [|now apply hget_hset].
      destruct I as (I1 & I2 & I3). destruct P as (_ & _ & P). unfold inv. cbn [Iterators.SetText Iterators.it_split Iterators.it_data Iterators.it_pos]. unfold Iterators.len in *. split; [assumption|lia].
    - rewrite (First_run _ _ o it) by assumption. destruct (Iterators.First it) as [v| |]; cbn [bind outcome].
      + left. do 4 eexists. split; [reflexivity|]. split; [reflexivity|]. split; assumption.
      + right. exists Panic. left. repeat split.
      + right. exists Panic. right. repeat split.
    - rewrite (Split_run _ _ o it) by assumption. left. do 4 eexists. split; [reflexivity|]. split; [reflexivity|]. split; [|now apply hget_hset].
      destruct I as (I1 & I2 & I3). split; [exact P|]. split; assumption.
  Qed.
  Lemma it_sim : forall str max us o it l h, Forall (it_use_proper str max) us -> (Z.of_nat max < 2 ^ 62)%Z -> inv it -> hget l h = Some (obj o it) ->
    go_it_uses pi_ n depth us (VPtr "Iterator" (Some l)) h = outcome (it_uses us o it).
  Proof.
    induction us as [|u us IH]; intros o it l h P M I G; [reflexivity|]. inversion P as [|? ? P1 P2]; subst. cbn [go_it_uses it_uses].
    destruct (it_step str max u o it l h P1 M I G) as [(vs & o' & it' & h' & E1 & E2 & I' & G')|(r & [(E1 & E2 & ->)|(E1 & E2)])]; rewrite E1, E2; try reflexivity.
    cbn [bind obind]. rewrite (IH o' it' l h' P2 M I' G'). destruct (it_uses us o' it'); reflexivity.
  Qed.
End Client.
Lemma iterators_is_model : iterators_program_is_model pi_.
Proof.
  intros str max n [|k] f [o d] us h F T P M K; [lia|]. unfold go_it_client, it_client, text_val. cbn [fst snd]. erewrite call_S by reflexivity. rewrite New_run. cbn [obind].
  eapply it_sim; [exact P|exact M| |apply hget_new]. destruct T as (_ & _ & T). cbn [snd] in T. unfold inv, Iterators.len. cbn. split; [exact F|lia].
Qed.

(** ** The filter *)
Section Filter.
  Variables letter number : N -> bool.
  Variable C : fid -> list val -> heap -> out (list val * heap).
  Variable n : nat.
  Definition an_cond : option expr := Eval vm_compute in match nth_error (fd_body f_AlphaNumeric) 1 with Some (SFor _ _ c _ _) => c | _ => None end.
  Definition an_body : list stmt := Eval vm_compute in match nth_error (fd_body f_AlphaNumeric) 1 with Some (SFor _ _ _ _ b) => b | _ => [] end.
  Notation P := (pf letter number).
  Lemma decode_width : forall d, d <> [] -> (1 <= snd (DecodeRune d) <= length d)%nat.
  Proof.
    intros d H. destruct (DecodeRune d) as [r w] eqn:E. destruct (FilterFacts.decode_cases d r w H E) as [(rest & _ & -> & ->)|(_ & -> & _)]; cbn [snd].
    - rewrite app_length. pose proof (Conform.utf8_len r). lia.
    - destruct d; [congruence|]. cbn. lia.
  Qed.
  Lemma an_run : forall o d h b fuel pos k, Filter.an_loop letter number fuel d pos = Ok b -> (fuel <= k)%nat -> (pos <= length d)%nat -> (Z.of_nat (length d) < 2 ^ 62)%Z -> exists e,
    loop k "" (cond_ P C an_cond) (scoped_ P C n an_body) (init_ P C n None) [[]; [("pos", vint pos); ("token", VData o d)]; []] h
    = Done (if b then Ret [VBool true] else Fall, e, h) /\ (b = false -> exists q, e = [[]; [("pos", vint q); ("token", VData o d)]; []]).
  Proof.
    intros o d h b. induction fuel as [|fuel IH]; intros pos k H K L D; [discriminate|]. destruct k as [|k]; [lia|]. cbn [Filter.an_loop] in H.
    destruct (Nat.ltb_spec pos (length d)) as [LT|GE].
    - unfold slice_from in H. rewrite (proj2 (Nat.ltb_ge (length d) pos)) in H by lia. cbn [bind] in H. destruct (DecodeRune (skipn pos d)) as [r w] eqn:E.
      pose proof (decode_width (skipn pos d)) as W. rewrite E, skipn_length in W. cbn [snd] in W. specialize (W ltac:(intros X; apply (f_equal (@length N)) in X; rewrite skipn_length in X; cbn in X; lia)).
      assert (NEG : (Z.of_N r <? 0)%Z = false) by (apply Z.ltb_ge; lia).
      destruct (letter r || number r) eqn:LN.
      + injection H as <-. eexists. split; [|discriminate]. rewrite loop_S; unfold an_cond at 1; repeat step. rewrite of_nat_ltb, (proj2 (Nat.ltb_lt _ _) LT). repeat step.
        unfold an_body at 1. repeat step. rewrite cut_from by lia. repeat step. rewrite E. repeat step. rewrite NEG. bi. rewrite N2Z.id. repeat step.
        destruct (letter r); cbn [orb] in LN; repeat step; [reflexivity|]. rewrite ?NEG. bi. rewrite ?N2Z.id, LN. repeat step. reflexivity.
      + apply orb_false_elim in LN. destruct LN as [LN1 LN2]. destruct (IH (pos + w)%nat k H ltac:(lia) ltac:(lia) D) as (e & IE & IQ). exists e. split; [|exact IQ].
        rewrite loop_S; unfold an_cond at 1; repeat step. rewrite of_nat_ltb, (proj2 (Nat.ltb_lt _ _) LT). repeat step.
        unfold an_body at 1. repeat step. rewrite cut_from by lia. repeat step. rewrite E. repeat step. rewrite NEG. bi. rewrite N2Z.id, LN1. repeat step. rewrite ?NEG. bi. rewrite ?N2Z.id, LN2. repeat step.
        rewrite wrap_add by lia. repeat step. exact IE.
    - injection H as <-. eexists. split; [|intros _; eexists; reflexivity]. rewrite loop_S; unfold an_cond at 1; repeat step. rewrite of_nat_ltb, (proj2 (Nat.ltb_ge _ _) GE). repeat step. reflexivity.
  Qed.
  Lemma AlphaNumeric_run : forall o d b h, (length d < n)%nat -> (Z.of_nat (length d) < 2 ^ 62)%Z -> Filter.AlphaNumeric letter number d = Ok b ->
    run_fun P C n f_AlphaNumeric [VData o d] h = Done ([VBool b], h).
  Proof.
    intros o d b h L D H. erewrite run_fun_finish by reflexivity. cbn [fd_body f_AlphaNumeric]. repeat step.
    destruct (an_run o d h b _ _ n H ltac:(lia) ltac:(lia) D) as (e & E & Q).
    match type of E with ?x = _ => match goal with |- ?l = _ => let t := active l in change t with x end end. rewrite E. destruct b.
    - repeat step. reflexivity.
    - destruct (Q eq_refl) as (q & ->). repeat step. reflexivity.
  Qed.
End Filter.
Lemma filter_is_model : forall letter number, program_is_test (Filter.AlphaNumeric letter number) (pf letter number) "AlphaNumeric" 1.
Proof.
  intros letter number max n [|k] [o d] h (_ & _ & L) M R K; [lia|]. cbn [snd] in L. destruct (FilterFacts.runes_ex d) as (rs & RS). destruct (FilterFacts.alphanumeric_runes letter number d rs RS) as (b & E & _). exists b. split; [exact E|].
  cbn [call]. change (p_funs (pf letter number)) with pf_funs. change (find_fun ("", "AlphaNumeric") pf_funs) with (Some f_AlphaNumeric). apply AlphaNumeric_run; cbn [snd]; [lia|lia|exact E].
Qed.
