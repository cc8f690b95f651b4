(** The text of phrases/iterator.go, run, does what the model says. *)
From Coq Require Import String.
From Verif Require Import Base Trie GoSyntax GoSem GoFacts ProgPhrases TablePhrases Engine Lk Phrases CodePBase CodePSplit.
Local Open Scope string_scope.
Local Open Scope list_scope.

(** phrases/iterator.go:22-27: an iterator in memory. *)
Definition iter_obj (o : origin) (it : iter) : object :=
  ("Iterator", [("split", VFun "splitFunc"); ("data", VData o (it_data it)); ("pos", vint (it_pos it)); ("start", vint (it_start it))]).
Definition hot_cond : option expr := Eval vm_compute in match nth_error (fd_body f_Next) 2 with Some (SFor _ _ c _ _) => c | _ => None end.
Definition hot_body : list stmt := Eval vm_compute in match nth_error (fd_body f_Next) 2 with Some (SFor _ _ _ _ b) => b | _ => [] end.

Section Calls.
  Variable C : fid -> list val -> heap -> out (list val * heap).
  Variable n : nat.
  Hypothesis C_alnum : forall b h, C ("", "isASCIIAlphanumericOrSpace") [VInt (Typed "uint8" U8) (Z.of_N b)] h = Done ([VBool (isASCIIAlphanumericOrSpace b)], h).
  Hypothesis C_split : forall o d e r h, (o = NilBytes -> d = []) -> (2 * length d + 2 <= n)%nat -> (Z.of_nat (length d) < 2 ^ 62)%Z -> splitFunc d e = Ok r -> C ("", "splitFunc") [VData o d; VBool e] h = Done (out_vals o r, h).

  Ltac mem M B := repeat first [step | rewrite M; bi | rewrite hget_hset by exact B; bi | rewrite hset_hset ].
  Ltac norm := rewrite ?of_N_eqb, ?of_N_eqb_pos, ?of_N_ltb_pos, ?of_N_leb_pos, ?pos_leb_of_N, ?of_nat_ltb, ?of_nat_leb, ?of_nat_ltb_pos, ?if_tf, ?if_hit, ?if_hit2, ?if_or, ?if_and; bi.
  Definition fine (o : origin) (it : iter) : Prop :=
    (o = NilBytes -> it_data it = []) /\ (2 * length (it_data it) + 2 <= n)%nat /\ (Z.of_nat (length (it_data it)) < 2 ^ 62)%Z.
  Lemma alnum_run : forall b h, run_fun pp C n f_isASCIIAlphanumericOrSpace [VInt tbyte (Z.of_N b)] h = Done ([VBool (isASCIIAlphanumericOrSpace b)], h).
  Proof. intros. erewrite run_fun_finish by reflexivity. cbn [fd_body f_isASCIIAlphanumericOrSpace]. repeat step. do 4 (norm; repeat step). reflexivity. Qed.

  Lemma split_bound : forall d e r, splitFunc d e = Ok r -> (0 <= so_advance r <= Z.of_nat (length d))%Z.
  Proof.
    intros d e r H. unfold splitFunc in H. destruct (is_nil d); [injection H as <-; cbn; lia|].
    unfold slice_from in H. cbn [Nat.ltb Nat.leb bind] in H. change (length d <? 0)%nat with false in H. cbn [bind] in H.
    destruct (phrases_lookup (skipn 0 d)) as [[cur w]| |]; try discriminate. cbn [bind] in H.
    destruct (w =? 0)%nat.
    - destruct (negb e); [injection H as <-; cbn; lia|]. destruct (slice_to d (length d)); try discriminate. injection H as <-. cbn. lia.
    - destruct (p_loop _ _ _ _) as [[pos|]| |]; try discriminate; cbn [bind] in H; [|injection H as <-; cbn; lia].
      unfold slice_to in H. destruct (Nat.ltb_spec (length d) pos); [discriminate|]. injection H as <-. cbn. lia.
  Qed.

  (** The loop of the hot path. *)
  Lemma hot_run : forall o d st l, (Z.of_nat (length d) < 2 ^ 62)%Z -> forall rest pos h k, skipn pos d = rest -> (length rest < k)%nat -> (pos <= length d)%nat ->
    hget l h = Some (iter_obj o {| it_data := d; it_pos := pos; it_start := st |}) ->
    loop k "" (cond_ pp C hot_cond) (scoped_ pp C n hot_body) (init_ pp C n None) [[]; [("iter", VPtr "Iterator" (Some l))]; []] h
    = Done (Fall, [[]; [("iter", VPtr "Iterator" (Some l))]; []], hset l (iter_obj o {| it_data := d; it_pos := pos + alnum_space_run rest; it_start := st |}) h).
  Proof.
    intros o d st l D. induction rest as [|c rest IH]; intros pos h k E K P M; (destruct k as [|k]; [cbn in K; lia|]); rewrite loop_S; pose proof M as M0;
      pose proof (hget_bound _ _ _ M) as B; unfold iter_obj, vint, tint in M; cbn [it_data it_pos it_start] in M; unfold hot_cond at 1; mem M B; rewrite of_nat_ltb; bi.
    - apply skipn_nil in E. rewrite (proj2 (Nat.ltb_ge _ _) E). repeat step. cbn [alnum_space_run]. rewrite Nat.add_0_r, hset_same by exact M0. reflexivity.
    - apply skipn_cons in E. destruct E as (E1 & E2 & E3). rewrite (proj2 (Nat.ltb_lt _ _) E3). mem M B. rewrite (index_at _ _ _ _ E1). unfold tbyte. bi. mem M B. rewrite C_alnum. repeat step.
      cbn [alnum_space_run]. destruct (isASCIIAlphanumericOrSpace c).
      + repeat step. unfold hot_body at 1. mem M B. rewrite wrap_succ by lia. mem M B.
        erewrite (IH (S pos)); [|exact E2|cbn in K; lia|lia|apply hget_hset; exact B]. rewrite hset_hset. replace (S pos + alnum_space_run rest)%nat with (pos + S (alnum_space_run rest))%nat by lia. reflexivity.
      + repeat step. rewrite Nat.add_0_r, hset_same by exact M0. reflexivity.
  Qed.
  Definition tail (k : nat) (l : nat) (h : heap) : out (list val * heap) :=
    finish pp f_Next (block pp C n (skipn k (fd_body f_Next)) [[("iter", VPtr "Iterator" (Some l))]; []] h).
  Ltac open k := unfold tail; let x := eval cbv in (skipn k (fd_body f_Next)) in change (skipn k (fd_body f_Next)) with x.
  Ltac ends H := injection H as <- <-; repeat step; rewrite ?wrap_succ by lia; repeat step; try reflexivity; unfold iter_obj, vint, tint; cbn [with_pos it_data it_pos it_start]; repeat f_equal; lia.
  Ltac start it M B H := pose proof (hget_bound _ _ _ M) as B; unfold iter_obj, vint, tint in M; destruct it as [d pos start];
    cbn [it_data it_pos it_start with_pos] in *.
  Lemma next_split_run : forall o it b it' l h, fine o it -> (it_pos it < length (it_data it))%nat -> hget l h = Some (iter_obj o it) -> next_split it = Ok (b, it') ->
    tail 5 l h = Done ([VBool b], hset l (iter_obj o it') h).
  Proof.
    intros o it b it' l h (O & N & D) P M H. start it M B H. open 5%nat. unfold next_split in H. cbn [it_data it_pos it_start] in H.
    unfold slice_from in H. assert (L : (length d <? pos)%nat = false) by (apply Nat.ltb_ge; lia). rewrite L in H. cbn [bind] in H.
    destruct (splitFunc (skipn pos d) true) as [r| |] eqn:E; try discriminate. cbn [bind] in H.
    mem M B. rewrite cut_from by lia. mem M B. erewrite C_split; [|intros F; rewrite (O F); now destruct pos|rewrite skipn_length; lia|rewrite skipn_length; lia|exact E].
    unfold out_vals. destruct (so_err r); [discriminate|]. cbn [err_val]. mem M B. pose proof (split_bound _ _ _ E) as A. rewrite skipn_length in A.
    destruct (so_advance r <=? 0)%Z; [discriminate|]. mem M B. rewrite wrap_int by lia. rewrite <- (Z2Nat.id (so_advance r)) by lia. rewrite <- Nat2Z.inj_add. mem M B. rewrite of_nat_ltb.
    destruct (length d <? pos + Z.to_nat (so_advance r))%nat; [discriminate|]. ends H.
  Qed.
  Lemma alnum_le : forall r, (alnum_space_run r <= length r)%nat.
  Proof. induction r as [|b r IH]; [reflexivity|]. cbn. destruct (isASCIIAlphanumericOrSpace b); lia. Qed.
  Lemma Next_run : forall o it b it' l h, fine o it -> hget l h = Some (iter_obj o it) -> Next it = Ok (b, it') ->
    run_fun pp C n f_Next [VPtr "Iterator" (Some l)] h = Done ([VBool b], hset l (iter_obj o it') h).
  Proof.
    intros o it b it' l h F M H. erewrite run_fun_finish by reflexivity. cbn [fd_body f_Next].
    pose proof M as M0. destruct it as [d pos start].
    pose proof (hget_bound _ _ _ M) as B; unfold iter_obj, vint, tint in M; cbn [it_data it_pos it_start with_pos] in *.
    unfold Next in H. cbn [it_data it_pos it_start] in H. mem M B. rewrite of_nat_leb.
    destruct (length d <=? pos)%nat eqn:L. { injection H as <- <-. repeat step. rewrite hset_same by exact M0. reflexivity. }
    apply Nat.leb_gt in L. cbn [with_pos it_data it_pos it_start] in H. unfold slice_from in H. rewrite (proj2 (Nat.ltb_ge (length d) pos)) in H by lia. cbn [bind] in H.
    mem M B. destruct F as (O & N & D). cbn [it_data] in *.
    pose proof (alnum_le (skipn pos d)) as A. rewrite skipn_length in A.
    match goal with |- context [loop n "" ?c ?b' ?po ?e ?h0] => change (loop n "" c b' po e h0) with (loop n "" (cond_ pp C hot_cond) (scoped_ pp C n hot_body) (init_ pp C n None) e (hset l (iter_obj o {| it_data := d; it_pos := pos; it_start := pos |}) h)) end.
    erewrite (hot_run o d pos l D _ pos); [|reflexivity|rewrite skipn_length; lia|lia|apply hget_hset; exact B]. rewrite hset_hset. unfold iter_obj, vint, tint. cbn [it_data it_pos it_start].
    set (q := (pos + alnum_space_run (skipn pos d))%nat) in *. mem M B. rewrite of_nat_leb.
    destruct (length d <=? q)%nat eqn:L1. { injection H as <- <-. repeat step. reflexivity. }
    apply Nat.leb_gt in L1. mem M B. rewrite of_nat_ltb.
    assert (K : forall p2, (p2 < length d)%nat -> next_split (with_pos {| it_data := d; it_pos := pos; it_start := start |} p2 pos) = Ok (b, it') ->
       tail 5 l (hset l (iter_obj o {| it_data := d; it_pos := p2; it_start := pos |}) h) = Done ([VBool b], hset l (iter_obj o it') h)).
    { intros p2 P2 S. erewrite (next_split_run o (with_pos {| it_data := d; it_pos := pos; it_start := start |} p2 pos)); [|split; [exact O|split; [exact N|exact D]]|exact P2|apply hget_hset; exact B|exact S]. rewrite hset_hset. reflexivity. }
    destruct (pos <? q)%nat eqn:L2; mem M B.
    - apply Nat.ltb_lt in L2. assert (X : wrap I64 (Z.of_nat q - 1) = Z.of_nat (q - 1)) by (rewrite wrap_int; lia). rewrite X. mem M B. refine (eq_trans _ (K _ _ H)); [|lia]. symmetry. open 5%nat. unfold iter_obj, vint, tint. cbn [it_data it_pos it_start]. mem M B. reflexivity.
    - refine (eq_trans _ (K _ _ H)); [|lia]. symmetry. open 5%nat. unfold iter_obj, vint, tint. cbn [it_data it_pos it_start]. mem M B. reflexivity.
  Qed.
  Ltac whole M f := erewrite run_fun_finish by reflexivity; cbn [fd_body f]; pose proof (hget_bound _ _ _ M) as B; unfold iter_obj, vint, tint in M.
  Lemma Value_run : forall o it v l h, hget l h = Some (iter_obj o it) -> Value it = Ok v -> run_fun pp C n f_Value [VPtr "Iterator" (Some l)] h = Done ([VData o v], h).
  Proof.
    intros o it v l h M H. whole M f_Value. mem M B. unfold Value, slice in H. destruct ((it_pos it <? it_start it)%nat || (length (it_data it) <? it_pos it)%nat) eqn:E; [discriminate|].
    apply orb_false_elim in E. destruct E as [E1 E2]. apply Nat.ltb_ge in E1. apply Nat.ltb_ge in E2. rewrite cut_mid by assumption. mem M B. injection H as <-. reflexivity.
  Qed.
  Lemma Start_run : forall o it l h, hget l h = Some (iter_obj o it) -> run_fun pp C n f_Start [VPtr "Iterator" (Some l)] h = Done ([vint (Start it)], h).
  Proof. intros o it l h M. whole M f_Start. mem M B. reflexivity. Qed.
  Lemma End_run : forall o it l h, hget l h = Some (iter_obj o it) -> run_fun pp C n f_End [VPtr "Iterator" (Some l)] h = Done ([vint (End_ it)], h).
  Proof. intros o it l h M. whole M f_End. mem M B. reflexivity. Qed.
  Lemma Reset_run : forall o it l h, hget l h = Some (iter_obj o it) -> run_fun pp C n f_Reset [VPtr "Iterator" (Some l)] h = Done ([], hset l (iter_obj o (Reset it)) h).
  Proof. intros o it l h M. whole M f_Reset. mem M B. reflexivity. Qed.
  Lemma SetText_run : forall o it o' d l h, hget l h = Some (iter_obj o it) -> run_fun pp C n f_SetText [VPtr "Iterator" (Some l); VData o' d] h = Done ([], hset l (iter_obj o' (SetText it d)) h).
  Proof. intros o it o' d l h M. whole M f_SetText. mem M B. reflexivity. Qed.
  Lemma FromString_run : forall d h, run_fun pp C n f_FromString [VData Str d] h = Done ([VPtr "Iterator" (Some (length h))], h ++ [iter_obj Str (FromBytes d)]).
  Proof. intros. erewrite run_fun_finish by reflexivity; cbn [fd_body f_FromString]. repeat step. reflexivity. Qed.
  Lemma FromBytes_run : forall o d h, run_fun pp C n f_FromBytes [VData o d] h = Done ([VPtr "Iterator" (Some (length h))], h ++ [iter_obj o (FromBytes d)]).
  Proof. intros. erewrite run_fun_finish by reflexivity; cbn [fd_body f_FromBytes]. repeat step. reflexivity. Qed.

  Hypothesis C_Next : forall o it b it' l h, fine o it -> hget l h = Some (iter_obj o it) -> Next it = Ok (b, it') ->
    C ("Iterator", "Next") [VPtr "Iterator" (Some l)] h = Done ([VBool b], hset l (iter_obj o it') h).
  Hypothesis C_Value : forall o it v l h, hget l h = Some (iter_obj o it) -> Value it = Ok v -> C ("Iterator", "Value") [VPtr "Iterator" (Some l)] h = Done ([VData o v], h).
  Lemma First_run : forall o it v it' l h, fine o it -> hget l h = Some (iter_obj o it) -> First it = Ok (v, it') ->
    it' = it /\ exists g, run_fun pp C n f_First [VPtr "Iterator" (Some l)] h = Done ([VData o v], h ++ g).
  Proof.
    intros o it v it' l h F M H. pose proof M as M0. whole M f_First. unfold First in H. 
    destruct (length (it_data it) =? 0)%nat eqn:Z0. { injection H as <- <-. split; [reflexivity|]. exists []. mem M B. rewrite of_nat_eqb0, Z0. mem M B. rewrite app_nil_r. reflexivity. }
    destruct (Next _) as [[b cp]| |] eqn:E in H; try discriminate. cbn [bind] in H. destruct (Value cp) as [w| |] eqn:V; try discriminate. injection H as <- <-.
    split; [reflexivity|]. exists [iter_obj o cp]. mem M B. rewrite of_nat_eqb0, Z0. mem M B.
    repeat first [rewrite hget_new; bi; mem M B | rewrite hset_new; bi; mem M B].
    erewrite (C_Next o (with_pos it 0 0)); [|exact F|rewrite hget_new; reflexivity|exact E]. mem M B. rewrite hset_new.
    erewrite C_Value; [|rewrite hget_new; reflexivity|exact V]. mem M B. reflexivity.
  Qed.
End Calls.

(** ** The program *)
Section Linked.
  Variable n : nat.
  Notation run k := (call pp n k).
  Lemma call_S : forall k f fd vs h, find_fun f pp_funs = Some fd -> run (S k) f vs h = run_fun pp (run k) n fd vs h.
  Proof. intros k f fd vs h H. cbn [call]. change (p_funs pp) with pp_funs. rewrite H. reflexivity. Qed.
  Ltac into := cbn [Nat.add]; erewrite call_S by reflexivity.
  Lemma call_is : forall k a b h, run (S k) ("property", "is") [vp a; vp b] h = Done ([VBool (is a b)], h).
  Proof. intros. into. apply is_run. Qed.
  Lemma call_lookupValue : forall k m b v h, (b < 4294967296)%N -> lookupValue phrasesValues m b = Ok v ->
    run (S k) ("", "lookupValue") [VInt (Typed "uint32" U32) (Z.of_N m); VInt tbyte (Z.of_N b)] h = Done ([vp v], h).
  Proof. intros. into. now apply lookupValue_run. Qed.
  Lemma call_lookup : forall k o s v w h, phrases_lookup s = Ok (v, w) -> run (S (S k)) ("", "lookup") [VData o s] h = Done ([vp v; vint w], h).
  Proof. intros. into. apply lookup_run; [|assumption]. intros. now apply call_lookupValue. Qed.
  Lemma call_sub : forall k props o d e adv more h, (length d < n)%nat -> (Z.of_nat (length d) < 2 ^ 62)%Z -> subsequent props d e = Ok (adv, more) ->
    run (3 + k) ("", "subsequent") [vp props; VData o d; VBool e] h = Done ([VInt tint (oz adv); VBool more], h).
  Proof. intros. into. apply subsequent_run; try assumption; intros; [apply call_is|now apply call_lookup]. Qed.
  Lemma call_splitFunc : forall k o d e r h, (o = NilBytes -> d = []) -> (2 * length d + 2 <= n)%nat -> (Z.of_nat (length d) < 2 ^ 62)%Z -> splitFunc d e = Ok r ->
    run (4 + k) ("", "splitFunc") [VData o d; VBool e] h = Done (out_vals o r, h).
  Proof. intros. into. apply splitFunc_run; try assumption; intros; [apply call_is|now apply call_lookup|now apply call_sub]. Qed.
  Lemma call_alnum : forall k b h, run (S k) ("", "isASCIIAlphanumericOrSpace") [VInt tbyte (Z.of_N b)] h = Done ([VBool (isASCIIAlphanumericOrSpace b)], h).
  Proof. intros. into. apply alnum_run. Qed.
  Lemma call_Next : forall k o it b it' l h, fine n o it -> hget l h = Some (iter_obj o it) -> Next it = Ok (b, it') ->
    run (5 + k) ("Iterator", "Next") [VPtr "Iterator" (Some l)] h = Done ([VBool b], hset l (iter_obj o it') h).
  Proof. intros. into. eapply Next_run; try eassumption; intros; [apply call_alnum|now apply call_splitFunc]. Qed.
  Lemma call_Value : forall k o it v l h, hget l h = Some (iter_obj o it) -> Value it = Ok v -> run (S k) ("Iterator", "Value") [VPtr "Iterator" (Some l)] h = Done ([VData o v], h).
  Proof. intros. into. eapply Value_run; eassumption. Qed.
  Lemma call_First : forall k o it v it' l h, fine n o it -> hget l h = Some (iter_obj o it) -> First it = Ok (v, it') ->
    it' = it /\ exists g, run (6 + k) ("Iterator", "First") [VPtr "Iterator" (Some l)] h = Done ([VData o v], h ++ g).
  Proof. intros. into. eapply First_run; try eassumption; intros; [eapply call_Next; eassumption|eapply call_Value; eassumption]. Qed.
End Linked.
