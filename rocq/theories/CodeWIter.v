(** The text of words/iterator.go and words/joiners.go, run, does what the model says. *)
From Coq Require Import String.
From Verif Require Import Base Trie GoSyntax GoSem GoFacts ProgWords TableWords Engine Lk Utf8 Words CodeWBase CodeWSplit CodeWFunc.
From Verif Require CodeApi WordsEngine.
Local Open Scope string_scope.
Local Open Scope list_scope.

(** words/iterator.go:5-10: an iterator in memory. *)
Definition iter_obj (o : origin) (sv : val) (it : iter) : object :=
  ("Iterator", [("split", sv); ("data", VData o (it_data it)); ("pos", vint (it_pos it)); ("start", vint (it_start it))]).
Definition hot_cond : option expr := Eval vm_compute in match nth_error (fd_body f_Next) 3 with Some (SIf _ _ t _) => match nth_error t 1 with Some (SFor _ _ c _ _) => c | _ => None end | _ => None end.
Definition hot_body : list stmt := Eval vm_compute in match nth_error (fd_body f_Next) 3 with Some (SIf _ _ t _) => match nth_error t 1 with Some (SFor _ _ _ _ b) => b | _ => [] end | _ => [] end.

(** The field split: the package's function, the method of a Joiners, or a function of the client's. *)
Definition split_at (f : splitfun) (sv : val) (h : heap) : Prop :=
  (f = splitFunc /\ sv = VFun "splitFunc")
  \/ (exists j jl, f = joinersSplitFunc j /\ sv = VMethod (VPtr "Joiners" jl) "splitFunc" /\ joiner_at j jl h)
  \/ sv = VExt f.
(** What the call leaves behind. *)
Definition garbage (sv : val) : heap := match sv with VFun _ => [no_joiners] | _ => [] end.
Definition as_out {A B} (r : res A) (k : A -> B) : out B := match r with Ok a => Done (k a) | Panic => Panics | OutOfFuel => Forever end.

Lemma hget_hset_other : forall h l l' o, l <> l' -> hget l' (hset l o h) = hget l' h.
Proof. induction h as [|x h IH]; intros l l' o H; [reflexivity|]. destruct l, l'; cbn; try reflexivity; [lia|]. apply IH. lia. Qed.
Lemma joiner_hset : forall j jl l x o h, hget l h = Some ("Iterator", x) -> joiner_at j jl h -> joiner_at j jl (hset l o h).
Proof.
  intros j jl l x o h G J. destruct j as [j|], jl as [jl|]; try exact J. destruct J as (m & le & J & J1). exists m, le. split; [|exact J1].
  rewrite hget_hset_other; [exact J|]. intros ->. congruence.
Qed.
Lemma joiner_app : forall j jl h g, joiner_at j jl h -> joiner_at j jl (h ++ g).
Proof.
  intros j jl h g J. destruct j as [j|], jl as [jl|]; try exact J. destruct J as (m & le & J & J1). exists m, le. split; [|exact J1].
  rewrite hget_app; [exact J|]. eapply hget_bound; exact J.
Qed.
Lemma split_at_hset : forall f sv l x o h, hget l h = Some ("Iterator", x) -> split_at f sv h -> split_at f sv (hset l o h).
Proof.
  intros f sv l x o h G [S|[(j & jl & S1 & S2 & S3)|S]]; [left; exact S|right; left|right; right; exact S]. exists j, jl. repeat split; try assumption. eapply joiner_hset; eassumption.
Qed.
Lemma split_at_app : forall f sv h g, split_at f sv h -> split_at f sv (h ++ g).
Proof. intros f sv h g [S|[(j & jl & S1 & S2 & S3)|S]]; [left; exact S|right; left|right; right; exact S]. exists j, jl. repeat split; try assumption. now apply joiner_app. Qed.

Section Calls.
  Variable C : fid -> list val -> heap -> out (list val * heap).
  Variable n : nat.
  Hypothesis C_alnum : forall b h, C ("", "isASCIIAlphanumeric") [VInt (Typed "uint8" U8) (Z.of_N b)] h = Done ([VBool (isASCIIAlphanumeric b)], h).
  Hypothesis C_split : forall o d e r h, (o = NilBytes -> d = []) -> (2 * length d + 2 <= n)%nat -> (Z.of_nat (length d) < 2 ^ 62)%Z -> splitFunc d e = Ok r -> C ("", "splitFunc") [VData o d; VBool e] h = Done (out_vals o r, h ++ [no_joiners]).
  Hypothesis C_jsplit : forall j jl o d e r h, joiner_at j jl h -> (o = NilBytes -> d = []) -> (2 * length d + 2 <= n)%nat -> (Z.of_nat (length d) < 2 ^ 62)%Z -> joinersSplitFunc j d e = Ok r ->
    C ("Joiners", "splitFunc") [VPtr "Joiners" jl; VData o d; VBool e] h = Done (out_vals o r, h).

  Ltac mem M B := repeat first [step | rewrite M; bi | rewrite hget_hset by exact B; bi | rewrite hset_hset ].
  Ltac norm := rewrite ?of_N_eqb, ?of_N_eqb_pos, ?of_N_ltb_pos, ?of_N_leb_pos, ?pos_leb_of_N, ?of_nat_ltb, ?of_nat_leb, ?of_nat_ltb_pos, ?if_tf, ?if_hit, ?if_hit2, ?if_or, ?if_and; bi.
  (** A client's function may not return more than 2^62: beyond that iter.pos + advance could overflow. *)
  Definition fine (o : origin) (it : iter) : Prop :=
    (o = NilBytes -> it_data it = []) /\ (2 * length (it_data it) + 2 <= n)%nat /\ (Z.of_nat (length (it_data it)) < 2 ^ 62)%Z
    /\ (forall d r, (length d <= length (it_data it))%nat -> it_split it d true = Ok r -> (so_advance r < 2 ^ 62)%Z).
  Lemma isalnum_run : forall b h, run_fun pw C n f_isASCIIAlphanumeric [VInt tbyte (Z.of_N b)] h = Done ([VBool (isASCIIAlphanumeric b)], h).
  Proof. intros. erewrite run_fun_finish by reflexivity. cbn [fd_body f_isASCIIAlphanumeric]. repeat step. do 4 (norm; repeat step). unfold isASCIIAlphanumeric. rewrite ?orb_assoc. reflexivity. Qed.

  Lemma jsplit_total : forall j d e, exists r, joinersSplitFunc j d e = Ok r.
  Proof. intros. apply CodeApi.split_total. apply WordsEngine.w_split_ok. Qed.
  Lemma split_apply : forall f sv o d h, split_at f sv h -> (o = NilBytes -> d = []) -> (2 * length d + 2 <= n)%nat -> (Z.of_nat (length d) < 2 ^ 62)%Z ->
    apply C sv [VData o d; VBool true] h = as_out (f d true) (fun r => (out_vals o r, h ++ garbage sv)).
  Proof.
    intros f sv o d h S O N D. destruct S as [(-> & ->)|[(j & jl & -> & -> & J)| ->]]; cbn [apply garbage as_out].
    - destruct (jsplit_total (Some {| Middle := []; Leading := [] |}) d true) as (r & E). change (splitFunc d true = Ok r) in E. rewrite E. apply C_split; assumption.
    - destruct (jsplit_total j d true) as (r & E). rewrite E, app_nil_r. eapply C_jsplit; eassumption.
    - rewrite app_nil_r. destruct (f d true); reflexivity.
  Qed.

  (** The loop of the hot path. *)
  Lemma hot_run : forall o sv it l h b, (Z.of_nat (length (it_data it)) < 2 ^ 62)%Z -> hget l h = Some (iter_obj o sv it) -> forall rest pos k, skipn pos (it_data it) = rest -> (length rest < k)%nat -> (pos <= length (it_data it))%nat ->
    loop k "" (cond_ pw C hot_cond) (scoped_ pw C n hot_body) (init_ pw C n None) [[]; [("end", vint pos)]; []; [("b", VInt tbyte (Z.of_N b)); ("iter", VPtr "Iterator" (Some l))]; []] h
    = Done (Fall, [[]; [("end", vint (pos + alnum_run rest))]; []; [("b", VInt tbyte (Z.of_N b)); ("iter", VPtr "Iterator" (Some l))]; []], h).
  Proof.
    intros o sv it l h b D M. pose proof (hget_bound _ _ _ M) as B. unfold iter_obj, vint, tint in M. 
    induction rest as [|c rest IH]; intros pos k E K P; (destruct k as [|k]; [cbn in K; lia|]); rewrite loop_S; unfold hot_cond at 1; mem M B; rewrite of_nat_ltb; bi.
    - apply skipn_nil in E. rewrite (proj2 (Nat.ltb_ge _ _) E). repeat step. cbn [alnum_run]. rewrite Nat.add_0_r. reflexivity.
    - apply skipn_cons in E. destruct E as (E1 & E2 & E3). rewrite (proj2 (Nat.ltb_lt _ _) E3). mem M B. rewrite (index_at _ _ _ _ E1). unfold tbyte. bi. mem M B. rewrite C_alnum. repeat step.
      cbn [alnum_run]. destruct (isASCIIAlphanumeric c).
      + repeat step. unfold hot_body at 1. mem M B. rewrite wrap_succ by lia. mem M B.
        refine (eq_trans (IH (S pos) k _ _ _) _); [exact E2|cbn in K; lia|lia|]. replace (S pos + alnum_run rest)%nat with (pos + S (alnum_run rest))%nat by lia. reflexivity.
      + repeat step. rewrite Nat.add_0_r. reflexivity.
  Qed.

  Definition tail (k : nat) (l : nat) (b : N) (h : heap) : out (list val * heap) :=
    finish pw f_Next (block pw C n (skipn k (fd_body f_Next)) [[("b", VInt tbyte (Z.of_N b)); ("iter", VPtr "Iterator" (Some l))]; []] h).
  Ltac open k := unfold tail; let x := eval cbv in (skipn k (fd_body f_Next)) in change (skipn k (fd_body f_Next)) with x.
  Ltac start it M B := pose proof (hget_bound _ _ _ M) as B; unfold iter_obj, vint, tint in M; destruct it as [sf d pos start];
    cbn [it_split it_data it_pos it_start with_pos] in *.
  Ltac become v tac := match goal with |- ?l = _ => let t := active l in let X := fresh in assert (X : t = v) by tac; rewrite X; clear X end.
  Lemma next_split_run : forall o sv it l b h, fine o it -> split_at (it_split it) sv h -> (it_pos it < length (it_data it))%nat -> hget l h = Some (iter_obj o sv it) ->
    tail 4 l b h = as_out (next_split it) (fun r => ([VBool (fst r)], hset l (iter_obj o sv (snd r)) h ++ garbage sv)).
  Proof.
    intros o sv it l b h (O & N & D & A) S P M. start it M B. open 4%nat. unfold next_split. cbn [it_split it_data it_pos it_start].
    unfold slice_from. assert (L : (length d <? pos)%nat = false) by (apply Nat.ltb_ge; lia). rewrite L. cbn [bind].
    mem M B. rewrite cut_from by lia. mem M B.
    match goal with |- ?l = _ => let t := active l in change t with (apply C sv [VData o (skipn pos d); VBool true] h) end.
    rewrite (split_apply sf) by (first [exact S | intros F; rewrite (O F); now destruct pos | rewrite skipn_length; lia]).
    destruct (sf (skipn pos d) true) as [r| |] eqn:E; cbn [bind as_out]; try reflexivity.
    assert (M2 : hget l (h ++ garbage sv) = hget l h) by (apply hget_app; exact B). rewrite M in M2.
    assert (B2 : (l < length (h ++ garbage sv))%nat) by (rewrite app_length; lia).
    set (h2 := h ++ garbage sv) in M2, B2 |- *. assert (E2 : forall x, hset l x h ++ garbage sv = hset l x h2) by (intros; symmetry; apply hset_app; exact B). clearbody h2.
    unfold out_vals. destruct (so_err r); cbn [err_val]. { mem M2 B2. reflexivity. }
    mem M2 B2. destruct (Z.leb_spec (so_advance r) 0) as [L0|L0]; mem M2 B2. { reflexivity. } pose proof (A (skipn pos d) r ltac:(rewrite skipn_length; lia) E) as A1. rewrite wrap_int by lia.
    rewrite <- (Z2Nat.id (so_advance r)) by lia. rewrite <- Nat2Z.inj_add. mem M2 B2. rewrite of_nat_ltb. rewrite Z2Nat.id by lia.
    destruct (length d <? pos + Z.to_nat (so_advance r))%nat; mem M2 B2; [reflexivity|]. cbn [as_out fst snd]. rewrite E2. reflexivity.
  Qed.
  Lemma alnum_le : forall r, (alnum_run r <= length r)%nat.
  Proof. induction r as [|b r IH]; [reflexivity|]. cbn. destruct (isASCIIAlphanumeric b); lia. Qed.
  Lemma next_value : forall it b it', Next it = Ok (b, it') -> (it_start it <= it_pos it)%nat -> (it_pos it <= length (it_data it))%nat -> exists v, Value it' = Ok v.
  Proof.
    assert (V : forall it st p, (st <= p)%nat -> (p <= length (it_data it))%nat -> exists v, Value (with_pos it p st) = Ok v).
    { intros it st p S P. unfold Value, slice. cbn [with_pos it_data it_pos it_start]. rewrite (proj2 (Nat.ltb_ge _ _) S), (proj2 (Nat.ltb_ge _ _) P). eexists; reflexivity. }
    assert (NS : forall it b it', next_split it = Ok (b, it') -> (it_start it <= it_pos it)%nat -> exists v, Value it' = Ok v).
    { intros it b it' H S. unfold next_split in H. destruct (slice_from _ _); try discriminate. cbn [bind] in H. destruct (it_split it a true) as [r| |]; try discriminate. cbn [bind] in H.
      destruct (so_err r); try discriminate. destruct (so_advance r <=? 0)%Z; try discriminate. destruct (Nat.ltb_spec (length (it_data it)) (it_pos it + Z.to_nat (so_advance r))) as [|L]; try discriminate.
      injection H as <- <-. apply V; lia. }
    intros it b it' H S P. unfold Next in H. destruct (Nat.leb_spec (length (it_data it)) (it_pos it)) as [L|L]. { injection H as <- <-. destruct it. exact (V _ _ _ S P). }
    cbn [with_pos it_data it_pos it_start] in H. destruct (byte_at _ _) as [c| |]; try discriminate. cbn [bind] in H. destruct (isASCIIAlphanumeric c); [|eapply NS; [exact H|cbn; lia]].
    unfold slice_from in H. destruct (_ <? _)%nat in H; try discriminate. cbn [bind] in H. pose proof (alnum_le (skipn (it_pos it + 1) (it_data it))) as A. rewrite skipn_length in A.
    destruct (_ <=? _)%nat in H. { injection H as <- <-. apply (V it); lia. }
    destruct (byte_at _ _) as [c'| |] in H; try discriminate. cbn [bind] in H. destruct (c' =? 32)%N; [injection H as <- <-; apply (V it); lia|]. eapply NS; [exact H|cbn; lia].
  Qed.
  Lemma Next_run : forall o sv it l h, fine o it -> split_at (it_split it) sv h -> hget l h = Some (iter_obj o sv it) -> exists g,
    run_fun pw C n f_Next [VPtr "Iterator" (Some l)] h = as_out (Next it) (fun r => ([VBool (fst r)], hset l (iter_obj o sv (snd r)) h ++ g)).
  Proof.
    intros o sv it l h F S M. erewrite run_fun_finish by reflexivity. cbn [fd_body f_Next].
    pose proof M as M0. destruct it as [sf d pos start].
    pose proof (hget_bound _ _ _ M) as B; unfold iter_obj, vint, tint in M; cbn [it_split it_data it_pos it_start with_pos] in *.
    unfold Next. cbn [it_split it_data it_pos it_start].
    destruct (length d <=? pos)%nat eqn:L. { exists []. mem M B. rewrite of_nat_leb, L. mem M B. cbn [as_out fst snd]. rewrite hset_same, app_nil_r by exact M0. reflexivity. }
    pose proof L as L'. apply Nat.leb_gt in L. cbn [with_pos it_data it_pos it_start].
    destruct (nth_error d pos) as [b|] eqn:NB; [|apply nth_error_None in NB; lia]. unfold byte_at. rewrite NB. cbn [bind].
    assert (K : exists g, tail 4 l b (hset l (iter_obj o sv (with_pos {| it_split := sf; it_data := d; it_pos := pos; it_start := start |} pos pos)) h)
      = as_out (next_split (with_pos {| it_split := sf; it_data := d; it_pos := pos; it_start := start |} pos pos)) (fun r => ([VBool (fst r)], hset l (iter_obj o sv (snd r)) h ++ g))).
    { exists (garbage sv). erewrite (next_split_run o sv (with_pos {| it_split := sf; it_data := d; it_pos := pos; it_start := start |} pos pos)); [|exact F| |exact L|apply hget_hset; exact B].
      - destruct (next_split _); cbn [as_out]; rewrite ?hset_hset; reflexivity.
      - eapply split_at_hset; eassumption. }
    destruct F as (O & N & D & _). cbn [it_split it_data] in *.
    destruct (isASCIIAlphanumeric b) eqn:AB.
    2: { destruct K as (g & K). exists g. rewrite <- K. mem M B. rewrite of_nat_leb, L'. mem M B. rewrite (index_at _ _ _ _ NB). unfold tbyte. mem M B. rewrite C_alnum, AB. mem M B.
         symmetry. open 4%nat. unfold iter_obj, vint, tint. cbn [with_pos it_data it_pos it_start]. mem M B. reflexivity. }
    unfold slice_from. rewrite (proj2 (Nat.ltb_ge (length d) (pos + 1))) by lia. cbn [bind].
    set (en := (pos + 1 + alnum_run (skipn (pos + 1) d))%nat).
    assert (HOT : loop n "" (cond_ pw C hot_cond) (scoped_ pw C n hot_body) (init_ pw C n None) [[]; [("end", vint (pos + 1))]; []; [("b", VInt tbyte (Z.of_N b)); ("iter", VPtr "Iterator" (Some l))]; []]
       (hset l (iter_obj o sv (with_pos {| it_split := sf; it_data := d; it_pos := pos; it_start := start |} pos pos)) h)
       = Done (Fall, [[]; [("end", vint en)]; []; [("b", VInt tbyte (Z.of_N b)); ("iter", VPtr "Iterator" (Some l))]; []], hset l (iter_obj o sv (with_pos {| it_split := sf; it_data := d; it_pos := pos; it_start := start |} pos pos)) h)).
    { apply (hot_run o sv (with_pos {| it_split := sf; it_data := d; it_pos := pos; it_start := start |} pos pos)); cbn [with_pos it_data]; [exact D|apply hget_hset; exact B|reflexivity|rewrite skipn_length; lia|lia]. }
    assert (W1 : wrap I64 (Z.of_nat pos + 1) = Z.of_nat (pos + 1)) by (rewrite wrap_succ by lia; f_equal; lia).
    destruct (length d <=? en)%nat eqn:L1; [exists []|destruct (nth_error d en) as [b'|] eqn:NE; [|apply nth_error_None in NE; apply Nat.leb_gt in L1; lia]; cbn [bind]; destruct (b' =? 32)%N eqn:SP; [exists []|destruct K as (g & K); exists g; rewrite <- K]];
     mem M B; rewrite of_nat_leb, L'; mem M B; rewrite (index_at _ _ _ _ NB); unfold tbyte; mem M B; rewrite C_alnum, AB; mem M B; rewrite W1; mem M B;
     (match type of HOT with ?x = _ => match goal with |- ?l = _ => let t := active l in change t with x end end); rewrite HOT; unfold iter_obj, vint, tint; cbn [with_pos it_data it_pos it_start]; mem M B; rewrite of_nat_leb, L1; mem M B;
     [| |]. 
    - cbn [as_out fst snd]. rewrite app_nil_r. reflexivity.
    - rewrite (index_at _ _ _ _ NE). unfold tbyte. mem M B. rewrite of_N_eqb_pos, SP. mem M B. cbn [as_out fst snd]. rewrite app_nil_r. reflexivity.
    - rewrite (index_at _ _ _ _ NE). unfold tbyte. mem M B. rewrite of_N_eqb_pos, SP. mem M B. symmetry. open 4%nat. mem M B. reflexivity.
  Qed.

  Ltac whole M f := erewrite run_fun_finish by reflexivity; cbn [fd_body f]; pose proof (hget_bound _ _ _ M) as B; unfold iter_obj, vint, tint in M.
  Lemma Value_run : forall o sv it v l h, hget l h = Some (iter_obj o sv it) -> Value it = Ok v -> run_fun pw C n f_Value [VPtr "Iterator" (Some l)] h = Done ([VData o v], h).
  Proof.
    intros o sv it v l h M H. whole M f_Value. mem M B. unfold Value, slice in H. destruct ((it_pos it <? it_start it)%nat || (length (it_data it) <? it_pos it)%nat) eqn:E; [discriminate|].
    apply orb_false_elim in E. destruct E as [E1 E2]. apply Nat.ltb_ge in E1. apply Nat.ltb_ge in E2. rewrite cut_mid by assumption. mem M B. injection H as <-. reflexivity.
  Qed.
  Lemma Start_run : forall o sv it l h, hget l h = Some (iter_obj o sv it) -> run_fun pw C n f_Start [VPtr "Iterator" (Some l)] h = Done ([vint (Start it)], h).
  Proof. intros o sv it l h M. whole M f_Start. mem M B. reflexivity. Qed.
  Lemma End_run : forall o sv it l h, hget l h = Some (iter_obj o sv it) -> run_fun pw C n f_End [VPtr "Iterator" (Some l)] h = Done ([vint (End_ it)], h).
  Proof. intros o sv it l h M. whole M f_End. mem M B. reflexivity. Qed.
  Lemma Reset_run : forall o sv it l h, hget l h = Some (iter_obj o sv it) -> run_fun pw C n f_Reset [VPtr "Iterator" (Some l)] h = Done ([], hset l (iter_obj o sv (Reset it)) h).
  Proof. intros o sv it l h M. whole M f_Reset. mem M B. reflexivity. Qed.
  Lemma SetText_run : forall o sv it o' d l h, hget l h = Some (iter_obj o sv it) -> run_fun pw C n f_SetText [VPtr "Iterator" (Some l); VData o' d] h = Done ([], hset l (iter_obj o' sv (SetText it d)) h).
  Proof. intros o sv it o' d l h M. whole M f_SetText. mem M B. reflexivity. Qed.
  Lemma FromString_run : forall d h, run_fun pw C n f_FromString [VData Str d] h = Done ([VPtr "Iterator" (Some (length h))], h ++ [iter_obj Str (VFun "splitFunc") (FromBytes d)]).
  Proof. intros. erewrite run_fun_finish by reflexivity; cbn [fd_body f_FromString]. repeat step. reflexivity. Qed.
  Lemma FromBytes_run : forall o d h, run_fun pw C n f_FromBytes [VData o d] h = Done ([VPtr "Iterator" (Some (length h))], h ++ [iter_obj o (VFun "splitFunc") (FromBytes d)]).
  Proof. intros. erewrite run_fun_finish by reflexivity; cbn [fd_body f_FromBytes]. repeat step. reflexivity. Qed.
  (** Split stores what it is given. *)
  Definition is_split (sv : val) : Prop := match sv with VFun _ | VMethod _ _ | VExt _ => True | _ => False end.
  Lemma Split_run : forall o sv it f sv' l h, is_split sv -> is_split sv' -> hget l h = Some (iter_obj o sv it) -> run_fun pw C n f_Split [VPtr "Iterator" (Some l); sv'] h = Done ([], hset l (iter_obj o sv' (Split it f)) h).
  Proof. intros o sv it f sv' l h S S' M. destruct sv, sv'; try contradiction; whole M f_Split; mem M B; reflexivity. Qed.
  Hypothesis C_Split : forall o sv it f sv' l h, is_split sv -> is_split sv' -> hget l h = Some (iter_obj o sv it) -> C ("Iterator", "Split") [VPtr "Iterator" (Some l); sv'] h = Done ([], hset l (iter_obj o sv' (Split it f)) h).
  Lemma Joiners_run : forall o sv it j jl l h, is_split sv -> hget l h = Some (iter_obj o sv it) -> 
    run_fun pw C n f_Joiners [VPtr "Iterator" (Some l); VPtr "Joiners" jl] h = Done ([], hset l (iter_obj o (VMethod (VPtr "Joiners" jl) "splitFunc") (setJoiners it j)) h).
  Proof.
    intros o sv it j jl l h S M. destruct jl; erewrite run_fun_finish by reflexivity; cbn [fd_body f_Joiners]; repeat step; erewrite (C_Split o sv it (joinersSplitFunc j)); try exact M; try exact I; try exact S; repeat step; reflexivity.
  Qed.

  Hypothesis C_Next : forall o sv it l h, fine o it -> split_at (it_split it) sv h -> hget l h = Some (iter_obj o sv it) -> exists g,
    C ("Iterator", "Next") [VPtr "Iterator" (Some l)] h = as_out (Next it) (fun r => ([VBool (fst r)], hset l (iter_obj o sv (snd r)) h ++ g)).
  Hypothesis C_Value : forall o sv it v l h, hget l h = Some (iter_obj o sv it) -> Value it = Ok v -> C ("Iterator", "Value") [VPtr "Iterator" (Some l)] h = Done ([VData o v], h).
  Lemma First_run : forall o sv it l h, fine o it -> split_at (it_split it) sv h -> hget l h = Some (iter_obj o sv it) -> exists g,
     run_fun pw C n f_First [VPtr "Iterator" (Some l)] h = as_out (First it) (fun r => ([VData o (fst r)], hset l (iter_obj o sv (snd r)) h ++ g)).
  Proof.
    intros o sv it l h F S M. pose proof M as M0. whole M f_First. unfold First.
    destruct (length (it_data it) =? 0)%nat eqn:Z0. { exists []. mem M B. rewrite of_nat_eqb0, Z0. mem M B. cbn [as_out fst snd]. rewrite hset_same, app_nil_r by exact M0. reflexivity. }
    assert (N0 : forall g, hget (length h) (h ++ iter_obj o sv (with_pos it 0 0) :: g) = Some (iter_obj o sv (with_pos it 0 0))) by (intros; unfold hget; rewrite nth_error_app2, Nat.sub_diag by lia; reflexivity).
    destruct (C_Next o sv (with_pos it 0 0) (length h) (h ++ [iter_obj o sv (with_pos it 0 0)]) F (split_at_app _ _ _ _ S) (N0 [])) as (g & CN).
    destruct (Next (with_pos it 0 0)) as [[b cp]| |] eqn:E; cbn [bind as_out fst snd] in CN |- *.
    - destruct (next_value (with_pos it 0 0) b cp E) as (v & V); [apply Nat.le_refl|apply Nat.le_0_l|]. rewrite V. cbn [bind as_out fst snd]. exists (iter_obj o sv cp :: g).
      rewrite hset_same by exact M0. change (h ++ [iter_obj o sv (with_pos it 0 0)]) with (alloc h (iter_obj o sv (with_pos it 0 0))) in CN. rewrite hset_new in CN.
      mem M B. rewrite of_nat_eqb0, Z0. mem M B. repeat first [rewrite hget_new; bi; mem M B | rewrite hset_new; bi; mem M B].
      match goal with |- ?l = _ => let t := active l in match t with C _ _ ?h0 => change h0 with (alloc h (iter_obj o sv (with_pos it 0 0))) end end.
      rewrite CN. mem M B.
      match goal with |- ?l = _ => let t := active l in match t with C _ _ ?h0 => change h0 with (alloc h (iter_obj o sv cp) ++ g) end end.
      erewrite C_Value; [|rewrite hget_app by (unfold alloc; rewrite app_length; cbn; lia); apply hget_new|exact V]. mem M B.
      exact (f_equal (fun z => Done ([VData o v], z)) (eq_sym (app_assoc h [iter_obj o sv cp] g))).
    - exists []. mem M B. rewrite of_nat_eqb0, Z0. mem M B. repeat first [rewrite hget_new; bi; mem M B | rewrite hset_new; bi; mem M B].
      match goal with |- ?l = _ => let t := active l in match t with C _ _ ?h0 => change h0 with (h ++ [iter_obj o sv (with_pos it 0 0)]) end end. rewrite CN. reflexivity.
    - exists []. mem M B. rewrite of_nat_eqb0, Z0. mem M B. repeat first [rewrite hget_new; bi; mem M B | rewrite hset_new; bi; mem M B].
      match goal with |- ?l = _ => let t := active l in match t with C _ _ ?h0 => change h0 with (h ++ [iter_obj o sv (with_pos it 0 0)]) end end. rewrite CN. reflexivity.
  Qed.
End Calls.

(** ** The program *)
Section Linked.
  Variable n : nat.
  Notation run k := (call pw n k).
  Lemma call_S : forall k f fd vs h, find_fun f pw_funs = Some fd -> run (S k) f vs h = run_fun pw (run k) n fd vs h.
  Proof. intros k f fd vs h H. cbn [call]. change (p_funs pw) with pw_funs. rewrite H. reflexivity. Qed.
  Ltac into := cbn [Nat.add]; erewrite call_S by reflexivity.
  Lemma call_is : forall k a b h, run (S k) ("property", "is") [vp a; vp b] h = Done ([VBool (is a b)], h).
  Proof. intros. into. apply is_run. Qed.
  Lemma call_lookupValue : forall k m b v h, (b < 4294967296)%N -> lookupValue wordsValues m b = Ok v ->
    run (S k) ("", "lookupValue") [VInt (Typed "uint32" U32) (Z.of_N m); VInt tbyte (Z.of_N b)] h = Done ([vp v], h).
  Proof. intros. into. now apply lookupValue_run. Qed.
  Lemma call_lookup : forall k o s v w h, words_lookup s = Ok (v, w) -> run (S (S k)) ("", "lookup") [VData o s] h = Done ([vp v; vint w], h).
  Proof. intros. into. apply lookup_run; [|assumption]. intros. now apply call_lookupValue. Qed.
  Lemma call_sub : forall k props o d e adv more h, (length d < n)%nat -> (Z.of_nat (length d) < 2 ^ 62)%Z -> subsequent props d e = Ok (adv, more) ->
    run (3 + k) ("", "subsequent") [vp props; VData o d; VBool e] h = Done ([VInt tint (oz adv); VBool more], h).
  Proof. intros. into. apply subsequent_run; try assumption; intros; [apply call_is|now apply call_lookup]. Qed.
  Lemma call_decode : forall k o d h, run (S k) ("", "decodeRune") [VData o d] h = Done ([VInt trune (Z.of_N (fst (DecodeRune d))); vint (snd (DecodeRune d))], h).
  Proof. intros. into. apply decodeRune_run. Qed.
  Lemma call_contain : forall k m l r h, runes_rep m l -> run (S k) ("", "runesContain") [VRunes m; VInt trune (Z.of_N r)] h = Done ([VBool (runesContain l r)], h).
  Proof. intros. into. now apply runesContain_run. Qed.
  Lemma call_jsplit : forall k j jl o d e r h, joiner_at j jl h -> (o = NilBytes -> d = []) -> (2 * length d + 2 <= n)%nat -> (Z.of_nat (length d) < 2 ^ 62)%Z -> joinersSplitFunc j d e = Ok r ->
    run (4 + k) ("Joiners", "splitFunc") [VPtr "Joiners" jl; VData o d; VBool e] h = Done (out_vals o r, h).
  Proof. intros. into. eapply jsplit_run; try eassumption; intros; [apply call_is|now apply call_lookup|apply call_decode|now apply call_contain|now apply call_sub]. Qed.
  Lemma call_splitFunc : forall k o d e r h, (o = NilBytes -> d = []) -> (2 * length d + 2 <= n)%nat -> (Z.of_nat (length d) < 2 ^ 62)%Z -> splitFunc d e = Ok r ->
    run (5 + k) ("", "splitFunc") [VData o d; VBool e] h = Done (out_vals o r, h ++ [no_joiners]).
  Proof. intros. into. apply splitFunc_run; try assumption. intros. eapply call_jsplit; eassumption. Qed.
  Lemma call_numeric : forall k o d r h, (length d < n)%nat -> (Z.of_nat (length d) < 2 ^ 62)%Z -> BleveNumeric d = Ok r -> run (4 + k) ("", "BleveNumeric") [VData o d] h = Done ([VBool r], h).
  Proof. intros. into. apply numeric_run; try assumption; intros; [apply call_is|now apply call_lookup|now apply call_sub]. Qed.
  Lemma call_ideographic : forall k o d r h, (length d < n)%nat -> (Z.of_nat (length d) < 2 ^ 62)%Z -> BleveIdeographic d = Ok r -> run (3 + k) ("", "BleveIdeographic") [VData o d] h = Done ([VBool r], h).
  Proof. intros. into. apply ideographic_run; try assumption; intros; [apply call_is|now apply call_lookup]. Qed.
  Lemma call_alnum : forall k b h, run (S k) ("", "isASCIIAlphanumeric") [VInt tbyte (Z.of_N b)] h = Done ([VBool (isASCIIAlphanumeric b)], h).
  Proof. intros. into. apply isalnum_run. Qed.
  Lemma call_Next : forall k o sv it l h, fine n o it -> split_at (it_split it) sv h -> hget l h = Some (iter_obj o sv it) -> exists g,
    run (6 + k) ("Iterator", "Next") [VPtr "Iterator" (Some l)] h = as_out (Next it) (fun r => ([VBool (fst r)], hset l (iter_obj o sv (snd r)) h ++ g)).
  Proof. intros. into. eapply Next_run; try eassumption; intros; [apply call_alnum|now apply call_splitFunc|eapply (call_jsplit (1 + k)); eassumption]. Qed.
  Lemma call_Value : forall k o sv it v l h, hget l h = Some (iter_obj o sv it) -> Value it = Ok v -> run (S k) ("Iterator", "Value") [VPtr "Iterator" (Some l)] h = Done ([VData o v], h).
  Proof. intros. into. eapply Value_run; eassumption. Qed.
  Lemma call_Split : forall k o sv it f sv' l h, is_split sv -> is_split sv' -> hget l h = Some (iter_obj o sv it) -> run (S k) ("Iterator", "Split") [VPtr "Iterator" (Some l); sv'] h = Done ([], hset l (iter_obj o sv' (Split it f)) h).
  Proof. intros. into. eapply Split_run; [| |eassumption]; assumption. Qed.
  Lemma call_Joiners : forall k o sv it j jl l h, is_split sv -> hget l h = Some (iter_obj o sv it) -> 
    run (2 + k) ("Iterator", "Joiners") [VPtr "Iterator" (Some l); VPtr "Joiners" jl] h = Done ([], hset l (iter_obj o (VMethod (VPtr "Joiners" jl) "splitFunc") (setJoiners it j)) h).
  Proof. intros. into. eapply Joiners_run; try eassumption. intros. eapply call_Split; [| |eassumption]; assumption. Qed.
  Lemma call_First : forall k o sv it l h, fine n o it -> split_at (it_split it) sv h -> hget l h = Some (iter_obj o sv it) -> exists g,
    run (7 + k) ("Iterator", "First") [VPtr "Iterator" (Some l)] h = as_out (First it) (fun r => ([VData o (fst r)], hset l (iter_obj o sv (snd r)) h ++ g)).
  Proof. intros. into. eapply First_run; try eassumption; intros; [eapply call_Next; eassumption|eapply (call_Value (5 + k)); eassumption]. Qed.
End Linked.
