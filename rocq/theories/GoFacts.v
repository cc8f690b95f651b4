(** Facts about the interpreter of GoSem.v: unfolding by statement, integers within bounds, slices and indexing. *)
From Coq Require Import String.
From Verif Require Import Base Trie GoSyntax GoSem.
Local Open Scope list_scope.

Section Unfold.
  Variable p : program.
  Variable C : fid -> list val -> heap -> out (list val * heap).
  Variable n : nat.
  Definition then_ (r : list stmt) (x : flow * vars * heap) : out (flow * vars * heap) :=
    let '(f, e, h) := x in match f with Fall => block p C n r e h | _ => Done (f, e, h) end.
  Definition init_ (o : option stmt) (e : vars) (h : heap) : out (flow * vars * heap) := match o with Some s => exec p C n s e h | None => Done (Fall, e, h) end.
  Definition scoped_ (l : list stmt) (e : vars) (h : heap) : out (flow * vars * heap) := leave (block p C n l ([] :: e) h).
  Definition branch (th el : list stmt) (e : vars) (r : val * heap) : out (flow * vars * heap) :=
    let (v, h) := r in match v with VBool b => if b then scoped_ th e h else scoped_ el e h | _ => Stuck end.
  Definition cond_ (c : option expr) (e : vars) (h : heap) : out (bool * heap) :=
    match c with Some x => ' (v, h) <== one (eval p C x e h) ;; match v with VBool b => Done (b, h) | _ => Stuck end | None => Done (true, h) end.

  Lemma block_nil : forall e h, block p C n [] e h = Done (Fall, e, h).
  Proof. reflexivity. Qed.
  Lemma block_cons : forall s r e h, block p C n (s :: r) e h = obind (exec p C n s e h) (then_ r).
  Proof. reflexivity. Qed.
  Lemma block_app : forall a b e h, block p C n (a ++ b) e h = obind (block p C n a e h) (then_ b).
  Proof.
    induction a as [|s a IH]; intros; [reflexivity|].
    change ((s :: a) ++ b) with (s :: (a ++ b)). rewrite !block_cons.
    destruct (exec p C n s e h) as [[[f e'] h']| | |]; try reflexivity.
    cbn [obind then_]. destruct f; try reflexivity. apply IH.
  Qed.
  Lemma exec_var0 : forall xs t e h, exec p C n (SVar xs t None) e h = v <== some (zero p e t) ;; let (e, h) := declare_all xs v e h in Done (Fall, e, h).
  Proof. reflexivity. Qed.
  Lemma exec_var1 : forall xs t x e h,
    exec p C n (SVar xs t (Some x)) e h = ' (v, h) <== one (eval p C x e h) ;; let (e, h) := declare_all xs (conv p t v) e h in Done (Fall, e, h).
  Proof. reflexivity. Qed.
  Lemma exec_define : forall xs es e h,
    exec p C n (SDefine xs es) e h = ' (vs, h) <== evalm p C es e h ;; ' (e, h) <== define_all xs vs e h ;; Done (Fall, e, h).
  Proof. reflexivity. Qed.
  Lemma exec_assign : forall xs es e h,
    exec p C n (SAssign xs es) e h = ' (vs, h) <== evalm p C es e h ;; ' (e, h) <== assign_all xs vs e h ;; Done (Fall, e, h).
  Proof. reflexivity. Qed.
  Lemma exec_op : forall l op x e h,
    exec p C n (SOp l op x) e h
    = ' (v, h) <== one (eval p C l e h) ;; ' (w, h) <== one (eval p C x e h) ;; r <== binop op v w ;; ' (e, h) <== assign l r e h ;; Done (Fall, e, h).
  Proof. reflexivity. Qed.
  Lemma exec_expr : forall x e h, exec p C n (SExpr x) e h = ' (_, h) <== eval p C x e h ;; Done (Fall, e, h).
  Proof. reflexivity. Qed.
  Lemma exec_if : forall i c th el e h,
    exec p C n (SIf i c th el) e h = leave (' (_, e, h) <== init_ i ([] :: e) h ;; obind (one (eval p C c e h)) (branch th el e)).
  Proof. reflexivity. Qed.
  Lemma exec_if0 : forall c th el e h,
    exec p C n (SIf None c th el) e h = leave (obind (one (eval p C c ([] :: e) h)) (branch th el ([] :: e))).
  Proof. reflexivity. Qed.
  Lemma exec_for : forall label i c post body e h,
    exec p C n (SFor label i c post body) e h
    = leave (' (_, e, h) <== init_ i ([] :: e) h ;; loop n label (cond_ c) (scoped_ body) (init_ post) e h).
  Proof. reflexivity. Qed.
  Lemma exec_range : forall label x a body e h,
    exec p C n (SRange label x a body) e h
    = ' (v, h) <== one (eval p C a e h) ;;
      match v with
      | VRunes None => Done (Fall, e, h)
      | VRunes (Some l) => each label (fun z e h => leave (scoped_ body ([(x, VInt trune z)] :: e) h)) l e h
      | _ => Stuck
      end.
  Proof. reflexivity. Qed.
  Lemma exec_break : forall l e h, exec p C n (SBreak l) e h = Done (Brk l, e, h).
  Proof. reflexivity. Qed.
  Lemma exec_continue : forall l e h, exec p C n (SContinue l) e h = Done (Cont l, e, h).
  Proof. reflexivity. Qed.
  Lemma exec_return : forall es e h, exec p C n (SReturn es) e h = ' (vs, h) <== evalm p C es e h ;; Done (Ret vs, e, h).
  Proof. reflexivity. Qed.

  (** A switch: the first clause that has the value of the tag. *)
  Definition hits (t : val) (e : vars) := fix any (xs : list expr) (h : heap) : out (bool * heap) :=
    match xs with
    | [] => Done (false, h)
    | x :: xs => ' (v, h) <== one (eval p C x e h) ;; m <== binop "==" t v ;; match m with VBool true => Done (true, h) | VBool false => any xs h | _ => Stuck end
    end.
  Definition clauses (t : val) (e : vars) (default : list stmt) := fix pick (cs : list (list expr * list stmt)) (h : heap) : out (flow * vars * heap) :=
    match cs with
    | [] => scoped_ default e h
    | (xs, b) :: r => ' (hit, h) <== hits t e xs h ;; if hit : bool then scoped_ b e h else pick r h
    end.
  Lemma clauses_nil : forall t e d h, clauses t e d [] h = scoped_ d e h.
  Proof. reflexivity. Qed.
  Lemma clauses_cons : forall t e d xs b r h, clauses t e d ((xs, b) :: r) h = ' (hit, h) <== hits t e xs h ;; if hit : bool then scoped_ b e h else clauses t e d r h.
  Proof. reflexivity. Qed.
  Definition unbreak (r : out (flow * vars * heap)) : out (flow * vars * heap) :=
    ' (f, e, h) <== r ;; match f with Brk ""%string => Done (Fall, e, h) | _ => Done (f, e, h) end.
  Lemma exec_switch : forall cs t d e h,
    exec p C n (SSwitch cs t d) e h
    = leave (' (v, h) <== match t with Some x => one (eval p C x e h) | None => Done (VBool true, h) end ;; unbreak (clauses v ([] :: e) d cs h)).
  Proof. reflexivity. Qed.
  Lemma exec_switch0 : forall cs d e h,
    exec p C n (SSwitch cs None d) e h = leave (unbreak (clauses (VBool true) ([] :: e) d cs h)).
  Proof. reflexivity. Qed.

  Lemma loop_S : forall k label cond body post e h,
    loop (S k) label cond body post e h
    = ' (c, h) <== cond e h ;;
      if c : bool then
        ' (f, e, h) <== body e h ;;
        match f with
        | Fall => ' (_, e, h) <== post e h ;; loop k label cond body post e h
        | Cont l => if mine label l then ' (_, e, h) <== post e h ;; loop k label cond body post e h else Done (f, e, h)
        | Brk l => if mine label l then Done (Fall, e, h) else Done (f, e, h)
        | Ret _ => Done (f, e, h)
        end
      else Done (Fall, e, h).
  Proof. reflexivity. Qed.
End Unfold.

(** * Conditions and results *)
Lemma if_and : forall (x y : bool) (h : heap), (if x then Done ([VBool y], h) else Done ([VBool false], h)) = Done ([VBool (x && y)], h).
Proof. intros [] ? ?; reflexivity. Qed.
Lemma if_or : forall (x y : bool) (h : heap), (if x then Done ([VBool true], h) else Done ([VBool y], h)) = Done ([VBool (x || y)], h).
Proof. intros [] ? ?; reflexivity. Qed.
Definition finish (p : program) (f : fundecl) (r : out (flow * vars * heap)) : out (list val * heap) :=
  ' (r, _, h) <== r ;;
  match r with
  | Ret vs => l <== some (conv_all p (fd_results f) vs) ;; Done (l, h)
  | Fall => match fd_results f with [] => Done ([], h) | _ => Stuck end
  | _ => Stuck
  end.
Lemma run_fun_finish : forall p C n f vs h e, enter p f vs = Some e -> run_fun p C n f vs h = finish p f (block p C n (fd_body f) e h).
Proof. intros. unfold run_fun. rewrite H. reflexivity. Qed.

(** * Integers *)
Lemma wrap_id : forall k z, let (lo, m) := range k in (lo <= z < lo + m)%Z -> wrap k z = z.
Proof. intros k z. unfold wrap. destruct (range k) as [lo m]. intros. rewrite Z.mod_small by lia. lia. Qed.
Lemma wrap_int : forall z, (- 2 ^ 63 <= z < 2 ^ 63)%Z -> wrap I64 z = z.
Proof. intros. exact (wrap_id I64 z ltac:(lia)). Qed.
Lemma wrap_u32 : forall x, wrap U32 (Z.of_N x) = Z.of_N (u32 x).
Proof.
  intros. unfold wrap, u32, range. change 4294967295%N with (N.ones 32). rewrite N.land_ones, N2Z.inj_mod by discriminate.
  rewrite Z.sub_0_r. change (Z.of_N (2 ^ 32)) with (2 ^ 32)%Z. lia.
Qed.
Lemma u32_id : forall x, (x < 4294967296)%N -> u32 x = x.
Proof. intros. unfold u32. change 4294967295%N with (N.ones 32). rewrite N.land_ones. apply N.mod_small. exact H. Qed.
Lemma of_shiftl : forall x, Z.shiftl (Z.of_N x) 6 = Z.of_N (N.shiftl x 6).
Proof. intros. rewrite Z.shiftl_mul_pow2 by lia. rewrite N.shiftl_mul_pow2. rewrite N2Z.inj_mul. reflexivity. Qed.
Lemma of_lor : forall x y, Z.lor (Z.of_N x) (Z.of_N y) = Z.of_N (N.lor x y).
Proof. intros [|x] [|y]; reflexivity. Qed.
Lemma of_land : forall x y, Z.land (Z.of_N x) (Z.of_N y) = Z.of_N (N.land x y).
Proof. intros [|x] [|y]; reflexivity. Qed.
Lemma of_N_eqb : forall x y, (Z.of_N x =? Z.of_N y)%Z = (x =? y)%N.
Proof. intros. destruct (N.eqb_spec x y); destruct (Z.eqb_spec (Z.of_N x) (Z.of_N y)); try reflexivity; lia. Qed.
Lemma of_N_ltb : forall x y, (Z.of_N x <? Z.of_N y)%Z = (x <? y)%N.
Proof. intros. destruct (N.ltb_spec x y); destruct (Z.ltb_spec (Z.of_N x) (Z.of_N y)); try reflexivity; lia. Qed.
Lemma of_N_leb : forall x y, (Z.of_N x <=? Z.of_N y)%Z = (x <=? y)%N.
Proof. intros. destruct (N.leb_spec x y); destruct (Z.leb_spec (Z.of_N x) (Z.of_N y)); try reflexivity; lia. Qed.
Lemma of_nat_eqb : forall x y, (Z.of_nat x =? Z.of_nat y)%Z = (x =? y)%nat.
Proof. intros. destruct (Nat.eqb_spec x y); destruct (Z.eqb_spec (Z.of_nat x) (Z.of_nat y)); try reflexivity; lia. Qed.
Lemma of_nat_ltb : forall x y, (Z.of_nat x <? Z.of_nat y)%Z = (x <? y)%nat.
Proof. intros. destruct (Nat.ltb_spec x y); destruct (Z.ltb_spec (Z.of_nat x) (Z.of_nat y)); try reflexivity; lia. Qed.
Lemma of_nat_leb : forall x y, (Z.of_nat x <=? Z.of_nat y)%Z = (x <=? y)%nat.
Proof. intros. destruct (Nat.leb_spec x y); destruct (Z.leb_spec (Z.of_nat x) (Z.of_nat y)); try reflexivity; lia. Qed.

Lemma of_N_eqb0 : forall x, (Z.of_N x =? 0)%Z = (x =? 0)%N.
Proof. intros. apply (of_N_eqb x 0). Qed.
Lemma of_nat_eqb0 : forall x, (Z.of_nat x =? 0)%Z = (x =? 0)%nat.
Proof. intros. apply (of_nat_eqb x 0). Qed.

(** Comparing with a constant. *)
Lemma of_N_eqb_pos : forall x q, (Z.of_N x =? Zpos q)%Z = (x =? Npos q)%N.
Proof. intros. apply (of_N_eqb x (Npos q)). Qed.
Lemma of_N_ltb_pos : forall x q, (Z.of_N x <? Zpos q)%Z = (x <? Npos q)%N.
Proof. intros. apply (of_N_ltb x (Npos q)). Qed.
Lemma of_N_leb_pos : forall x q, (Z.of_N x <=? Zpos q)%Z = (x <=? Npos q)%N.
Proof. intros. apply (of_N_leb x (Npos q)). Qed.
Lemma pos_leb_of_N : forall x q, (Zpos q <=? Z.of_N x)%Z = (Npos q <=? x)%N.
Proof. intros. apply (of_N_leb (Npos q) x). Qed.
Lemma of_nat_ltb_pos : forall x q, (Z.of_nat x <? Zpos q)%Z = (x <? Pos.to_nat q)%nat.
Proof. intros. rewrite <- (positive_nat_Z q). apply of_nat_ltb. Qed.
Lemma if_tf : forall b : bool, (if b then true else false) = b.
Proof. intros []; reflexivity. Qed.
Lemma if_hit : forall (b : bool) (h : heap), (if b then Done (true, h) else Done (false, h)) = Done (b, h).
Proof. intros [] ?; reflexivity. Qed.
Lemma if_hit2 : forall (a b : bool) (h : heap), (if a then Done (true, h) else Done (b, h)) = Done (a || b, h).
Proof. intros [] ? ?; reflexivity. Qed.

Lemma wrap_succ : forall i, (Z.of_nat i < 2 ^ 62)%Z -> wrap I64 (Z.of_nat i + 1) = Z.of_nat (S i).
Proof. intros. rewrite wrap_int; lia. Qed.
Lemma wrap_plus2 : forall i, (Z.of_nat i < 2 ^ 62)%Z -> wrap I64 (Z.of_nat i + 2) = Z.of_nat (i + 2).
Proof. intros. rewrite wrap_int; lia. Qed.
Lemma wrap_add : forall i j, (Z.of_nat (i + j) < 2 ^ 63)%Z -> wrap I64 (Z.of_nat i + Z.of_nat j) = Z.of_nat (i + j).
Proof. intros. rewrite wrap_int; lia. Qed.

(** * Slices and indexing *)
Lemma cut_mid : forall o b i j, (i <= j)%nat -> (j <= length b)%nat -> cut o b (Z.of_nat i) (Z.of_nat j) = Done (VData o (firstn (j - i) (skipn i b))).
Proof.
  intros. unfold cut. rewrite !of_nat_ltb.
  destruct (Z.ltb_spec (Z.of_nat i) 0); [lia|]. destruct (Nat.ltb_spec j i); [lia|]. destruct (Nat.ltb_spec (length b) j); [lia|].
  cbn [orb]. replace (Z.to_nat (Z.of_nat j - Z.of_nat i)) with (j - i)%nat by lia. rewrite Nat2Z.id. reflexivity.
Qed.
Lemma cut_from : forall o b i, (i <= length b)%nat -> cut o b (Z.of_nat i) (Z.of_nat (length b)) = Done (VData o (skipn i b)).
Proof. intros. rewrite cut_mid by lia. rewrite firstn_all2; [reflexivity|]. rewrite skipn_length. lia. Qed.
Lemma cut_to : forall o b j, (j <= length b)%nat -> cut o b 0 (Z.of_nat j) = Done (VData o (firstn j b)).
Proof. intros. change 0%Z with (Z.of_nat 0). rewrite cut_mid by lia. rewrite Nat.sub_0_r. reflexivity. Qed.
Lemma index_at : forall o b i c, nth_error b i = Some c -> index (VData o b) (Z.of_nat i) = Done (VInt tbyte (Z.of_N c)).
Proof. intros. unfold index. destruct (Z.ltb_spec (Z.of_nat i) 0); [lia|]. rewrite Nat2Z.id, H. reflexivity. Qed.
Lemma index_0 : forall o b c, byte_at b 0 = Ok c -> index (VData o b) 0 = Done (VInt tbyte (Z.of_N c)).
Proof. intros o b c H. unfold byte_at in H. destruct (nth_error b 0) eqn:E; [|discriminate]. injection H as ->. exact (index_at o b 0 c E). Qed.
Lemma index_pos : forall o b q c, byte_at b (Pos.to_nat q) = Ok c -> index (VData o b) (Zpos q) = Done (VInt tbyte (Z.of_N c)).
Proof.
  intros o b q c H. unfold byte_at in H. destruct (nth_error b (Pos.to_nat q)) eqn:E; [|discriminate]. injection H as ->.
  rewrite <- (positive_nat_Z q). exact (index_at o b _ c E).
Qed.
Lemma index_arr : forall t a i c, arr_get a i = Ok c -> index (VArr t a) (Z.of_N i) = Done (VInt t (Z.of_N c)).
Proof. intros. unfold index. destruct (Z.ltb_spec (Z.of_N i) 0); [lia|]. rewrite N2Z.id, H. reflexivity. Qed.

Lemma skipn_cons : forall A (d : list A) i b rest, skipn i d = b :: rest -> nth_error d i = Some b /\ skipn (S i) d = rest /\ (i < length d)%nat.
Proof.
  induction d as [|x d IH]; intros i b rest H; [destruct i; discriminate|].
  destruct i; cbn in *; [injection H as -> ->; repeat split; lia|]. destruct (IH _ _ _ H) as (A1 & A2 & A3). repeat split; [exact A1|exact A2|lia].
Qed.
Lemma skipn_nil : forall A (d : list A) i, skipn i d = [] -> (length d <= i)%nat.
Proof. intros A d i H. assert (L : length (skipn i d) = 0%nat) by now rewrite H. rewrite skipn_length in L. lia. Qed.

(** * The heap *)
Lemma hget_hset : forall h l o, (l < length h)%nat -> hget l (hset l o h) = Some o.
Proof. induction h as [|x h IH]; intros l o L; [cbn in L; lia|]. destruct l; [reflexivity|]. cbn in *. apply IH. lia. Qed.
Lemma hset_hset : forall h l o o', hset l o (hset l o' h) = hset l o h.
Proof. induction h as [|x h IH]; intros l o o'; [reflexivity|]. destruct l; cbn; [reflexivity|]. now rewrite IH. Qed.
Lemma hset_same : forall h l o, hget l h = Some o -> hset l o h = h.
Proof. induction h as [|x h IH]; intros l o H; [destruct l; discriminate|]. destruct l; cbn in *; [congruence|]. now rewrite IH. Qed.
Lemma hset_length : forall h l o, length (hset l o h) = length h.
Proof. induction h as [|x h IH]; intros l o; [reflexivity|]. destruct l; cbn; [reflexivity|]. now rewrite IH. Qed.
Lemma hget_bound : forall h l o, hget l h = Some o -> (l < length h)%nat.
Proof. intros. apply nth_error_Some. unfold hget in H. congruence. Qed.
Lemma hset_app : forall h g l o, (l < length h)%nat -> hset l o (h ++ g) = hset l o h ++ g.
Proof. induction h as [|x h IH]; intros g l o L; [cbn in L; lia|]. destruct l; [reflexivity|]. cbn in *. rewrite IH by lia. reflexivity. Qed.
Lemma hget_app : forall h g l, (l < length h)%nat -> hget l (h ++ g) = hget l h.
Proof. intros. unfold hget. now rewrite nth_error_app1. Qed.
Lemma hget_new : forall h o, hget (length h) (alloc h o) = Some o.
Proof. intros. unfold hget, alloc. rewrite nth_error_app2, Nat.sub_diag; [reflexivity|lia]. Qed.
Lemma hset_new : forall h o o', hset (length h) o (alloc h o') = alloc h o.
Proof. unfold alloc. induction h; intros; [reflexivity|]. cbn. now rewrite IHh. Qed.

(** * Arrays *)
Fixpoint tall (f : N -> bool) (t : tree) : bool := match t with Lf => true | Nd l v r => f v && (tall f l && tall f r) end.
Lemma tall_get : forall f t q, f 0%N = true -> tall f t = true -> f (tget q t) = true.
Proof.
  induction t as [|l IHl v r IHr]; intros q Z H; [destruct q; exact Z|]. cbn [tall] in H. apply andb_prop in H. destruct H as [A H]. apply andb_prop in H. destruct H as [B D].
  destruct q; cbn [tget]; auto.
Qed.
Lemma arr_all : forall f a i c, f 0%N = true -> tall f (arr_tree a) = true -> arr_get a i = Ok c -> f c = true.
Proof. intros f a i c Z H G. unfold arr_get in G. destruct (i <? arr_len a)%N; [|discriminate]. injection G as <-. now apply tall_get. Qed.

(** * Running programs symbolically *)
Ltac bi := lazy beta iota zeta.
Ltac active t :=
  lazymatch t with
  | finish _ _ ?x => active x
  | obind ?x _ => active x
  | leave ?x => active x
  | unbreak ?x => active x
  | match ?x with Done _ => _ | Panics => _ | Forever => _ | Stuck => _ end => active x
  | ?x => x
  end.
Ltac done_step rd :=
  first
  [ match goal with |- context [@obind ?A ?B ?m ?k] => lazymatch m with Done ?a => change (@obind A B m k) with (k a); bi end end
  | match goal with |- context [leave ?m] => lazymatch m with Done (?f, ?e, ?h) => let e' := eval lazy [tl] in (tl e) in change (leave m) with (@Done (flow * vars * heap) (f, e', h)) end end
  | match goal with |- context [unbreak ?m] => lazymatch m with Done ?x => let t := eval lazy beta iota zeta delta [unbreak obind] in (unbreak m) in change (unbreak m) with t end end
  | match goal with |- context [finish ?p ?f ?m] => lazymatch m with Done ?x => let z := constr:(finish p f m) in rd z end end
  | bi; match goal with |- ?l = _ => let t := active l in lazymatch t with Done _ => fail | _ => idtac end end ].
Ltac exec_step := first [ rewrite exec_var0 | rewrite exec_var1 | rewrite exec_define | rewrite exec_assign | rewrite exec_op | rewrite exec_expr | rewrite exec_if0
        | rewrite exec_if | rewrite exec_break | rewrite exec_continue | rewrite exec_return | rewrite exec_switch0 | rewrite exec_switch | rewrite exec_for].
Ltac step_with rd :=
  match goal with
  | |- ?l = _ =>
    let t := active l in
    lazymatch t with
    | Done _ => done_step rd
    | block ?p ?C ?n [] ?e ?h => change t with (@Done (flow * vars * heap) (Fall, e, h))
    | block ?p ?C ?n (?s :: ?r) ?e ?h => change t with (obind (exec p C n s e h) (then_ p C n r))
    | exec _ _ _ _ _ _ => exec_step
    | evalm _ _ _ _ _ => rd t
    | one _ => rd t
    | eval _ _ _ _ _ => rd t
    | define_all _ _ _ _ => rd t
    | assign_all _ _ _ _ => rd t
    | assign _ _ _ _ => rd t
    | binop _ _ _ => rd t
    | some (zero _ _ _) => rd t
    | let (_, _) := declare_all _ _ _ _ in _ => rd t
    | then_ ?p ?C ?n ?r (Fall, ?e, ?h) => change t with (block p C n r e h)
    | then_ ?p ?C ?n ?r ?x => change t with (@Done (flow * vars * heap) x)
    | branch ?p ?C ?n ?th ?el ?e (VBool ?b, ?h) => change t with (if b then scoped_ p C n th e h else scoped_ p C n el e h)
    | scoped_ ?p ?C ?n ?l ?e ?h => change t with (leave (block p C n l ([] :: e) h))
    | if mine ?a ?b then _ else _ => let v := eval lazy in (mine a b) in change (mine a b) with v; bi
    | if true then ?x else _ => change t with x
    | if false then _ else ?x => change t with x
    | if negb true then _ else ?x => change t with x
    | if negb false then ?x else _ => change t with x
    | init_ ?p ?C ?n None ?e ?h => change t with (@Done (flow * vars * heap) (Fall, e, h))
    | init_ ?p ?C ?n (Some ?s) ?e ?h => change t with (exec p C n s e h)
    | cond_ ?p ?C None ?e ?h => change t with (@Done (bool * heap) (true, h))
    | cond_ ?p ?C (Some ?x) ?e ?h => change t with (obind (one (eval p C x e h)) (fun r => let (v, h) := r in match v with VBool b => Done (b, h) | _ => @Stuck (bool * heap) end))
    | clauses _ _ _ _ _ _ [] _ => rewrite clauses_nil
    | clauses _ _ _ _ _ _ _ _ => rewrite clauses_cons
    | hits ?p ?C ?t' ?e ?xs ?h => rd t
    end
  end.


Fixpoint set_vars (l : list (string * val)) (e : vars) : vars := match l with [] => e | (x, v) :: r => set_vars r (set_var x v e) end.
(** Both branches of an [if] lead to the same variables with these new values: go on with one case. *)
Ltac merge_with rd upd solve_ :=
  match goal with
  | |- ?l = _ =>
    let t := active l in
    lazymatch t with
    | if ?b then ?x else ?y =>
      let e := lazymatch x with scoped_ _ _ _ _ ?e _ => e end in
      let h := lazymatch x with scoped_ _ _ _ _ _ ?h => h end in
      let X := fresh in
      assert (X : t = Done (Fall, set_vars upd e, h)) by (solve_);
      rewrite X; clear X; let z := constr:(set_vars upd e) in rd z
    end
  end.
