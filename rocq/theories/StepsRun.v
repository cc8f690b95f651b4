(** Taken one after the other, the steps are what the interpreter of GoSem.v does. *)
From Coq Require Import String.
From Verif Require Import Base Trie Utf8 GoSyntax GoSem GoFacts SpecSteps.
Local Open Scope string_scope.
Local Open Scope list_scope.

(** * Expressions and statements contain lists of each other *)
Section Expr.
  Variable P : expr -> Prop.
  Hypothesis Hid : forall x, P (EId x).
  Hypothesis Hint : forall z, P (EInt z).
  Hypothesis Hstr : forall s, P (EStr s).
  Hypothesis Hty : forall t, P (ETy t).
  Hypothesis Hbin : forall op a b, P a -> P b -> P (EBin op a b).
  Hypothesis Hun : forall op a, P a -> P (EUn op a).
  Hypothesis Hcall : forall f l, P f -> (forall a m, f = ESel a m -> P a) -> Forall P l -> P (ECall f l).
  Hypothesis Hsel : forall a x, P a -> P (ESel a x).
  Hypothesis Hindex : forall a i, P a -> P i -> P (EIndex a i).
  Hypothesis Hslice : forall a lo hi, P a -> (forall x, lo = Some x -> P x) -> (forall x, hi = Some x -> P x) -> P (ESlice a lo hi).
  Hypothesis Hcomp : forall n l, Forall (fun q => P (snd q)) l -> P (EComp n l).
  Hypothesis Hfn : forall ps rs es, P (EFn ps rs es).
  Fixpoint expr_all (x : expr) : P x.
  Proof.
    destruct x as [x|z|s|t|op a b|op a|f l|a x|a i|a lo hi|n l|ps rs es].
    - apply Hid.
    - apply Hint.
    - apply Hstr.
    - apply Hty.
    - apply Hbin; apply expr_all.
    - apply Hun; apply expr_all.
    - apply Hcall; [apply expr_all| |].
      + destruct f; try (intros; discriminate). intros a m E. injection E as <- _. apply expr_all.
      + induction l as [|y l IH]; constructor; [apply expr_all|exact IH].
    - apply Hsel; apply expr_all.
    - apply Hindex; apply expr_all.
    - apply Hslice; [apply expr_all| |]; [destruct lo as [y|]|destruct hi as [y|]]; intros x E; try discriminate; injection E as <-; apply expr_all.
    - apply Hcomp. induction l as [|[y a] l IH]; constructor; [apply expr_all|exact IH].
    - apply Hfn.
  Qed.
End Expr.
Section Stmt.
  Variable P : stmt -> Prop.
  Definition opt (o : option stmt) : Prop := forall s, o = Some s -> P s.
  Hypothesis Hvar : forall xs t i, P (SVar xs t i).
  Hypothesis Hdef : forall xs es, P (SDefine xs es).
  Hypothesis Hass : forall ls es, P (SAssign ls es).
  Hypothesis Hop : forall l op x, P (SOp l op x).
  Hypothesis Hexp : forall x, P (SExpr x).
  Hypothesis Hif : forall i c th el, opt i -> Forall P th -> Forall P el -> P (SIf i c th el).
  Hypothesis Hfor : forall lb i c post body, opt i -> opt post -> Forall P body -> P (SFor lb i c post body).
  Hypothesis Hrange : forall lb x a body, Forall P body -> P (SRange lb x a body).
  Hypothesis Hswitch : forall cs t d, Forall (fun q => Forall P (snd q)) cs -> Forall P d -> P (SSwitch cs t d).
  Hypothesis Htswitch : forall x a cs d, Forall (fun q => Forall P (snd q)) cs -> Forall P d -> P (STypeSwitch x a cs d).
  Hypothesis Hbrk : forall l, P (SBreak l).
  Hypothesis Hcont : forall l, P (SContinue l).
  Hypothesis Hret : forall es, P (SReturn es).
  Fixpoint stmt_all (s : stmt) : P s.
  Proof.
    assert (L : forall l, Forall P l -> Forall P l) by auto.
    destruct s as [xs t i|xs es|ls es|l op x|x|i c th el|lb i c post body|lb x a body|cs t d|x a cs d|l|l|es].
    - apply Hvar.
    - apply Hdef.
    - apply Hass.
    - apply Hop.
    - apply Hexp.
    - apply Hif; [destruct i as [s|]; intros s' E; try discriminate; injection E as <-; apply stmt_all| |].
      + induction th as [|y l IH]; constructor; [apply stmt_all|exact IH].
      + induction el as [|y l IH]; constructor; [apply stmt_all|exact IH].
    - apply Hfor; [destruct i as [s|]; intros s' E; try discriminate; injection E as <-; apply stmt_all|destruct post as [s|]; intros s' E; try discriminate; injection E as <-; apply stmt_all|].
      induction body as [|y l IH]; constructor; [apply stmt_all|exact IH].
    - apply Hrange. induction body as [|y l IH]; constructor; [apply stmt_all|exact IH].
    - apply Hswitch; [|induction d as [|y l IH]; constructor; [apply stmt_all|exact IH]].
      induction cs as [|[ys b] cs IH]; constructor; [|exact IH]. cbn. induction b as [|y l IHb]; constructor; [apply stmt_all|exact IHb].
    - apply Htswitch; [|induction d as [|y l IH]; constructor; [apply stmt_all|exact IH]].
      induction cs as [|[ys b] cs IH]; constructor; [|exact IH]. cbn. induction b as [|y l IHb]; constructor; [apply stmt_all|exact IHb].
    - apply Hbrk.
    - apply Hcont.
    - apply Hret.
  Qed.
End Stmt.

(** * Running *)
Lemma run_bind : forall A B (m : act A) (k : A -> act B) h, run (tbind m k) h = obind (run m h) (fun r => run (k (fst r)) (snd r)).
Proof.
  intros A B m k. induction m as [a|s|l x c IH|l c IH|l x v c IH|o c IH]; intros h; cbn [tbind run].
  - reflexivity.
  - destruct s; reflexivity.
  - destruct (hget l h) as [[n fs]|]; [|reflexivity]. destruct (assoc x fs); [apply IH|reflexivity].
  - destruct (hget l h) as [[n fs]|]; [apply IH|reflexivity].
  - destruct (hget l h) as [[n fs]|]; [|reflexivity]. destruct (assoc x fs); [apply IH|reflexivity].
  - apply IH.
Qed.
Lemma run_pure : forall A (o : out A) h, run (pure o) h = obind o (fun a => Done (a, h)).
Proof. intros A [a| | |] h; reflexivity. Qed.
Lemma obind_ext : forall A B (m : out A) (k k' : A -> out B), (forall a, k a = k' a) -> obind m k = obind m k'.
Proof. intros A B [a| | |] k k' E; cbn; auto. Qed.
Lemma obind_assoc : forall A B C (m : out A) (k : A -> out B) (k' : B -> out C), obind (obind m k) k' = obind m (fun a => obind (k a) k').
Proof. intros A B C [a| | |] k k'; reflexivity. Qed.
Lemma run_one : forall m h, run (tone m) h = one (run m h).
Proof.
  intros m h. unfold tone, one. rewrite run_bind. apply obind_ext. intros [vs h']. cbn [fst snd]. destruct vs as [|v [|]]; reflexivity.
Qed.
Lemma run_select : forall p v x h, run (tselect p v x) h = obind (select p v x h) (fun w => Done (w, h)).
Proof.
  intros p v x h. destruct v as [[|n k] z| | | |n [l|]|n l| | | | | | | | |]; cbn [tselect select]; try reflexivity; destruct (has_fun _ p); try reflexivity; cbn [run fields_of];
    (destruct (hget l h) as [[m fs]|]; [cbn [obind]; destruct (assoc x fs); reflexivity|reflexivity]).
Qed.
Lemma run_declare : forall x v e h, run (tdeclare x v e) h = Done (declare x v e h).
Proof. intros x v e h. destruct v; reflexivity. Qed.
Lemma run_leave : forall r h, run (tleave r) h = leave (run r h).
Proof. intros r h. unfold tleave, leave. rewrite run_bind. apply obind_ext. intros [[f e] h']. reflexivity. Qed.
Lemma run_loop : forall label tc tb tp cond body post, (forall e h, run (tc e) h = cond e h) -> (forall e h, run (tb e) h = body e h) -> (forall e h, run (tp e) h = post e h) ->
  forall k e h, run (tloop k label tc tb tp e) h = loop k label cond body post e h.
Proof.
  intros label tc tb tp cond body post EC EB EP. induction k as [|k IH]; intros e h; cbn [tloop loop]; [reflexivity|].
  rewrite run_bind, EC. apply obind_ext. intros [c h1]. cbn [fst snd]. destruct c; [|reflexivity]. rewrite run_bind, EB. apply obind_ext. intros [[f e2] h2]. cbn [fst snd].
  assert (AG : run (' (_, e) <~~ tp e2 ;; tloop k label tc tb tp e) h2 = (' (_, e, h) <== post e2 h2 ;; loop k label cond body post e h)).
  { rewrite run_bind, EP. apply obind_ext. intros [[f3 e3] h3]. cbn [fst snd]. apply IH. }
  cbv zeta. destruct f as [|l|l|vs]; try destruct (mine label l); try exact AG; reflexivity.
Qed.
Lemma run_each : forall label tb body, (forall z e h, run (tb z e) h = body z e h) -> forall l e h, run (teach label tb l e) h = each label body l e h.
Proof.
  intros label tb body EB. induction l as [|z l IH]; intros e h; cbn [teach each]; [reflexivity|].
  rewrite run_bind, EB. apply obind_ext. intros [[f e2] h2]. cbn [fst snd]. destruct f as [|lb|lb|vs]; try destruct (mine label lb); try apply IH; reflexivity.
Qed.

(** Take cases until nothing is left to choose. *)
Ltac destr := repeat (lazymatch goal with |- context [match ?x with _ => _ end] => lazymatch x with context [match _ with _ => _ end] => fail | _ => is_var x; destruct x end end).
Section Same.
  Variable p : program.
  Variable tc : fid -> list val -> act (list val).
  Variable c : fid -> list val -> heap -> out (list val * heap).
  Variable rounds : nat.
  Hypothesis EC : forall f vs h, run (tc f vs) h = c f vs h.
  Lemma run_apply : forall f vs h, run (tapply tc f vs) h = apply c f vs h.
  Proof.
    intros f vs h. destruct f as [| | | | | | |f|r m|f| | | | |]; cbn [tapply apply]; try reflexivity; [apply EC| |].
    - destruct r as [[|n k] z| | | |n l| | | | | | | | | |]; try reflexivity; apply EC.
    - destruct vs as [|[| |o b| | | | | | | | | | | |] [|[|e| | | | | | | | | | | | |] [|]]]; try reflexivity. destruct (f b e); reflexivity.
  Qed.
  Notation targs e := (fix args (l : list expr) : act (list val) := match l with [] => ret [] | a :: r => v <~~ tone (teval p tc a e) ;; vs <~~ args r ;; ret (v :: vs) end).
  Notation gargs e := (fix args (l : list expr) (h : heap) : out (list val * heap) :=
      match l with [] => Done ([], h) | a :: r => ' (v, h) <== one (eval p c a e h) ;; ' (vs, h) <== args r h ;; Done (v :: vs, h) end).
  Definition same_expr (x : expr) : Prop := forall e h, run (teval p tc x e) h = eval p c x e h.
  Lemma run_targs : forall l, Forall same_expr l -> forall e h, run (targs e l) h = gargs e l h.
  Proof.
    induction 1 as [|a l Ha _ IH]; intros e h; [reflexivity|]. rewrite run_bind, run_one, Ha. apply obind_ext. intros [v h1]. cbn [fst snd].
    rewrite run_bind, IH. apply obind_ext. intros [vs h2]. reflexivity.
  Qed.
  Ltac go := repeat (first [rewrite run_bind|rewrite run_one|rewrite run_pure|rewrite run_select|rewrite run_apply]).
  Ltac nxt := apply obind_ext; intros [? ?]; cbn [fst snd].
  Lemma eval_same : forall x, same_expr x.
  Proof.
    apply expr_all; unfold same_expr.
    - intros x e h. cbn [teval eval]. rewrite run_bind, run_pure, obind_assoc. apply obind_ext. intros v. cbn [obind fst snd]. destruct v; reflexivity.
    - reflexivity.
    - reflexivity.
    - reflexivity.
    - intros op a b Ha Hb e h. cbn [teval eval]. rewrite run_bind, run_one, Ha. nxt.
      assert (OTHER : forall o v, run (w <~~ tone (teval p tc b e) ;; r <~~ pure (binop o v w) ;; ret [r]) h0 = (' (w, h) <== one (eval p c b e h0) ;; r <== binop o v w ;; Done ([r], h))).
      { intros o v0. rewrite run_bind, run_one, Hb. nxt. rewrite run_bind, run_pure, obind_assoc. reflexivity. }
      assert (REST : run (w <~~ tone (teval p tc b e) ;; match w with VBool c => ret [VBool c] | _ => stop Wedged end) h0 = (' (w, h) <== one (eval p c b e h0) ;; match w with VBool c => Done ([VBool c], h) | _ => Stuck end)).
      { rewrite run_bind, run_one, Hb. nxt. destruct v0; reflexivity. }
      destr; first [apply OTHER|apply REST|reflexivity].
    - intros op a Ha e h. cbn [teval eval].
      destr; try reflexivity; rewrite run_bind, run_one, Ha; nxt; destr; try reflexivity.
      cbn [run fields_of obind]. match goal with |- context [hget ?l ?h] => destruct (hget l h) as [[? ?]|]; reflexivity end.
    - intros f l Hf Hs Hl e h. pose proof (run_targs l Hl) as AR. cbn [teval eval].
      destruct f as [x|z|s|t|op a b|op a|f l'|a m|a i|a lo hi|n l'|ps rs es]; try reflexivity.
      + rewrite run_bind, AR. nxt. destruct (unknown p x e); [rewrite run_pure; reflexivity|]. rewrite run_bind, run_pure, obind_assoc. apply obind_ext. intros v. cbn [obind fst snd]. apply run_apply.
      + pose proof (Hs a m eq_refl) as Ha. 
        assert (TAIL : forall v h0, run (w <~~ tselect p v m ;; vs <~~ targs e l ;; tapply tc w vs) h0 = (w <== select p v m h0 ;; ' (vs, h) <== gargs e l h0 ;; apply c w vs h)).
        { intros v h0. rewrite run_bind, run_select, obind_assoc. apply obind_ext. intros w. cbn [obind fst snd]. rewrite run_bind, AR. nxt. apply run_apply. }
        destruct a as [q| | | | | | | | | | |]; try (rewrite run_bind, run_one, Ha; apply obind_ext; intros [v h0]; apply TAIL).
        destruct (unknown p q e).
        * rewrite run_bind, AR. nxt. rewrite run_pure. reflexivity.
        * rewrite run_bind, run_pure, obind_assoc. apply obind_ext. intros v. cbn [obind fst snd]. apply TAIL.
    - intros a x Ha e h. cbn [teval eval].
      assert (TAIL : forall v h0, run (w <~~ tselect p v x ;; ret [w]) h0 = (w <== select p v x h0 ;; Done ([w], h0))).
      { intros v h0. rewrite run_bind, run_select, obind_assoc. reflexivity. }
      destruct a as [q| | | | | | | | | | |]; try (rewrite run_bind, run_one, Ha; apply obind_ext; intros [v h0]; apply TAIL).
      destruct (unknown p q e).
      + generalize (qual q x). intros s. destr; reflexivity.
      + rewrite run_bind, run_pure, obind_assoc. apply obind_ext. intros v. cbn [obind fst snd]. apply TAIL.
    - intros a i Ha Hi e h. cbn [teval eval]. rewrite run_bind, run_one, Ha. nxt.
      assert (TAIL : run (w <~~ tone (teval p tc i e) ;; match w with VInt _ z => r <~~ pure (index v z) ;; ret [r] | _ => stop Wedged end) h0
        = (' (w, h) <== one (eval p c i e h0) ;; match w with VInt _ z => r <== index v z ;; Done ([r], h) | _ => Stuck end)).
      { rewrite run_bind, run_one, Hi. nxt. destruct v0; try reflexivity. rewrite run_bind, run_pure, obind_assoc. reflexivity. }
      destruct v; first [exact TAIL|reflexivity].
    - intros a lo hi Ha Hlo Hhi e h. cbn [teval eval]. rewrite run_bind, run_one, Ha. nxt. destruct v as [| |o b| | | | | | | | | | | |]; try reflexivity.
      assert (INT : forall x h, same_expr x -> run (w <~~ tone (teval p tc x e) ;; match w with VInt _ z => ret z | _ => stop Wedged end) h = (' (w, h) <== one (eval p c x e h) ;; match w with VInt _ z => Done (z, h) | _ => Stuck end)).
      { intros x h1 Hx. rewrite run_bind, run_one, Hx. nxt. destruct v; reflexivity. }
      rewrite run_bind. destruct lo as [x|]; [rewrite (INT x) by (exact (Hlo x eq_refl))|cbn [run]]; nxt; (rewrite run_bind; destruct hi as [y|]; [rewrite (INT y) by (exact (Hhi y eq_refl))|cbn [run]]; nxt; rewrite run_bind, run_pure, obind_assoc; reflexivity).
    - intros n l Hl e h. cbn [teval eval]. destruct (assoc n (p_structs p)) as [ds|]; [|reflexivity]. rewrite run_bind.
      assert (FILL : forall h, run ((fix fill (l : list (string * expr)) : act fields :=
             match l with
             | [] => ret []
             | (x, a) :: r => v <~~ tone (teval p tc a e) ;; vs <~~ fill r ;; ret ((x, v) :: vs)
             end) l) h = (fix fill (l : list (string * expr)) (h : heap) : out (fields * heap) :=
             match l with
             | [] => Done ([], h)
             | (x, a) :: r => ' (v, h) <== one (eval p c a e h) ;; ' (vs, h) <== fill r h ;; Done ((x, v) :: vs, h)
             end) l h).
      { clear h. induction Hl as [|[x a] l Ha _ IH]; intros h; [reflexivity|]. cbn [snd] in Ha. rewrite run_bind, run_one, Ha. nxt. rewrite run_bind, IH. nxt. reflexivity. }
      rewrite FILL. nxt. rewrite run_bind, run_pure, obind_assoc. reflexivity.
    - reflexivity.
  Qed.
  Lemma evals_same : forall l e h, run (tevals p tc l e) h = evals p c l e h.
  Proof.
    induction l as [|a l IH]; intros e h; [reflexivity|]. cbn [tevals evals]. rewrite run_bind, run_one, eval_same. nxt. rewrite run_bind, IH. nxt. reflexivity.
  Qed.
  Lemma evalm_same : forall l e h, run (tevalm p tc l e) h = evalm p c l e h.
  Proof. intros [|x [|y l]] e h; [reflexivity|apply eval_same|apply evals_same]. Qed.
  Lemma assign_same : forall l v e h, run (tassign l v e) h = assign l v e h.
  Proof.
    intros l v e h. destruct l as [x| | | | | | |a x| | | |]; try reflexivity.
    - assert (O : forall y, run (match get_var y e with Some (VObj _ _) => stop Wedged | Some old => ret (set_var y (like old v) e) | None => stop Wedged end) h
        = match get_var y e with Some (VObj _ _) => Stuck | Some old => Done (set_var y (like old v) e, h) | None => Stuck end).
      { intros y. destruct (get_var y e) as [w|]; [|reflexivity]. destruct w; reflexivity. }
      unfold tassign, assign. destr; first [apply O|reflexivity].
    - destruct a as [q| | | | | | | | | | |]; try reflexivity. cbn [tassign assign]. destruct (get_var q e) as [w|]; [|reflexivity].
      destruct w as [| | | |n [k|]|n k| | | | | | | | |]; try reflexivity; cbn [run]; destruct (hget k h) as [[m fs]|]; try reflexivity; destruct (assoc x fs); reflexivity.
  Qed.
  Lemma assign_all_same : forall ls vs e h, run (tassign_all ls vs e) h = assign_all ls vs e h.
  Proof.
    induction ls as [|l ls IH]; intros [|v vs] e h; try reflexivity. cbn [tassign_all assign_all]. rewrite run_bind, assign_same. nxt. apply IH.
  Qed.
  Lemma define_all_same : forall xs vs e h, run (tdefine_all xs vs e) h = define_all xs vs e h.
  Proof.
    induction xs as [|x xs IH]; intros [|v vs] e h; try reflexivity. cbn [tdefine_all define_all]. destruct (String.eqb x "_"); [apply IH|]. destruct (innermost x e).
    - rewrite run_bind, assign_same. nxt. apply IH.
    - rewrite run_bind, run_declare. cbn [obind]. destruct (declare x (settle v) e h) as [e1 h1]. apply IH.
  Qed.
  Lemma declare_all_same : forall xs v e h, run (tdeclare_all xs v e) h = Done (declare_all xs v e h).
  Proof.
    induction xs as [|x xs IH]; intros v e h; [reflexivity|]. cbn [tdeclare_all declare_all]. rewrite run_bind, run_declare. cbn [obind]. destruct (declare x v e h) as [e1 h1]. apply IH.
  Qed.
  Definition same_stmt (s : stmt) : Prop := forall e h, run (texec p tc rounds s e) h = exec p c rounds s e h.
  Lemma block_same0 : forall l, Forall same_stmt l -> forall e h, run (tblock p tc rounds l e) h = block p c rounds l e h.
  Proof.
    induction 1 as [|s l Hs _ IH]; intros e h; [reflexivity|]. cbn [tblock block]. rewrite run_bind, Hs. nxt. destruct p0 as [f e1]. destruct f; first [apply IH|reflexivity].
  Qed.
  Definition tscoped (l : list stmt) (e : vars) : act (flow * vars) := tleave (tblock p tc rounds l ([] :: e)).
  Definition tmaybe (o : option stmt) (e : vars) : act (flow * vars) := match o with Some s => texec p tc rounds s e | None => ret (Fall, e) end.
  Lemma scoped_same0 : forall l, Forall same_stmt l -> forall e h, run (tscoped l e) h = scoped_ p c rounds l e h.
  Proof. intros l L e h. unfold tscoped, scoped_. rewrite run_leave, block_same0 by exact L. reflexivity. Qed.
  Lemma maybe_same0 : forall o, opt same_stmt o -> forall e h, run (tmaybe o e) h = init_ p c rounds o e h.
  Proof. intros [s|] O e h; [|reflexivity]. exact (O s eq_refl e h). Qed.
  Lemma exec_same : forall s, same_stmt s.
  Proof.
    apply stmt_all; unfold same_stmt.
    - intros xs t [x|] e h.
      + rewrite exec_var1. cbn [texec]. rewrite run_bind, run_one, eval_same. nxt. rewrite run_bind, declare_all_same. cbn [obind]. destruct (declare_all xs (conv p t v) e h0); reflexivity.
      + rewrite exec_var0. cbn [texec]. rewrite run_bind, run_pure, obind_assoc. apply obind_ext. intros v. cbn [obind fst snd]. rewrite run_bind, declare_all_same. cbn [obind]. destruct (declare_all xs v e h); reflexivity.
    - intros xs es e h. rewrite exec_define. cbn [texec]. rewrite run_bind, evalm_same. nxt. rewrite run_bind, define_all_same. nxt. reflexivity.
    - intros xs es e h. rewrite exec_assign. cbn [texec]. rewrite run_bind, evalm_same. nxt. rewrite run_bind, assign_all_same. nxt. reflexivity.
    - intros l op x e h. rewrite exec_op. cbn [texec]. rewrite run_bind, run_one, eval_same. nxt. rewrite run_bind, run_one, eval_same. nxt. rewrite run_bind, run_pure, obind_assoc. apply obind_ext. intros r. cbn [obind fst snd].
      rewrite run_bind, assign_same. nxt. reflexivity.
    - intros x e h. rewrite exec_expr. cbn [texec]. rewrite run_bind, eval_same. nxt. reflexivity.
    - intros i c0 th el Hi Ht He e h. rewrite exec_if.
      change (texec p tc rounds (SIf i c0 th el) e) with (tleave (' (_, e) <~~ tmaybe i ([] :: e) ;; v <~~ tone (teval p tc c0 e) ;; match v with VBool b => if b then tscoped th e else tscoped el e | _ => stop Wedged end)).
      rewrite run_leave. f_equal. rewrite run_bind, maybe_same0 by exact Hi. apply obind_ext. intros [[f e1] h1]. cbn [fst snd]. rewrite run_bind, run_one, eval_same. nxt. destruct v as [|[]| | | | | | | | | | | | |]; try reflexivity; cbn [branch]; now apply scoped_same0.
    - intros lb i c0 post body Hi Hp Hb e h. rewrite exec_for.
      change (texec p tc rounds (SFor lb i c0 post body) e) with (tleave (' (_, e) <~~ tmaybe i ([] :: e) ;; tloop rounds lb
                (fun e => match c0 with Some x => v <~~ tone (teval p tc x e) ;; match v with VBool b => ret b | _ => stop Wedged end | None => ret true end) (tscoped body) (tmaybe post) e)).
      rewrite run_leave. f_equal. rewrite run_bind, maybe_same0 by exact Hi. apply obind_ext. intros [[f e1] h1]. cbn [fst snd]. apply run_loop.
      + intros e2 h2. unfold cond_. destruct c0 as [x|]; [|reflexivity]. rewrite run_bind, run_one, eval_same. nxt. destruct v; reflexivity.
      + now apply scoped_same0.
      + now apply maybe_same0.
    - intros lb x a body Hb e h. rewrite exec_range.
      change (texec p tc rounds (SRange lb x a body) e) with (v <~~ tone (teval p tc a e) ;; match v with VRunes None => ret (Fall, e)
        | VRunes (Some l) => teach lb (fun z e => tleave (tscoped body ([(x, VInt trune z)] :: e))) l e | _ => stop Wedged end).
      rewrite run_bind, run_one, eval_same. nxt. destruct v as [| | |[l|]| | | | | | | | | | |]; try reflexivity. apply run_each. intros z e1 h1. rewrite run_leave, scoped_same0 by exact Hb. reflexivity.
    - intros cs t d Hc Hd e h. rewrite exec_switch.
      pose (thits := fun (t : val) (e : vars) => fix any (xs : list expr) : act bool :=
                match xs with
                | [] => ret false
                | x :: xs => v <~~ tone (teval p tc x e) ;; m <~~ pure (binop "==" t v) ;; match m with VBool true => ret true | VBool false => any xs | _ => stop Wedged end
                end).
      pose (tclauses := fun (t : val) (e : vars) => fix pick (cs : list (list expr * list stmt)) : act (flow * vars) :=
           match cs with
           | [] => tscoped d e
           | (xs, b) :: r => hit <~~ thits t e xs ;; if hit : bool then tscoped b e else pick r
           end).
      change (texec p tc rounds (SSwitch cs t d) e) with (tleave (t <~~ match t with Some x => tone (teval p tc x e) | None => ret (VBool true) end ;; 
        ' (f, e) <~~ tclauses t ([] :: e) cs ;; match f with Brk "" => ret (Fall, e) | _ => ret (f, e) end)).
      rewrite run_leave. f_equal. rewrite run_bind.
      assert (TAG : run match t with Some x => tone (teval p tc x e) | None => ret (VBool true) end h = match t with Some x => one (eval p c x e h) | None => Done (VBool true, h) end).
      { destruct t as [x|]; [|reflexivity]. now rewrite run_one, eval_same. }
      rewrite TAG. nxt. rewrite run_bind.
      assert (HIT : forall v e xs h, run (thits v e xs) h = hits p c v e xs h).
      { clear - EC. intros v e. induction xs as [|x xs IH]; intros h; [reflexivity|]. cbn [thits hits]. rewrite run_bind, run_one, eval_same. nxt. rewrite run_bind, run_pure, obind_assoc. apply obind_ext. intros m. cbn [obind fst snd].
        destruct m as [|[]| | | | | | | | | | | | |]; first [apply IH|reflexivity]. }
      assert (CL : forall v e h, run (tclauses v e cs) h = clauses p c rounds v e d cs h).
      { clear TAG v h0. intros v e1. induction Hc as [|[xs b] cs Hb _ IH]; intros h0; [now apply scoped_same0|]. cbn [snd] in Hb. rewrite clauses_cons.
        change (run (hit <~~ thits v e1 xs ;; if hit : bool then tscoped b e1 else tclauses v e1 cs) h0 = (' (hit, h) <== hits p c v e1 xs h0 ;; (if hit then scoped_ p c rounds b e1 h else clauses p c rounds v e1 d cs h))).
        rewrite run_bind, HIT. nxt. destruct b0; [now apply scoped_same0|apply IH]. }
      rewrite CL. unfold unbreak. apply obind_ext. intros [[f e1] h1]. cbn [fst snd]. destr; reflexivity.
    - intros x a cs d Hc Hd e h.
      destruct a as [| | | | | |f l| | | | |]; try reflexivity. destruct f as [s| | | | | | | | | | |]; try reflexivity.
      destruct (String.eqb s "any") eqn:E.
      + apply String.eqb_eq in E. subst s. destruct l as [|a [|]]; try reflexivity.
        change (texec p tc rounds (STypeSwitch x (ECall (EId "any") [a]) cs d) e) with (v <~~ tone (teval p tc a e) ;; match v with VData o _ =>
          tleave ((fix pick (cs : list (ty * list stmt)) : act (flow * vars) :=
             match cs with
             | [] => tscoped d ([(x, v)] :: e)
             | (t, b) :: r =>
               if match t, o with TyName "string" [], Str | TySlice (TyName "byte" []), Bytes | TySlice (TyName "byte" []), NilBytes => true | _, _ => false end
               then tscoped b ([(x, v)] :: e) else pick r
             end) cs) | _ => stop Wedged end).
        change (exec p c rounds (STypeSwitch x (ECall (EId "any") [a]) cs d) e h) with (' (v, h) <== one (eval p c a e h) ;; match v with VData o _ =>
          leave ((fix pick (cs : list (ty * list stmt)) (h : heap) : out (flow * vars * heap) :=
             match cs with
             | [] => scoped_ p c rounds d ([(x, v)] :: e) h
             | (t, b) :: r =>
               if match t, o with TyName "string" [], Str | TySlice (TyName "byte" []), Bytes | TySlice (TyName "byte" []), NilBytes => true | _, _ => false end
               then scoped_ p c rounds b ([(x, v)] :: e) h else pick r h
             end) cs h) | _ => Stuck end).
        rewrite run_bind, run_one, eval_same. nxt. destruct v as [| |o b| | | | | | | | | | | |]; try reflexivity. rewrite run_leave. f_equal.
        induction Hc as [|[t b1] cs Hb _ IH]; [now apply scoped_same0|]. cbn [snd] in Hb. 
        destruct (match t, o with TyName "string" [], Str | TySlice (TyName "byte" []), Bytes | TySlice (TyName "byte" []), NilBytes => true | _, _ => false end); [now apply scoped_same0|exact IH].
      + assert (T : texec p tc rounds (STypeSwitch x (ECall (EId s) l) cs d) e = stop Wedged).
        { cbn [texec]. revert E. clear. intros E. destr; try reflexivity; cbn in E; discriminate. }
        rewrite T. cbn [exec]. revert E. clear. intros E. destr; try reflexivity; cbn in E; discriminate.
    - reflexivity.
    - reflexivity.
    - intros es e h. rewrite exec_return. cbn [texec]. rewrite run_bind, evalm_same. nxt. reflexivity.
  Qed.
  Lemma block_same : forall l e h, run (tblock p tc rounds l e) h = block p c rounds l e h.
  Proof. intros l. apply block_same0. apply Forall_forall. intros s _. apply exec_same. Qed.
  Lemma run_fun_same : forall f vs h, run (trun_fun p tc rounds f vs) h = run_fun p c rounds f vs h.
  Proof.
    intros f vs h. unfold trun_fun, run_fun. rewrite run_bind, run_pure, obind_assoc. apply obind_ext. intros e. cbn [obind fst snd]. rewrite run_bind, block_same. apply obind_ext. intros [[r e1] h1]. cbn [fst snd].
    destruct r as [|l|l|l]; try reflexivity; [destruct (fd_results f); reflexivity|]. rewrite run_pure. reflexivity.
  Qed.
End Same.
Theorem call_same : forall p rounds depth f vs h, run (tcall p rounds depth f vs) h = call p rounds depth f vs h.
Proof.
  intros p rounds. induction depth as [|d IH]; intros f vs h; [reflexivity|]. cbn [tcall call]. destruct (find_fun f (p_funs p)) as [fd|]; [|reflexivity]. apply run_fun_same. exact IH.
Qed.
