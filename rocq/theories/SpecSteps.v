(** Specification: Go programs as in GoSem.v, with every access to memory a step of its own, and goroutines that take such steps in any order. *)
From Coq Require Import String.
From Verif Require Import Base Trie Utf8 GoSyntax GoSem.
Local Open Scope string_scope.
Local Open Scope list_scope.

(** * Computations *)
Inductive halt := Panicked | Endless | Wedged.
(** What is left to do: finished with a result or without one, or an access to memory and what to do then.  [load]: read the field [x] of the struct at [l];
    [copy]: read the whole struct; [store]: write the field; [fresh]: a new struct. *)
Inductive act (A : Type) :=
| ret (a : A)
| stop (s : halt)
| load (l : nat) (x : string) (k : val -> act A)
| copy (l : nat) (k : fields -> act A)
| store (l : nat) (x : string) (v : val) (k : act A)
| fresh (o : object) (k : nat -> act A).
Arguments ret {A} a. Arguments stop {A} s. Arguments load {A} l x k. Arguments copy {A} l k. Arguments store {A} l x v k. Arguments fresh {A} o k.
Fixpoint tbind {A B} (m : act A) (k : A -> act B) : act B :=
  match m with
  | ret a => k a
  | stop s => stop s
  | load l x c => load l x (fun v => tbind (c v) k)
  | copy l c => copy l (fun fs => tbind (c fs) k)
  | store l x v c => store l x v (tbind c k)
  | fresh o c => fresh o (fun l => tbind (c l) k)
  end.
Notation "x <~~ m ;; k" := (tbind m (fun x => k)) (at level 61, m at next level, right associativity).
Notation "' p <~~ m ;; k" := (tbind m (fun p => k)) (at level 61, p pattern, m at next level, right associativity).
Definition pure {A} (o : out A) : act A :=
  match o with Done a => ret a | Panics => stop Panicked | Forever => stop Endless | Stuck => stop Wedged end.

(** One step. *)
Definition step {A} (t : act A) (h : heap) : act A * heap :=
  match t with
  | ret _ | stop _ => (t, h)
  | load l x k => match hget l h with Some (_, fs) => match assoc x fs with Some v => (k v, h) | None => (stop Wedged, h) end | None => (stop Wedged, h) end
  | copy l k => match hget l h with Some (_, fs) => (k fs, h) | None => (stop Wedged, h) end
  | store l x v k => match hget l h with
                     | Some (n, fs) => match assoc x fs with Some old => (k, hset l (n, put x (like old v) fs) h) | None => (stop Wedged, h) end
                     | None => (stop Wedged, h)
                     end
  | fresh o k => (k (List.length h), alloc h o)
  end.
(** [n] steps with nobody else there. *)
Fixpoint steps {A} (n : nat) (t : act A) (h : heap) : act A * heap := match n with O => (t, h) | S n => let (t, h) := step t h in steps n t h end.
(** To the end. *)
Fixpoint run {A} (t : act A) (h : heap) : out (A * heap) :=
  match t with
  | ret a => Done (a, h)
  | stop Panicked => Panics | stop Endless => Forever | stop Wedged => Stuck
  | load l x k => match hget l h with Some (_, fs) => match assoc x fs with Some v => run (k v) h | None => Stuck end | None => Stuck end
  | copy l k => match hget l h with Some (_, fs) => run (k fs) h | None => Stuck end
  | store l x v k => match hget l h with
                     | Some (n, fs) => match assoc x fs with Some old => run k (hset l (n, put x (like old v) fs) h) | None => Stuck end
                     | None => Stuck
                     end
  | fresh o k => run (k (List.length h)) (alloc h o)
  end.
(** Finished, with that outcome. *)
Definition final {A} (t : act A) (h : heap) (o : out (A * heap)) : Prop :=
  match t with ret a => o = Done (a, h) | stop Panicked => o = Panics | stop Endless => o = Forever | stop Wedged => o = Stuck | _ => False end.
(** Goroutines: a schedule says who takes the next step.  One that is finished does nothing. *)
Fixpoint set_nth {A} (i : nat) (x : A) (l : list A) : list A :=
  match l, i with [], _ => [] | _ :: r, O => x :: r | y :: r, S i => y :: set_nth i x r end.
Fixpoint together {A} (sched : list nat) (ts : list (act A)) (h : heap) : list (act A) * heap :=
  match sched with
  | [] => (ts, h)
  | i :: sched => match nth_error ts i with
                  | Some t => let (t, h) := step t h in together sched (set_nth i t ts) h
                  | None => together sched ts h
                  end
  end.
Definition turns (i : nat) (sched : list nat) : nat := count_occ Nat.eq_dec sched i.
(** The access that comes next: to which struct, and whether it writes.  (An assignment to a field that is not there writes nothing.) *)
Definition access {A} (t : act A) (h : heap) : option (nat * bool) :=
  match t with
  | load l _ _ => Some (l, false)
  | copy l _ => Some (l, false)
  | store l x _ _ => Some (l, match hget l h with Some (_, fs) => has x fs | None => false end)
  | _ => None
  end.
(** A data race: two goroutines are about to access the same struct, and one of them writes. *)
Definition race {A} (ts : list (act A)) (h : heap) : Prop :=
  exists i j t u l a b, i <> j /\ nth_error ts i = Some t /\ nth_error ts j = Some u /\ access t h = Some (l, a) /\ access u h = Some (l, b) /\ a || b = true.

(** * The interpreter, clause by clause as in GoSem.v *)
Definition tone (m : act (list val)) : act val := vs <~~ m ;; match vs with [v] => ret v | _ => stop Wedged end.
Definition tselect (p : program) (v : val) (x : string) : act val :=
  match v with
  | VInt (Typed n _) _ => if has_fun (n, x) p then ret (VMethod v x) else stop Wedged
  | VPtr n None => if has_fun (n, x) p then ret (VMethod v x) else stop Panicked
  | VPtr n (Some l) | VObj n l => if has_fun (n, x) p then ret (VMethod (VPtr n (Some l)) x) else load l x ret
  | _ => stop Wedged
  end.
Definition tdeclare (x : string) (v : val) (e : vars) : act vars :=
  match v with
  | VStruct n fs => fresh (n, fs) (fun l => ret (add_var x (VObj n l) e))
  | _ => ret (add_var x v e)
  end.
Fixpoint tloop (k : nat) (label : string) (cond : vars -> act bool) (body post : vars -> act (flow * vars)) (e : vars) : act (flow * vars) :=
  match k with
  | O => stop Endless
  | S k' =>
    c <~~ cond e ;;
    if c : bool then
      ' (f, e) <~~ body e ;;
      let again := ' (_, e) <~~ post e ;; tloop k' label cond body post e in
      match f with
      | Fall => again
      | Cont l => if mine label l then again else ret (f, e)
      | Brk l => if mine label l then ret (Fall, e) else ret (f, e)
      | Ret _ => ret (f, e)
      end
    else ret (Fall, e)
  end.
Fixpoint teach (label : string) (body : Z -> vars -> act (flow * vars)) (l : list Z) (e : vars) : act (flow * vars) :=
  match l with
  | [] => ret (Fall, e)
  | z :: r =>
    ' (f, e) <~~ body z e ;;
    match f with
    | Fall => teach label body r e
    | Cont l => if mine label l then teach label body r e else ret (f, e)
    | Brk l => if mine label l then ret (Fall, e) else ret (f, e)
    | Ret _ => ret (f, e)
    end
  end.
Definition tleave (r : act (flow * vars)) : act (flow * vars) := ' (f, e) <~~ r ;; ret (f, tl e).

Section Run.
  Variable p : program.
  Variable call : fid -> list val -> act (list val).
  Variable rounds : nat.
  Definition tapply (f : val) (args : list val) : act (list val) :=
    match f with
    | VFun f => call ("", f) args
    | VMethod (VInt (Typed n k) z) m => call (n, m) (VInt (Typed n k) z :: args)
    | VMethod (VPtr n l) m => call (n, m) (VPtr n l :: args)
    | VExt f =>
      match args with
      | [VData o b; VBool eof] => match f b eof with Ok r => ret (out_vals o r) | Panic => stop Panicked | OutOfFuel => stop Endless end
      | _ => stop Wedged
      end
    | _ => stop Wedged
    end.
  Fixpoint teval (x : expr) (e : vars) {struct x} : act (list val) :=
    let args := fix args (l : list expr) : act (list val) :=
      match l with
      | [] => ret []
      | a :: r => v <~~ tone (teval a e) ;; vs <~~ args r ;; ret (v :: vs)
      end in
    match x with
    | EId x => v <~~ pure (name_val p x e) ;; match v with VObj _ _ => stop Wedged | _ => ret [v] end
    | EInt z => ret [VInt Untyped z]
    | EStr s => ret [VText s]
    | ETy _ => stop Wedged
    | EFn _ _ _ => stop Wedged
    | EBin op a b =>
      v <~~ tone (teval a e) ;;
      match op, v with
      | "&&", VBool false => ret [VBool false]
      | "||", VBool true => ret [VBool true]
      | "&&", VBool true | "||", VBool false => w <~~ tone (teval b e) ;; match w with VBool c => ret [VBool c] | _ => stop Wedged end
      | "&&", _ | "||", _ => stop Wedged
      | _, _ => w <~~ tone (teval b e) ;; r <~~ pure (binop op v w) ;; ret [r]
      end
    | EUn op a =>
      match op with
      | "!" => v <~~ tone (teval a e) ;; match v with VBool b => ret [VBool (negb b)] | _ => stop Wedged end
      | "-" => v <~~ tone (teval a e) ;; match v with VInt t z => ret [VInt t (wrapt t (- z))] | _ => stop Wedged end
      | "*" => v <~~ tone (teval a e) ;; match v with VPtr n (Some l) => copy l (fun fs => ret [VStruct n fs]) | VPtr _ None => stop Panicked | _ => stop Wedged end
      | "&" => v <~~ tone (teval a e) ;; match v with VStruct n fs => fresh (n, fs) (fun l => ret [VPtr n (Some l)]) | _ => stop Wedged end
      | _ => stop Wedged
      end
    | ECall (EId f) l =>
      vs <~~ args l ;;
      if unknown p f e then pure (builtin p f vs) else v <~~ pure (name_val p f e) ;; tapply v vs
    | ECall (ESel (EId q) m) l =>
      if unknown p q e then vs <~~ args l ;; pure (std p (qual q m) vs)
      else r <~~ pure (name_val p q e) ;; v <~~ tselect p r m ;; vs <~~ args l ;; tapply v vs
    | ECall (ESel a m) l => r <~~ tone (teval a e) ;; v <~~ tselect p r m ;; vs <~~ args l ;; tapply v vs
    | ECall _ _ => stop Wedged
    | ESel (EId q) x =>
      if unknown p q e then match (qual q x) with "utf8.RuneSelf" => ret [VInt Untyped 128] | _ => stop Wedged end
      else r <~~ pure (name_val p q e) ;; v <~~ tselect p r x ;; ret [v]
    | ESel a x => r <~~ tone (teval a e) ;; v <~~ tselect p r x ;; ret [v]
    | EIndex a i =>
      v <~~ tone (teval a e) ;;
      match v with
      | VFun f => ret [VFun f]
      | _ => w <~~ tone (teval i e) ;; match w with VInt _ z => r <~~ pure (index v z) ;; ret [r] | _ => stop Wedged end
      end
    | ESlice a lo hi =>
      v <~~ tone (teval a e) ;;
      match v with
      | VData o b =>
        l <~~ match lo with Some x => w <~~ tone (teval x e) ;; match w with VInt _ z => ret z | _ => stop Wedged end | None => ret 0%Z end ;;
        r <~~ match hi with Some x => w <~~ tone (teval x e) ;; match w with VInt _ z => ret z | _ => stop Wedged end
             | None => ret (Z.of_nat (List.length b)) end ;;
        c <~~ pure (cut o b l r) ;; ret [c]
      | _ => stop Wedged
      end
    | EComp n l =>
      match assoc n (p_structs p) with
      | None => stop Wedged
      | Some decls =>
        given <~~ (fix fill (l : list (string * expr)) : act fields :=
             match l with
             | [] => ret []
             | (x, a) :: r => v <~~ tone (teval a e) ;; vs <~~ fill r ;; ret ((x, v) :: vs)
             end) l ;;
        fs <~~ pure ((fix all (ds : list (string * ty)) : out fields :=
             match ds with
             | [] => Done []
             | (x, t) :: r => v <== match assoc x given with Some v => Done (conv p t v) | None => some (zero1 p e t) end ;; vs <== all r ;; Done ((x, v) :: vs)
             end) decls) ;;
        ret [VStruct n fs]
      end
    end.
  Fixpoint tevals (l : list expr) (e : vars) : act (list val) :=
    match l with
    | [] => ret []
    | a :: r => v <~~ tone (teval a e) ;; vs <~~ tevals r e ;; ret (v :: vs)
    end.
  Definition tevalm (l : list expr) (e : vars) : act (list val) := match l with [x] => teval x e | _ => tevals l e end.

  Definition tassign (l : expr) (v : val) (e : vars) : act vars :=
    match l with
    | EId "_" => ret e
    | EId x => match get_var x e with
               | Some (VObj _ _) => stop Wedged
               | Some old => ret (set_var x (like old v) e)
               | None => stop Wedged
               end
    | ESel (EId q) x =>
      match get_var q e with
      | Some (VPtr _ None) => stop Panicked
      | Some (VPtr n (Some k)) | Some (VObj n k) => store k x v (ret e)
      | _ => stop Wedged
      end
    | _ => stop Wedged
    end.
  Fixpoint tassign_all (ls : list expr) (vs : list val) (e : vars) : act vars :=
    match ls, vs with
    | [], [] => ret e
    | l :: ls, v :: vs => e <~~ tassign l v e ;; tassign_all ls vs e
    | _, _ => stop Wedged
    end.
  Fixpoint tdefine_all (xs : list string) (vs : list val) (e : vars) : act vars :=
    match xs, vs with
    | [], [] => ret e
    | x :: xs, v :: vs =>
      if String.eqb x "_" then tdefine_all xs vs e
      else if innermost x e then e <~~ tassign (EId x) v e ;; tdefine_all xs vs e
      else e <~~ tdeclare x (settle v) e ;; tdefine_all xs vs e
    | _, _ => stop Wedged
    end.
  Fixpoint tdeclare_all (xs : list string) (v : val) (e : vars) : act vars :=
    match xs with [] => ret e | x :: r => e <~~ tdeclare x v e ;; tdeclare_all r v e end.

  Fixpoint texec (s : stmt) (e : vars) {struct s} : act (flow * vars) :=
    let block := fix block (l : list stmt) (e : vars) : act (flow * vars) :=
      match l with
      | [] => ret (Fall, e)
      | s :: r => ' (f, e) <~~ texec s e ;; match f with Fall => block r e | _ => ret (f, e) end
      end in
    let scoped l e := tleave (block l ([] :: e)) in
    let maybe (o : option stmt) e := match o with Some s => texec s e | None => ret (Fall, e) end in
    match s with
    | SVar xs t init =>
      match init with
      | Some x => v <~~ tone (teval x e) ;; e <~~ tdeclare_all xs (conv p t v) e ;; ret (Fall, e)
      | None => v <~~ pure (some (zero p e t)) ;; e <~~ tdeclare_all xs v e ;; ret (Fall, e)
      end
    | SDefine xs es => vs <~~ tevalm es e ;; e <~~ tdefine_all xs vs e ;; ret (Fall, e)
    | SAssign ls es => vs <~~ tevalm es e ;; e <~~ tassign_all ls vs e ;; ret (Fall, e)
    | SOp l op x =>
      v <~~ tone (teval l e) ;; w <~~ tone (teval x e) ;; r <~~ pure (binop op v w) ;; e <~~ tassign l r e ;; ret (Fall, e)
    | SExpr x => _ <~~ teval x e ;; ret (Fall, e)
    | SIf init c th el =>
      tleave (' (_, e) <~~ maybe init ([] :: e) ;;
              v <~~ tone (teval c e) ;;
              match v with VBool b => if b then scoped th e else scoped el e | _ => stop Wedged end)
    | SFor label init c post body =>
      tleave (' (_, e) <~~ maybe init ([] :: e) ;;
              tloop rounds label
                (fun e => match c with Some x => v <~~ tone (teval x e) ;; match v with VBool b => ret b | _ => stop Wedged end | None => ret true end)
                (scoped body) (maybe post) e)
    | SRange label x a body =>
      v <~~ tone (teval a e) ;;
      match v with
      | VRunes None => ret (Fall, e)
      | VRunes (Some l) => teach label (fun z e => tleave (scoped body ([(x, VInt trune z)] :: e))) l e
      | _ => stop Wedged
      end
    | SSwitch cases tag default =>
      tleave (
        t <~~ match tag with Some x => tone (teval x e) | None => ret (VBool true) end ;;
        let e := [] :: e in
        ' (f, e) <~~ (fix pick (cs : list (list expr * list stmt)) : act (flow * vars) :=
           match cs with
           | [] => scoped default e
           | (xs, b) :: r =>
             hit <~~ (fix any (xs : list expr) : act bool :=
                match xs with
                | [] => ret false
                | x :: xs => v <~~ tone (teval x e) ;; m <~~ pure (binop "==" t v) ;; match m with VBool true => ret true | VBool false => any xs | _ => stop Wedged end
                end) xs ;;
             if hit : bool then scoped b e else pick r
           end) cases ;;
        match f with Brk "" => ret (Fall, e) | _ => ret (f, e) end)
    | STypeSwitch x a cases default =>
      match a with
      | ECall (EId "any") [a] =>
        v <~~ tone (teval a e) ;;
        match v with
        | VData o _ =>
          tleave ((fix pick (cs : list (ty * list stmt)) : act (flow * vars) :=
             match cs with
             | [] => scoped default ([(x, v)] :: e)
             | (t, b) :: r =>
               if match t, o with TyName "string" [], Str | TySlice (TyName "byte" []), Bytes | TySlice (TyName "byte" []), NilBytes => true | _, _ => false end
               then scoped b ([(x, v)] :: e) else pick r
             end) cases)
        | _ => stop Wedged
        end
      | _ => stop Wedged
      end
    | SBreak l => ret (Brk l, e)
    | SContinue l => ret (Cont l, e)
    | SReturn es => vs <~~ tevalm es e ;; ret (Ret vs, e)
    end.
  Fixpoint tblock (l : list stmt) (e : vars) : act (flow * vars) :=
    match l with
    | [] => ret (Fall, e)
    | s :: r => ' (f, e) <~~ texec s e ;; match f with Fall => tblock r e | _ => ret (f, e) end
    end.
  Definition trun_fun (f : fundecl) (vs : list val) : act (list val) :=
    e <~~ pure (some (enter p f vs)) ;;
    ' (r, _) <~~ tblock (fd_body f) e ;;
    match r with
    | Ret vs => pure (some (conv_all p (fd_results f) vs))
    | Fall => match fd_results f with [] => ret [] | _ => stop Wedged end
    | _ => stop Wedged
    end.
End Run.
Fixpoint tcall (p : program) (rounds depth : nat) (f : fid) (vs : list val) : act (list val) :=
  match depth with
  | O => stop Endless
  | S d => match find_fun f (p_funs p) with Some fd => trun_fun p (tcall p rounds d) rounds fd vs | None => stop Wedged end
  end.

(** * What goroutines may share *)
(** A value without addresses but those in [S]. *)
Fixpoint within (S : nat -> bool) (v : val) : bool :=
  match v with
  | VPtr _ (Some l) | VObj _ l => S l
  | VStruct _ fs => forallb (fun q => within S (snd q)) fs
  | VMethod r _ => within S r
  | _ => true
  end.
Definition plain : val -> bool := within (fun _ => false).
(** The names of the fields a program assigns to. *)
Definition left_field (l : expr) : list string := match l with ESel (EId _) x => [x] | _ => [] end.
Fixpoint assigned (s : stmt) : list string :=
  match s with
  | SAssign ls _ => flat_map left_field ls
  | SOp l _ _ => left_field l
  | SIf i _ th el => match i with Some s => assigned s | None => [] end ++ flat_map assigned th ++ flat_map assigned el
  | SFor _ i _ post body => match i with Some s => assigned s | None => [] end ++ match post with Some s => assigned s | None => [] end ++ flat_map assigned body
  | SRange _ _ _ body => flat_map assigned body
  | SSwitch cs _ d => flat_map (fun q => flat_map assigned (snd q)) cs ++ flat_map assigned d
  | STypeSwitch _ _ cs d => flat_map (fun q => flat_map assigned (snd q)) cs ++ flat_map assigned d
  | _ => []
  end.
Definition program_assigned (p : program) : list string := flat_map (fun q => flat_map assigned (fd_body (snd q))) (p_funs p).
(** Its package variables hold no addresses, and it assigns to no fields but those in [W]. *)
Definition tame (W : string -> bool) (p : program) : bool := forallb (fun q => plain (snd q)) (p_globals p) && forallb W (program_assigned p).
(** The structs in [S] are there, have none of the fields in [W] and refer to each other only. *)
Definition constant (S : nat -> bool) (W : string -> bool) (h : heap) : Prop :=
  forall l, S l = true -> exists n fs, hget l h = Some (n, fs) /\ Forall (fun q => W (fst q) = false /\ within S (snd q) = true) fs.
(** What goroutine [i] owns is there, is not shared, belongs to nobody else and refers only to what is shared or its own. *)
Definition parted (S : nat -> bool) (owns : nat -> nat -> bool) (h : heap) : Prop :=
  forall i l, owns i l = true -> S l = false /\ (forall j, owns j l = true -> j = i)
  /\ exists n fs, hget l h = Some (n, fs) /\ Forall (fun q => within (fun k => S k || owns i k) (snd q) = true) fs.

(** * Values, up to the choice of new addresses: those from [m] on are all taken for [m] *)
Fixpoint shape (m : nat) (v : val) : val :=
  match v with
  | VPtr n (Some l) => VPtr n (Some (Nat.min l m))
  | VObj n l => VObj n (Nat.min l m)
  | VStruct n fs => VStruct n (map (fun q => (fst q, shape m (snd q))) fs)
  | VMethod r x => VMethod (shape m r) x
  | _ => v
  end.
Definition shapes (m : nat) (vs : list val) : list val := map (shape m) vs.
Definition object_shape (m : nat) (o : object) : object := (fst o, map (fun q => (fst q, shape m (snd q))) (snd o)).
(** Both at work, or both finished in the same way. *)
Definition alike {A} (same : A -> A -> Prop) (t t' : act A) : Prop :=
  match t, t' with
  | ret a, ret a' => same a a'
  | stop s, stop s' => s = s'
  | ret _, _ | _, ret _ | stop _, _ | _, stop _ => False
  | _, _ => True
  end.

(** * Goroutines that call a function each, of one program or of several *)
Record job := { j_program : program; j_rounds : nat; j_depth : nat; j_fun : fid; j_args : list val }.
Definition tree (j : job) : act (list val) := tcall (j_program j) (j_rounds j) (j_depth j) (j_fun j) (j_args j).
Definition job_ok (W : string -> bool) (S own : nat -> bool) (j : job) : Prop :=
  tame W (j_program j) = true /\ forallb (within (fun k => S k || own k)) (j_args j) = true.
(** After any number of steps in any order each goroutine is where it would be alone after as many steps of its own; there is no data race; each finds in what it owns
    what it would find there alone; and nothing else that was in memory before has changed. *)
Definition independent {A} (same : nat -> A -> A -> Prop) (owns : nat -> nat -> bool) (ts0 : list (act A)) (h : heap) : Prop :=
  forall sched, let (ts, h') := together sched ts0 h in
  (forall i t0, nth_error ts0 i = Some t0 -> exists t, nth_error ts i = Some t /\ alike (same (List.length h)) t (fst (steps (turns i sched) t0 h))
     /\ forall l, owns i l = true -> option_map (object_shape (List.length h)) (hget l h') = option_map (object_shape (List.length h)) (hget l (snd (steps (turns i sched) t0 h))))
  /\ ~ race ts h'
  /\ (forall l, (l < List.length h)%nat -> (forall i, owns i l = false) -> hget l h' = hget l h).
Definition same_shapes (m : nat) (vs vs' : list val) : Prop := shapes m vs = shapes m vs'.
