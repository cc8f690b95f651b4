(** Counting the work of an iteration: computations that carry a number of steps. *)
From Verif Require Import Base SpecIter.

(** The steps made, and the outcome. *)
Definition T (A : Type) : Type := (nat * res A)%type.
Definition free {A} (r : res A) : T A := (0, r).
Definition steps {A} (n : nat) (r : res A) : T A := (n, r).
Definition tbind {A B} (m : T A) (f : A -> T B) : T B :=
  match snd m with
  | Ok a => let r := f a in (fst m + fst r, snd r)
  | Panic => (fst m, Panic)
  | OutOfFuel => (fst m, OutOfFuel)
  end.
Notation "x <~ e ;; k" := (tbind e (fun x => k)) (at level 61, e at next level, right associativity).
Notation "' p <~ e ;; k" := (tbind e (fun p => k)) (at level 61, p pattern, e at next level, right associativity).
Definition cost {A} (m : T A) : nat := fst m.
Definition result {A} (m : T A) : res A := snd m.

(** The client's loop of SpecIter.v, [for it.Next() { observe it }], with the steps of all the calls of Next; every call is a step itself. *)
Fixpoint tcollect {It O : Type} (next : It -> T (bool * It)) (obs : It -> res O) (fuel : nat) (it : It) : T (list O) :=
  match fuel with
  | O => free OutOfFuel
  | S fuel' =>
    ' (more, it') <~ (_ <~ steps 1 (Ok tt) ;; next it) ;;
    if more : bool then
      o <~ free (obs it') ;;
      rest <~ tcollect next obs fuel' it' ;;
      free (Ok (o :: rest))
    else free (Ok [])
  end.

Lemma result_bind : forall A B (m : T A) (f : A -> T B), result (tbind m f) = bind (result m) (fun a => result (f a)).
Proof. intros A B [c [a| |]] f; reflexivity. Qed.
Lemma result_free : forall A (r : res A), result (free r) = r.
Proof. reflexivity. Qed.
Lemma result_steps : forall A n (r : res A), result (steps n r) = r.
Proof. reflexivity. Qed.
Lemma bind_ext : forall A B (m m' : res A) (f g : A -> res B), m = m' -> (forall a, f a = g a) -> bind m f = bind m' g.
Proof. intros A B m m' f g <- H. destruct m; cbn; auto. Qed.
Lemma cost_bind : forall A B (m : T A) (f : A -> T B) a, result m = Ok a -> cost (tbind m f) = cost m + cost (f a).
Proof. intros A B [c r] f a H. cbn in H. subst r. reflexivity. Qed.
Lemma cost_free : forall A (r : res A), cost (free r) = 0.
Proof. reflexivity. Qed.
Lemma cost_steps : forall A n (r : res A), cost (steps n r) = n.
Proof. reflexivity. Qed.

Lemma bind_Ok : forall A B (m : res A) (f : A -> res B) b, bind m f = Ok b -> exists a, m = Ok a /\ f a = Ok b.
Proof. intros A B [a| |] f b H; try discriminate. exists a. auto. Qed.

(** The counting loop does what the loop does. *)
Lemma tcollect_result : forall (It O : Type) (next : It -> T (bool * It)) (next' : It -> res (bool * It)) (obs : It -> res O) (P : It -> Prop),
  (forall it, P it -> result (next it) = next' it) -> (forall it b it', P it -> next' it = Ok (b, it') -> P it') ->
  forall fuel it, P it -> result (tcollect next obs fuel it) = collect next' obs fuel it.
Proof.
  intros It O next next' obs P H HP. induction fuel as [|fuel IH]; intros it Hi; [reflexivity|]. cbn [tcollect collect]. rewrite !result_bind. cbn [result_steps].
  change (result (steps 1 (Ok tt))) with (Ok tt). cbn [bind]. rewrite (H it Hi). destruct (next' it) as [[b it']| |] eqn:E; [|reflexivity|reflexivity]. cbn [bind].
  destruct b; [|reflexivity]. rewrite result_bind. apply bind_ext; [reflexivity|]. intros o. rewrite result_bind. apply bind_ext; [|reflexivity]. apply IH. eapply HP; eauto.
Qed.

(** If every call of Next is paid by what it takes off a potential, the whole iteration is paid by the potential at the start. *)
Lemma tcollect_cost : forall (It O : Type) (next : It -> T (bool * It)) (obs : It -> res O) (P : It -> Prop) (phi : It -> nat) (end_ : nat),
  (forall it it', P it -> result (next it) = Ok (true, it') -> P it' /\ cost (next it) + 1 + phi it' <= phi it) ->
  (forall it it', P it -> result (next it) = Ok (false, it') -> cost (next it) <= end_) ->
  forall fuel it l, P it -> result (tcollect next obs fuel it) = Ok l -> cost (tcollect next obs fuel it) <= phi it + end_ + 1.
Proof.
  intros It O next obs P phi end_ H1 H0. induction fuel as [|fuel IH]; intros it l Hi Hr; [discriminate|]. cbn [tcollect] in *. rewrite !result_bind in Hr.
  change (result (steps 1 (Ok tt))) with (Ok tt) in Hr. cbn [bind] in Hr. destruct (result (next it)) as [[b it']| |] eqn:E; [|discriminate|discriminate]. cbn [bind] in Hr.
  rewrite (cost_bind _ _ _ _ (b, it')); [|rewrite result_bind; exact E]. rewrite (cost_bind _ _ _ _ tt) by reflexivity. rewrite cost_steps. destruct b.
  - destruct (H1 it it' Hi E) as (Hi' & Hc). rewrite result_bind, result_free in Hr. destruct (obs it') as [o| |]; [|discriminate|discriminate]. cbn [bind] in Hr.
    rewrite result_bind in Hr. destruct (result (tcollect next obs fuel it')) as [l'| |] eqn:El; [|discriminate|discriminate].
    specialize (IH it' l' Hi' El). rewrite (cost_bind _ _ _ _ o) by reflexivity. rewrite (cost_bind _ _ _ _ l' El). rewrite !cost_free. lia.
  - specialize (H0 it it' Hi E). rewrite cost_free. lia.
Qed.

Lemma tcollect_next : forall (It O : Type) (next : It -> T (bool * It)) (obs : It -> res O) fuel it l c it', next it = (c, Ok (true, it')) -> result (tcollect next obs (S fuel) it) = Ok l ->
  exists l', result (tcollect next obs fuel it') = Ok l' /\ cost (tcollect next obs (S fuel) it) = 1 + c + cost (tcollect next obs fuel it').
Proof.
  intros It O next obs fuel it l c it' E H. cbn [tcollect] in *. rewrite !result_bind, E in H. change (result (steps 1 (Ok tt))) with (Ok tt) in H. change (result (c, Ok (true, it'))) with (Ok (true, it')) in H. cbn [bind] in H.
  rewrite result_bind, result_free in H. apply bind_Ok in H. destruct H as (o & Ho & H). rewrite result_bind in H. apply bind_Ok in H. destruct H as (l' & Hl & H). exists l'. split; [exact Hl|].
  rewrite (cost_bind _ _ _ _ (true, it')); [|rewrite result_bind, E; reflexivity]. rewrite (cost_bind _ _ _ _ tt) by reflexivity. rewrite cost_steps, E. rewrite (cost_bind _ _ _ _ o) by exact Ho. rewrite (cost_bind _ _ _ _ l' Hl). rewrite !cost_free. cbn [cost fst]. lia.
Qed.
