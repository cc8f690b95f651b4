(** From single calls to sequences of calls. *)
From Coq Require Import String.
From Verif Require Import Base SpecIter SpecApi Engine Drive ApiFacts GoSyntax GoSem SpecCode.
Local Open Scope string_scope.
Local Open Scope list_scope.

Lemma split_total : forall f, split_ok f -> forall d e, exists r, f d e = Ok r.
Proof.
  intros f H d e. destruct e.
  - destruct d as [|b d]; [eexists; apply (so_nil _ H)|]. destruct (so_eof _ H (b :: d) ltac:(discriminate)) as (n & _ & E). eexists; exact E.
  - destruct (so_stream _ H d) as [E|(n & _ & E & _)]; eexists; exact E.
Qed.

Section Sim.
  Context {A : api} {K : Type} {data : It A -> bytes} {pos start : It A -> nat} {kof : It A -> K -> Prop} {f : K -> splitfun}
    {newK : K} {cfgK : Cfg A -> K -> K}.
  Hypothesis AO : api_ok A data pos start kof f newK cfgK.
  Variables (p : program) (rounds depth max : nat) (str : bool).
  Variable config : val -> Cfg A -> heap -> out heap.
  Variable Rep : It A -> origin -> val -> heap -> Prop.
  Notation ok := (proper str max).
  Notation meth := (method p rounds depth).
  Definition well (it : It A) (o : origin) : Prop := ok (o, data it) /\ start it <= pos it <= length (data it).

  Hypothesis s_new : forall t h, ok t -> exists q h', call p rounds depth ("", if is_string (fst t) then "FromString" else "FromBytes") [text_val t] h = Done ([q], h') /\ Rep (a_new A (snd t)) (fst t) q h'.
  Hypothesis s_next : forall it o q h b it', Rep it o q h -> well it o -> a_next A it = Ok (b, it') -> exists h', meth "Next" q [] h = Done ([VBool b], h') /\ Rep it' o q h'.
  Hypothesis s_value : forall it o q h v, Rep it o q h -> well it o -> a_value A it = Ok v -> exists h', meth "Value" q [] h = Done ([VData o v], h') /\ Rep it o q h'.
  Hypothesis s_start : forall it o q h, Rep it o q h -> exists h', meth "Start" q [] h = Done ([vint (a_start A it)], h') /\ Rep it o q h'.
  Hypothesis s_end : forall it o q h, Rep it o q h -> exists h', meth "End" q [] h = Done ([vint (a_end A it)], h') /\ Rep it o q h'.
  Hypothesis s_reset : forall it o q h, Rep it o q h -> exists h', meth "Reset" q [] h = Done ([], h') /\ Rep (a_reset A it) o q h'.
  Hypothesis s_settext : forall it o q h t, Rep it o q h -> ok t -> exists h', meth "SetText" q [text_val t] h = Done ([], h') /\ Rep (a_settext A it (snd t)) (fst t) q h'.
  Hypothesis s_first : forall it o q h v it', Rep it o q h -> well it o -> a_first A it = Ok (v, it') -> exists h', meth "First" q [] h = Done ([VData o v], h') /\ Rep it' o q h'.
  Hypothesis s_config : forall it o q h c, Rep it o q h -> is_string o = str -> exists h', config q c h = Done h' /\ Rep (a_config A it c) o q h'.

  Lemma sim_uses : forall us it o q h k, Forall (use_proper str max) us -> Rep it o q h -> well it o -> kof it k ->
    exists l, model_uses A us o it = Ok l /\ go_uses A p rounds depth config us q h = Done l.
  Proof.
    induction us as [|u us IH]; intros it o q h k P R W Hk; [exists []; split; reflexivity|].
    inversion P as [|? ? P1 P2]; subst. cbn [model_uses go_uses]. destruct W as [W1 W2].
    assert (STEP : exists vs o' it' h' k', model_use A o it u = Ok (vs, o', it') /\ go_use A p rounds depth config q u h = Done (vs, h') /\ Rep it' o' q h' /\ well it' o' /\ kof it' k').
    { destruct u; cbn [model_use go_use].
      - pose proof (ao_next _ _ _ _ _ _ _ _ AO k) as NX. destruct (Nat.lt_ge_cases (pos it) (length (data it))) as [L|L].
        + destruct (nx_step _ _ _ _ _ _ _ NX it Hk L) as (n & it' & B & _ & E & D & S & Q & I). rewrite E. cbn [bind].
          destruct (s_next it o q h true it' R (conj W1 W2) E) as (h' & G & R'). exists [VBool true], o, it', h', k. repeat split; auto; try (rewrite ?D; apply W1); try lia. all: rewrite ?S, ?Q, ?D; lia.
        + pose proof (nx_end _ _ _ _ _ _ _ NX it Hk L) as E. rewrite E. cbn [bind]. destruct (s_next it o q h false it R (conj W1 W2) E) as (h' & G & R').
          exists [VBool false], o, it, h', k. repeat split; auto; try apply W1; lia.
      - pose proof (ao_next _ _ _ _ _ _ _ _ AO k) as NX. pose proof (nx_value _ _ _ _ _ _ _ NX it Hk) as E. unfold slice in E.
        replace ((pos it <? start it)%nat || (length (data it) <? pos it)%nat) with false in E by (symmetry; apply orb_false_intro; apply Nat.ltb_ge; lia).
        rewrite E. cbn [bind]. destruct (s_value it o q h _ R (conj W1 W2) E) as (h' & G & R'). eexists _, o, it, h', k. repeat split; eauto; try apply W1; lia.
      - destruct (s_start it o q h R) as (h' & G & R'). eexists _, o, it, h', k. repeat split; eauto; try apply W1; lia.
      - destruct (s_end it o q h R) as (h' & G & R'). eexists _, o, it, h', k. repeat split; eauto; try apply W1; lia.
      - destruct (s_reset it o q h R) as (h' & G & R'). destruct (ao_reset _ _ _ _ _ _ _ _ AO it k Hk) as (D & Q & S & I).
        eexists _, o, _, h', k. repeat split; eauto; rewrite ?D, ?Q, ?S; try apply W1; lia.
      - cbn [use_proper] in P1. destruct (s_settext it o q h t R P1) as (h' & G & R'). destruct (ao_settext _ _ _ _ _ _ _ _ AO it k (snd t) Hk) as (D & Q & S & I).
        eexists _, (fst t), _, h', k. repeat split; eauto; cbn [fst snd]; rewrite ?D, ?Q, ?S; try apply P1; lia.
      - destruct (first_ok AO it k Hk) as (v & E & _). rewrite E. cbn [bind]. destruct (s_first it o q h v it R (conj W1 W2) E) as (h' & G & R').
        eexists _, o, it, h', k. repeat split; eauto; try apply W1; lia.
      - destruct (s_config it o q h c R (proj1 W1)) as (h' & G & R'). destruct (ao_config _ _ _ _ _ _ _ _ AO it k c Hk) as (D & Q & S & I).
        eexists _, o, _, h', (cfgK c k). rewrite G. repeat split; eauto; rewrite ?D, ?Q, ?S; try apply W1; lia. }
    destruct STEP as (vs & o' & it' & h' & k' & M & G & R' & W' & Hk'). rewrite M, G. cbn [bind obind].
    destruct (IH it' o' q h' k' P2 R' W' Hk') as (l & Ml & Gl). rewrite Ml, Gl. exists (vs :: l). split; reflexivity.
  Qed.
  Lemma sim_client : forall t us h, ok t -> Forall (use_proper str max) us ->
    exists l, model_client A t us = Ok l /\ go_client A p rounds depth config t us h = Done l.
  Proof.
    intros t us h T P. unfold model_client, go_client. destruct (s_new t h T) as (q & h' & G & R). rewrite G. cbn [obind].
    destruct (ao_new _ _ _ _ _ _ _ _ AO (snd t)) as (D & Q & S & I). apply sim_uses with (k := newK); try assumption.
    unfold well. rewrite D, Q, S. split; [|lia]. destruct t; exact T.
  Qed.
End Sim.
