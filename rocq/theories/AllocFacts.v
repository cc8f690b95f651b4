(** What iterating leaves in memory: from single calls to clients. *)
From Coq Require Import String.
From Verif Require Import Base SpecIter SpecApi Engine Drive ApiFacts ApiInst GoSyntax GoSem GoFacts SpecCode SpecCode2 SpecIterators CodeApi SpecAlloc.
From Verif Require SpecSteps.
Import SpecSteps (within, plain).
Local Open Scope string_scope.
Local Open Scope list_scope.
Notation ptr l := (VPtr "Iterator" (Some l)).

(** * What can be found *)
Lemma plain_within : forall S v, plain v = true -> within S v = true.
Proof.
  intros S. fix IH 1. intros v. destruct v; cbn; try reflexivity.
  - destruct l; [discriminate|reflexivity].
  - discriminate.
  - induction fs as [|[x w] fs IHf]; [reflexivity|]. cbn. intros H. apply andb_prop in H as [H1 H2]. rewrite (IH w) by exact H1. cbn. exact (IHf H2).
  - apply IH.
Qed.
Lemma plain_refers : forall v l, plain v = true -> ~ refers v l.
Proof. unfold refers. intros v l P R. rewrite plain_within in R by exact P. discriminate. Qed.
Lemma plain_live : forall h v l, plain v = true -> ~ live h v l.
Proof. intros h v l P H. induction H; [eapply plain_refers; eassumption|contradiction]. Qed.
Lemma refers_ptr : forall n l l', refers (VPtr n (Some l)) l' -> l' = l.
Proof. intros n l l' H. unfold refers in H. cbn in H. destruct (Nat.eqb_spec l l'); [congruence|discriminate]. Qed.
(** Everything that can be found is in a list of structs which refer only to each other. *)
Lemma live_closed : forall h v ls, (forall l, refers v l -> In l ls) -> (forall l n fs x w l', In l ls -> hget l h = Some (n, fs) -> In (x, w) fs -> refers w l' -> In l' ls) ->
  forall l, live h v l -> In l ls.
Proof. intros h v ls R C l H. induction H; eauto. Qed.
Lemma plain_only : forall h l n fs, hget l h = Some (n, fs) -> forallb (fun q => plain (snd q)) fs = true -> forall k, live h (ptr l) k -> In k [l].
Proof.
  intros h l n fs G P. apply live_closed.
  - intros k H. apply refers_ptr in H. now left.
  - intros k n' fs' x w l' [<-|[]] G' I R. rewrite G in G'. injection G' as <- <-. rewrite forallb_forall in P. exfalso. eapply plain_refers; [exact (P _ I)|exact R].
Qed.

(** * Calls one after the other *)
Section Any.
  Context {U : Type}.
  Variable gouse : val -> U -> heap -> out (list val * heap).
  Variable it : val.
  Variable I : heap -> Prop.
  Variable Q : U -> heap -> heap -> Prop.
  Definition good_use (u : U) : Prop := forall h vs h', I h -> gouse it u h = Done (vs, h') -> I h' /\ forallb plain vs = true /\ Q u h h'.
  Lemma in_turn_good : forall us, Forall good_use us -> forall k h vss h', I h -> in_turn (firstn k (map (fun u it => gouse it u) us)) it h = Done (vss, h') ->
    I h' /\ forall vs v l, In vs vss -> In v vs -> ~ live h' v l.
  Proof.
    intros us G k. revert us G. induction k as [|k IH]; intros us G h vss h' A H.
    - injection H as <- <-. split; [exact A|]. intros vs v l [].
    - destruct G as [|u us G1 G2]; cbn [map firstn in_turn] in H. { injection H as <- <-. split; [exact A|]. intros vs v l []. }
      destruct (gouse it u h) as [[vs h1]| | |] eqn:E; try discriminate. cbn [obind] in H. destruct (in_turn _ it h1) as [[r h2]| | |] eqn:E2; try discriminate. cbn [obind] in H. injection H as <- <-.
      destruct (G1 h vs h1 A E) as (A1 & P & _). destruct (IH us G2 h1 r h2 A1 E2) as (A2 & L). split; [exact A2|].
      intros ws v l [<-|J] V; [apply plain_live; rewrite forallb_forall in P; now apply P|eapply L; eassumption].
  Qed.
  Lemma in_turn_same : forall us, Forall good_use us -> (forall u h h', In u us -> Q u h h' -> length h' = length h) ->
    forall k h vss h', I h -> in_turn (firstn k (map (fun u it => gouse it u) us)) it h = Done (vss, h') -> length h' = length h.
  Proof.
    intros us G S k. revert us G S. induction k as [|k IH]; intros us G S h vss h' A H.
    - injection H as <- <-. reflexivity.
    - destruct G as [|u us G1 G2]; cbn [map firstn in_turn] in H. { injection H as <- <-. reflexivity. }
      destruct (gouse it u h) as [[vs h1]| | |] eqn:E; try discriminate. cbn [obind] in H. destruct (in_turn _ it h1) as [[r h2]| | |] eqn:E2; try discriminate. cbn [obind] in H. injection H as <- <-.
      destruct (G1 h vs h1 A E) as (A1 & _ & Q1). rewrite (IH us G2 (fun u h h' J => S u h h' (or_intror J)) h1 r h2 A1 E2). eapply S; [now left|exact Q1].
  Qed.
End Any.

(** * The iterators whose calls never panic *)
Definition first {C} (u : use C) : bool := match u with UFirst => true | _ => false end.
Definition taken {C} (u : use C) (h h' : heap) : Prop := first u = true \/ length h' = length h.
Section Total.
  Context {A : api} {K : Type} {data : It A -> bytes} {pos start : It A -> nat} {kof : It A -> K -> Prop} {f : K -> splitfun}
    {newK : K} {cfgK : Cfg A -> K -> K}.
  Hypothesis AO : api_ok A data pos start kof f newK cfgK.
  Variables (p : program) (rounds depth max : nat) (str : bool).
  Variable config : val -> Cfg A -> heap -> out heap.
  Variable Rep : It A -> origin -> nat -> heap -> Prop.
  Notation ok := (proper str max).
  Notation meth := (method p rounds depth).
  Notation well := (@well A data pos start max str).
  Hypothesis s_next : forall it o l h b it', Rep it o l h -> well it o -> a_next A it = Ok (b, it') -> exists h', meth "Next" (ptr l) [] h = Done ([VBool b], h') /\ Rep it' o l h' /\ length h' = length h.
  Hypothesis s_value : forall it o l h v, Rep it o l h -> well it o -> a_value A it = Ok v -> exists h', meth "Value" (ptr l) [] h = Done ([VData o v], h') /\ Rep it o l h' /\ length h' = length h.
  Hypothesis s_start : forall it o l h, Rep it o l h -> exists h', meth "Start" (ptr l) [] h = Done ([vint (a_start A it)], h') /\ Rep it o l h' /\ length h' = length h.
  Hypothesis s_end : forall it o l h, Rep it o l h -> exists h', meth "End" (ptr l) [] h = Done ([vint (a_end A it)], h') /\ Rep it o l h' /\ length h' = length h.
  Hypothesis s_reset : forall it o l h, Rep it o l h -> exists h', meth "Reset" (ptr l) [] h = Done ([], h') /\ Rep (a_reset A it) o l h' /\ length h' = length h.
  Hypothesis s_settext : forall it o l h t, Rep it o l h -> ok t -> exists h', meth "SetText" (ptr l) [text_val t] h = Done ([], h') /\ Rep (a_settext A it (snd t)) (fst t) l h' /\ length h' = length h.
  Hypothesis s_first : forall it o l h v it', Rep it o l h -> well it o -> a_first A it = Ok (v, it') -> exists h', meth "First" (ptr l) [] h = Done ([VData o v], h') /\ Rep it' o l h'.
  Hypothesis s_config : forall it o l h c, Rep it o l h -> is_string o = str -> exists h', config (ptr l) c h = Done h' /\ Rep (a_config A it c) o l h' /\ length h' = length h.
  Definition total_inv (l : nat) (h : heap) : Prop := exists it o, Rep it o l h /\ well it o /\ exists k, kof it k.
  Lemma total_good : forall l u, use_proper str max u -> good_use (go_use A p rounds depth config) (ptr l) (total_inv l) taken u.
  Proof.
    intros l u P1 h vs0 h0 (it & o & R & W & k & Hk) GO. destruct W as [W1 W2].
    assert (STEP : exists vs o' it' h' k', forallb plain vs = true /\ go_use A p rounds depth config (ptr l) u h = Done (vs, h') /\ (Rep it' o' l h' /\ taken u h h') /\ well it' o' /\ kof it' k').
    { destruct u; cbn [go_use]; unfold taken; cbn [first].
      - pose proof (ao_next _ _ _ _ _ _ _ _ AO k) as NX. destruct (Nat.lt_ge_cases (pos it) (length (data it))) as [L|L].
        + destruct (nx_step _ _ _ _ _ _ _ NX it Hk L) as (n & it' & B & _ & E & D & S & Q & I).
          destruct (s_next it o l h true it' R (conj W1 W2) E) as (h' & G & R' & LE). exists [VBool true], o, it', h', k. repeat split; auto; try (rewrite ?D; apply W1); try lia. all: rewrite ?S, ?Q, ?D; lia.
        + pose proof (nx_end _ _ _ _ _ _ _ NX it Hk L) as E. destruct (s_next it o l h false it R (conj W1 W2) E) as (h' & G & R' & LE).
          exists [VBool false], o, it, h', k. repeat split; auto; try apply W1; lia.
      - pose proof (ao_next _ _ _ _ _ _ _ _ AO k) as NX. pose proof (nx_value _ _ _ _ _ _ _ NX it Hk) as E. unfold slice in E.
        replace ((pos it <? start it)%nat || (length (data it) <? pos it)%nat) with false in E by (symmetry; apply orb_false_intro; apply Nat.ltb_ge; lia).
        destruct (s_value it o l h _ R (conj W1 W2) E) as (h' & G & R' & LE). eexists _, o, it, h', k. split; [|split; [exact G|]]; [reflexivity|]. split; [split; [exact R'|right; exact LE]|]. split; [split; assumption|exact Hk].
      - destruct (s_start it o l h R) as (h' & G & R' & LE). eexists _, o, it, h', k. split; [|split; [exact G|]]; [reflexivity|]. split; [split; [exact R'|right; exact LE]|]. split; [split; assumption|exact Hk].
      - destruct (s_end it o l h R) as (h' & G & R' & LE). eexists _, o, it, h', k. split; [|split; [exact G|]]; [reflexivity|]. split; [split; [exact R'|right; exact LE]|]. split; [split; assumption|exact Hk].
      - destruct (s_reset it o l h R) as (h' & G & R' & LE). destruct (ao_reset _ _ _ _ _ _ _ _ AO it k Hk) as (D & Q & S & I).
        eexists _, o, _, h', k. split; [|split; [exact G|]]; [reflexivity|]. split; [split; [exact R'|right; exact LE]|]. split; [|exact I]. unfold CodeApi.well. rewrite D, Q, S. split; [exact W1|lia].
      - cbn [use_proper] in P1. destruct (s_settext it o l h t R P1) as (h' & G & R' & LE). destruct (ao_settext _ _ _ _ _ _ _ _ AO it k (snd t) Hk) as (D & Q & S & I).
        eexists _, (fst t), _, h', k. split; [|split; [exact G|]]; [reflexivity|]. split; [split; [exact R'|right; exact LE]|]. split; [|exact I]. unfold CodeApi.well. rewrite D, Q, S. split; [destruct t; exact P1|lia].
      - destruct (first_ok AO it k Hk) as (v & E & _). destruct (s_first it o l h v it R (conj W1 W2) E) as (h' & G & R').
        eexists _, o, it, h', k. split; [|split; [exact G|]]; [reflexivity|]. split; [split; [exact R'|left; reflexivity]|]. split; [split; assumption|exact Hk].
      - destruct (s_config it o l h c R (proj1 W1)) as (h' & G & R' & LE). destruct (ao_config _ _ _ _ _ _ _ _ AO it k c Hk) as (D & Q & S & I).
        eexists [], o, _, h', (cfgK c k). rewrite G. split; [reflexivity|]. split; [reflexivity|]. split; [split; [exact R'|auto]|]. split; [|exact I]. unfold CodeApi.well. rewrite D, Q, S. split; assumption. }
    destruct STEP as (vs & o' & it' & h' & k' & PL & G & [R' T] & W' & Hk'). rewrite G in GO. injection GO as <- <-. split; [|split; assumption]. exists it', o'. split; [exact R'|]. split; [exact W'|]. exists k'. exact Hk'.
  Qed.
  Lemma total_made : forall t l h, ok t -> Rep (a_new A (snd t)) (fst t) l h -> total_inv l h.
  Proof.
    intros t l h T R. destruct (ao_new _ _ _ _ _ _ _ _ AO (snd t)) as (D & Q & S & I). exists (a_new A (snd t)), (fst t). split; [exact R|]. split; [|exists newK; exact I]. unfold CodeApi.well. rewrite D, Q, S. split; [destruct t; exact T|lia].
  Qed.
End Total.
Definition kof_of {A K data pos start kof f newK cfgK} (_ : @api_ok A K data pos start kof f newK cfgK) : It A -> K -> Prop := kof.
