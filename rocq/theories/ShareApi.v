(** From the uses of one iterator, each of which leaves the rest of the memory as it is, to clients. *)
From Coq Require Import String.
From Verif Require Import Base SpecIter SpecApi Engine Drive ApiFacts ApiInst GoSyntax GoSem GoFacts SpecCode SpecCode2 SpecIterators SpecShare ShareFacts CodeApi.
Local Open Scope string_scope.
Local Open Scope list_scope.
Notation ptr l := (VPtr "Iterator" (Some l)).

(** * Any model of the uses *)
Section Model.
  Context {St U : Type}.
  Variable ustep : St -> U -> res (list val * St).
  Variable gouse : val -> U -> heap -> out (list val * heap).
  Variable rep : St -> nat -> heap -> Prop.
  Definition use_step (u : U) : Prop := forall s l h, rep s l h ->
    match ustep s u with
    | Ok (vs, s') => exists h', gouse (ptr l) u h = Done (vs, h') /\ rep s' l h' /\ frame l h h'
    | Panic => gouse (ptr l) u h = Panics
    | OutOfFuel => gouse (ptr l) u h = Forever
    end.
  Hypothesis rep_iter : forall s l h, rep s l h -> is_iter l h.
  Hypothesis rep_keep : forall s l h h', rep s l h -> (forall l' x, (l' = l \/ ~ is_iter l' h) -> hget l' h = Some x -> hget l' h' = Some x) -> rep s l h'.
  Variables (us : list U) (s0 : St).
  Hypothesis steps : Forall use_step us.
  Fixpoint after (k : nat) : res St :=
    match k with
    | O => Ok s0
    | S k => s <- after k ;; match nth_error us k with Some u => ' (_, s) <- ustep s u ;; Ok s | None => Panic end
    end.
  Definition answer (k : nat) : out (list val) :=
    match after k, nth_error us k with Ok s, Some u => outcome (' (vs, _) <- ustep s u ;; Ok vs) | _, _ => Stuck end.
  Lemma model_local : forall pg pw ps pp pi nils rounds depth c, calls pg pw ps pp pi nils rounds depth c = map (fun u it => gouse it u) us ->
    (forall h, exists h', start pg pw ps pp pi rounds depth c h = Done ([ptr (length h)], h') /\ rep s0 (length h) h' /\ grows h h') ->
    local pg pw ps pp pi nils rounds depth c (fun k l h => exists s, after k = Ok s /\ rep s l h) answer.
  Proof.
    intros pg pw ps pp pi nils rounds depth c CS ST. constructor.
    - intros h. destruct (ST h) as (h' & E & R & G). exists h'. split; [exact E|]. split; [|exact G]. exists s0. split; [reflexivity|exact R].
    - intros k l h (s & _ & R). eapply rep_iter; exact R.
    - intros k l h h' (s & A & R) K. exists s. split; [exact A|]. eapply rep_keep; eassumption.
    - intros k l h u (s & A & R) E. rewrite CS, nth_error_map in E. destruct (nth_error us k) as [u'|] eqn:Eu; [|discriminate]. cbn in E. injection E as <-. unfold answer. rewrite A, Eu.
      pose proof (proj1 (Forall_forall _ _) steps u' (nth_error_In _ _ Eu) s l h R) as S. destruct (ustep s u') as [[vs s']| |] eqn:US; cbn [bind outcome].
      + destruct S as (h' & E & R' & F). exists h'. split; [exact E|]. split; [|exact F]. exists s'. split; [|exact R']. cbn [after]. rewrite A. cbn [bind]. rewrite Eu, US. reflexivity.
      + exact S.
      + exact S.
  Qed.
End Model.
Definition api_step (A : api) (s : origin * It A) (u : use (Cfg A)) : res (list val * (origin * It A)) := ' (vs, o, it) <- model_use A (fst s) (snd s) u ;; Ok (vs, (o, it)).

(** * The iterators whose calls never panic *)
Section Total.
  Context {A : api} {K : Type} {data : It A -> bytes} {pos start : It A -> nat} {kof : It A -> K -> Prop} {f : K -> splitfun}
    {newK : K} {cfgK : Cfg A -> K -> K}.
  Hypothesis AO : api_ok A data pos start kof f newK cfgK.
  Variables (p : program) (rounds depth max : nat) (str : bool).
  Variable config : val -> Cfg A -> heap -> out heap.
  Variable Rep : It A -> origin -> nat -> heap -> Prop.
  Notation ok := (proper str max).
  Notation meth := (method p rounds depth).
  Notation well := (@well A data pos start max str).
  Hypothesis s_next : forall it o l h b it', Rep it o l h -> well it o -> a_next A it = Ok (b, it') -> exists h', meth "Next" (ptr l) [] h = Done ([VBool b], h') /\ Rep it' o l h' /\ frame l h h'.
  Hypothesis s_value : forall it o l h v, Rep it o l h -> well it o -> a_value A it = Ok v -> exists h', meth "Value" (ptr l) [] h = Done ([VData o v], h') /\ Rep it o l h' /\ frame l h h'.
  Hypothesis s_start : forall it o l h, Rep it o l h -> exists h', meth "Start" (ptr l) [] h = Done ([vint (a_start A it)], h') /\ Rep it o l h' /\ frame l h h'.
  Hypothesis s_end : forall it o l h, Rep it o l h -> exists h', meth "End" (ptr l) [] h = Done ([vint (a_end A it)], h') /\ Rep it o l h' /\ frame l h h'.
  Hypothesis s_reset : forall it o l h, Rep it o l h -> exists h', meth "Reset" (ptr l) [] h = Done ([], h') /\ Rep (a_reset A it) o l h' /\ frame l h h'.
  Hypothesis s_settext : forall it o l h t, Rep it o l h -> ok t -> exists h', meth "SetText" (ptr l) [text_val t] h = Done ([], h') /\ Rep (a_settext A it (snd t)) (fst t) l h' /\ frame l h h'.
  Hypothesis s_first : forall it o l h v it', Rep it o l h -> well it o -> a_first A it = Ok (v, it') -> exists h', meth "First" (ptr l) [] h = Done ([VData o v], h') /\ Rep it' o l h' /\ frame l h h'.
  Hypothesis s_config : forall it o l h c, Rep it o l h -> is_string o = str -> exists h', config (ptr l) c h = Done h' /\ Rep (a_config A it c) o l h' /\ frame l h h'.
  Definition total_rep (s : origin * It A) (l : nat) (h : heap) : Prop := Rep (snd s) (fst s) l h /\ well (snd s) (fst s) /\ exists k, kof (snd s) k.
  Lemma total_step : forall u, use_proper str max u -> use_step (api_step A) (go_use A p rounds depth config) total_rep u.
  Proof.
    intros u P1 [o it] l h (R & W & k & Hk). cbn [fst snd] in *. unfold api_step. cbn [fst snd]. destruct W as [W1 W2].
    assert (STEP : exists vs o' it' h' k', model_use A o it u = Ok (vs, o', it') /\ go_use A p rounds depth config (ptr l) u h = Done (vs, h') /\ (Rep it' o' l h' /\ frame l h h') /\ well it' o' /\ kof it' k').
    { destruct u; cbn [model_use go_use].
      - pose proof (ao_next _ _ _ _ _ _ _ _ AO k) as NX. destruct (Nat.lt_ge_cases (pos it) (length (data it))) as [L|L].
        + destruct (nx_step _ _ _ _ _ _ _ NX it Hk L) as (n & it' & B & _ & E & D & S & Q & I). rewrite E. cbn [bind].
          destruct (s_next it o l h true it' R (conj W1 W2) E) as (h' & G & R'). exists [VBool true], o, it', h', k. repeat split; auto; try (rewrite ?D; apply W1); try apply R'; try lia. all: rewrite ?S, ?Q, ?D; lia.
        + pose proof (nx_end _ _ _ _ _ _ _ NX it Hk L) as E. rewrite E. cbn [bind]. destruct (s_next it o l h false it R (conj W1 W2) E) as (h' & G & R').
          exists [VBool false], o, it, h', k. repeat split; auto; try apply W1; try apply R'; lia.
      - pose proof (ao_next _ _ _ _ _ _ _ _ AO k) as NX. pose proof (nx_value _ _ _ _ _ _ _ NX it Hk) as E. unfold slice in E.
        replace ((pos it <? start it)%nat || (length (data it) <? pos it)%nat) with false in E by (symmetry; apply orb_false_intro; apply Nat.ltb_ge; lia).
        rewrite E. cbn [bind]. destruct (s_value it o l h _ R (conj W1 W2) E) as (h' & G & R'). eexists _, o, it, h', k. split; [reflexivity|]. split; [exact G|]. split; [exact R'|]. split; [split; assumption|exact Hk].
      - destruct (s_start it o l h R) as (h' & G & R'). eexists _, o, it, h', k. split; [reflexivity|]. split; [exact G|]. split; [exact R'|]. split; [split; assumption|exact Hk].
      - destruct (s_end it o l h R) as (h' & G & R'). eexists _, o, it, h', k. split; [reflexivity|]. split; [exact G|]. split; [exact R'|]. split; [split; assumption|exact Hk].
      - destruct (s_reset it o l h R) as (h' & G & R'). destruct (ao_reset _ _ _ _ _ _ _ _ AO it k Hk) as (D & Q & S & I).
        eexists _, o, _, h', k. split; [reflexivity|]. split; [exact G|]. split; [exact R'|]. split; [|exact I]. unfold CodeApi.well. rewrite D, Q, S. split; [exact W1|lia].
      - cbn [use_proper] in P1. destruct (s_settext it o l h t R P1) as (h' & G & R'). destruct (ao_settext _ _ _ _ _ _ _ _ AO it k (snd t) Hk) as (D & Q & S & I).
        eexists _, (fst t), _, h', k. split; [reflexivity|]. split; [exact G|]. split; [exact R'|]. split; [|exact I]. unfold CodeApi.well. rewrite D, Q, S. split; [destruct t; exact P1|lia].
      - destruct (first_ok AO it k Hk) as (v & E & _). rewrite E. cbn [bind]. destruct (s_first it o l h v it R (conj W1 W2) E) as (h' & G & R').
        eexists _, o, it, h', k. split; [reflexivity|]. split; [exact G|]. split; [exact R'|]. split; [split; assumption|exact Hk].
      - destruct (s_config it o l h c R (proj1 W1)) as (h' & G & R'). destruct (ao_config _ _ _ _ _ _ _ _ AO it k c Hk) as (D & Q & S & I).
        eexists _, o, _, h', (cfgK c k). rewrite G. split; [reflexivity|]. split; [reflexivity|]. split; [exact R'|]. split; [|exact I]. unfold CodeApi.well. rewrite D, Q, S. split; assumption. }
    destruct STEP as (vs & o' & it' & h' & k' & M & G & [R' F] & W' & Hk'). rewrite M. cbn [bind]. exists h'. split; [exact G|]. split; [|exact F]. repeat split; try assumption; try apply W'. exists k'. exact Hk'.
  Qed.
  Lemma total_new : forall t l h, ok t -> Rep (a_new A (snd t)) (fst t) l h -> total_rep (fst t, a_new A (snd t)) l h.
  Proof.
    intros t l h T R. destruct (ao_new _ _ _ _ _ _ _ _ AO (snd t)) as (D & Q & S & I). split; [exact R|]. split; [|exists newK; exact I]. cbn [fst snd]. unfold CodeApi.well. rewrite D, Q, S. split; [destruct t; exact T|lia].
  Qed.
  Hypothesis s_iter : forall it o l h, Rep it o l h -> is_iter l h.
  Hypothesis s_keep : forall it o l h h', Rep it o l h -> (forall l' x, (l' = l \/ ~ is_iter l' h) -> hget l' h = Some x -> hget l' h' = Some x) -> Rep it o l h'.
  Hypothesis s_new : forall t h, ok t -> exists h', make rounds depth p t h = Done ([ptr (length h)], h') /\ Rep (a_new A (snd t)) (fst t) (length h) h' /\ grows h h'.
  Lemma total_local : forall pg pw ps pp pi nils c t us, ok t -> Forall (use_proper str max) us ->
    calls pg pw ps pp pi nils rounds depth c = map (fun u it => go_use A p rounds depth config it u) us ->
    SpecShare.start pg pw ps pp pi rounds depth c = make rounds depth p t -> exists R ans, local pg pw ps pp pi nils rounds depth c R ans.
  Proof.
    intros pg pw ps pp pi nils c t us T P CS ST. do 2 eexists. eapply model_local with (ustep := api_step A) (gouse := go_use A p rounds depth config) (rep := total_rep) (us := us) (s0 := (fst t, a_new A (snd t))); [| | |exact CS|].
    - intros s l h (H & _). eapply s_iter; exact H.
    - intros s l h h' (H & W) K0. split; [eapply s_keep; eassumption|exact W].
    - rewrite Forall_forall in *. intros u U. apply total_step. now apply P.
    - intros h. rewrite ST. destruct (s_new t h T) as (h' & E & H & G). exists h'. split; [exact E|]. split; [|exact G]. apply total_new; assumption.
  Qed.
End Total.
