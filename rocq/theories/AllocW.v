(** What iterating with package words leaves in memory. *)
From Coq Require Import String.
From Verif Require Import SpecIter SpecApi ApiInst.
From Verif Require Import Base GoSyntax GoSem GoFacts SpecCode SpecCode2 SpecShare SpecAlloc AllocFacts ProgWords Words CodeWBase CodeWSplit CodeWFunc CodeWIter CodeWords CodeWordsAny.
From Verif Require SpecSteps.
Local Open Scope string_scope.
Local Open Scope list_scope.

Lemma model_plain : forall (A : api) o it u vs o' it', model_use A o it u = Ok (vs, o', it') -> forallb SpecSteps.plain vs = true.
Proof.
  intros A o it u vs o' it' E. destruct u; cbn [model_use] in E; unfold bind in E;
    repeat match type of E with match ?x with _ => _ end = _ => destruct x; try discriminate | (let (_, _) := ?x in _) = _ => destruct x end; injection E; intros; subst; reflexivity.
Qed.
Definition words_inv (max : nat) (str : bool) (l : nat) (h : heap) : Prop := exists it o, rep max str it o l h.
Lemma words_good : forall n k max str nils l u, (Z.of_nat max < 2 ^ 62)%Z -> (2 * max + 2 <= n)%nat -> any_use_proper str max u ->
  good_use (go_use words_any pw n (7 + k) (words_any_config nils pw n (7 + k))) (ptr l) (words_inv max str l) (fun _ _ _ => True) u.
Proof.
  intros n k max str nils l u M R P h vs h' (it & o & RP) E. pose proof (any_step n k max str nils M R u o it l h P RP) as S.
  destruct (model_use words_any o it u) as [[[vs' o'] it']| |] eqn:MU; [|rewrite S in E; discriminate..]. destruct S as (h1 & G & R'). rewrite G in E. injection E as <- <-.
  split; [exists it', o'; exact R'|]. split; [|exact I]. eapply model_plain; exact MU.
Qed.
Lemma words_live : forall max str l h, words_inv max str l h -> exists ls, (length ls <= 2)%nat /\ forall k, live h (ptr l) k -> In k ls.
Proof.
  intros max str l h (it & o & _ & _ & _ & sv & G & S & _).
  assert (ONE : SpecSteps.plain sv = true -> exists ls, (length ls <= 2)%nat /\ forall k, live h (ptr l) k -> In k ls).
  { intros PL. exists [l]. split; [cbn; lia|]. eapply plain_only; [exact G|]. cbn [forallb snd iter_obj]. rewrite PL. reflexivity. }
  destruct S as [ (_ & ->) | [(j & jl & _ & -> & J)| -> ]]; [now apply ONE| |now apply ONE].
  destruct jl as [jl|]; [|now apply ONE]. destruct j as [j|]; [|contradiction]. destruct J as (m & le & J & _). exists [l; jl]. split; [cbn; lia|]. apply live_closed.
  - intros k H. apply refers_ptr in H. now left.
  - intros a n' fs x w b [<-|[<-|[]]] G' IN RF.
    + rewrite G in G'. injection G' as <- <-. destruct IN as [IN|[IN|[IN|[IN|[]]]]]; injection IN as <- <-; try (exfalso; eapply plain_refers; [|exact RF]; reflexivity).
      unfold refers in RF. cbn in RF. destruct (Nat.eqb_spec jl b); [subst; right; now left|discriminate].
    + rewrite J in G'. injection G' as <- <-. destruct IN as [IN|[IN|[]]]; injection IN as <- <-; (exfalso; eapply plain_refers; [|exact RF]; reflexivity).
Qed.
Lemma words_alloc : forall n k0 max str pg_ pw_ ps_ pp_ pi_ nils t us h, (Z.of_nat max < 2 ^ 62)%Z -> (2 * max + 2 <= n)%nat -> (7 <= k0)%nat -> proper str max t -> Forall (any_use_proper str max) us ->
  pw_ = pw -> let c := CWords t us in
  exists h1, SpecShare.start pg_ pw_ ps_ pp_ pi_ n k0 c h = Done ([ptr (length h)], h1)
  /\ forall k vss h2, in_turn (firstn k (SpecShare.calls pg_ pw_ ps_ pp_ pi_ nils n k0 c)) (ptr (length h)) h1 = Done (vss, h2) ->
     (exists ls, (length ls <= 2)%nat /\ forall l, live h2 (ptr (length h)) l -> In l ls) /\ (forall vs v l, In vs vss -> In v vs -> ~ live h2 v l).
Proof.
  intros n k0 max str pg_ pw_ ps_ pp_ pi_ nils [o d] us h M R K T P -> c. destruct (Nat.le_exists_sub _ _ K) as (k & -> & _). rewrite Nat.add_comm. clear K. unfold c. cbn [SpecShare.start SpecShare.calls]. unfold make, text_val. cbn [fst snd].
  assert (SP : forall d r, (length d <= max)%nat -> splitFunc d true = Ok r -> (so_advance r < 2 ^ 62)%Z) by (intros d' r L E; apply (jsplit_bound (Some {| Middle := []; Leading := [] |})) in E; lia).
  exists (alloc h (iter_obj o (VFun "splitFunc") (FromBytes d))). split.
  - destruct (is_string o) eqn:E; cbn [Nat.add]; erewrite call_S by reflexivity; [replace o with Str by (destruct o; try discriminate; reflexivity); rewrite FromString_run|rewrite FromBytes_run]; reflexivity.
  - intros j vss h2 RUN. assert (I1 : words_inv max str (length h) (alloc h (iter_obj o (VFun "splitFunc") (FromBytes d)))).
    { exists (FromBytes d), o. split; [exact T|]. split; [cbn; lia|]. split; [exact SP|]. exists (VFun "splitFunc"). repeat split; [apply hget_new|left; split; reflexivity]. }
    edestruct (in_turn_good (go_use words_any pw n (7 + k) (words_any_config nils pw n (7 + k))) (ptr (length h)) (words_inv max str (length h)) (fun _ _ _ => True) us) as (I2 & PL); [|exact I1|exact RUN|].
    + rewrite Forall_forall in *. intros u U. apply words_good; [exact M|exact R|exact (P u U)].
    + split; [eapply words_live; exact I2|exact PL].
Qed.
