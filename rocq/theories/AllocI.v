(** What iterating with internal/iterators leaves in memory. *)
From Coq Require Import String.
From Verif Require Import SpecIter SpecApi.
From Verif Require Import Base GoSyntax GoSem GoFacts SpecCode SpecCode2 SpecIterators SpecShare SpecAlloc AllocFacts ProgOther CodeOther.
From Verif Require Iterators SpecSteps.
Local Open Scope string_scope.
Local Open Scope list_scope.

Definition it_inv (l : nat) (h : heap) : Prop := exists o it, inv it /\ hget l h = Some (obj o it).
Lemma it_good : forall n k str max l u, it_use_proper str max u -> (Z.of_nat max < 2 ^ 62)%Z -> good_use (go_it_use pi_ n (S k)) (ptr l) (it_inv l) (fun _ h h' => length h' = length h) u.
Proof.
  intros n k str max l u P M h vs h' (o & it & I & G) E. pose proof (hget_bound _ _ _ G) as B. destruct u; cbn [go_it_use] in E; unfold method in E; erewrite call_S in E by reflexivity.
  - rewrite (Next_run _ _ o it) in E by assumption. destruct (Iterators.Next it) as [it' [b| |]] eqn:N; cbn [bind outcome] in E; try discriminate. injection E as <- <-.
    split; [|split; [reflexivity|apply hset_length]]. exists o, it'. split; [eapply next_inv; eassumption|now apply hget_hset].
  - rewrite (Value_run _ _ o it) in E by assumption. destruct (Iterators.Value it) as [v| |]; cbn [bind outcome] in E; try discriminate. injection E as <- <-. split; [exists o, it; now split|split; reflexivity].
  - rewrite (Start_run _ _ o it) in E by assumption. injection E as <- <-. split; [exists o, it; now split|split; reflexivity].
  - rewrite (End_run _ _ o it) in E by assumption. injection E as <- <-. split; [exists o, it; now split|split; reflexivity].
  - rewrite (Reset_run _ _ o it) in E by assumption. injection E as <- <-. split; [|split; [reflexivity|apply hset_length]]. eexists o, _. split; [|now apply hget_hset].
    destruct I as (I1 & I2 & I3). unfold inv. cbn [Iterators.Reset Iterators.it_split Iterators.it_data Iterators.it_pos]. unfold Iterators.len in *. split; [assumption|lia].
  - unfold text_val in E. rewrite (SetText_run _ _ o it) in E by assumption. injection E as <- <-. split; [|split; [reflexivity|apply hset_length]]. eexists (fst t), _. split; [|now apply hget_hset].
    destruct I as (I1 & I2 & I3). destruct P as (_ & _ & P). unfold inv. cbn [Iterators.SetText Iterators.it_split Iterators.it_data Iterators.it_pos]. unfold Iterators.len in *. split; [assumption|lia].
  - rewrite (First_run _ _ o it) in E by assumption. destruct (Iterators.First it) as [v| |]; cbn [bind outcome] in E; try discriminate. injection E as <- <-. split; [exists o, it; now split|split; reflexivity].
  - rewrite (Split_run _ _ o it) in E by assumption. injection E as <- <-. split; [|split; [reflexivity|apply hset_length]]. eexists o, _. split; [|now apply hget_hset].
    destruct I as (I1 & I2 & I3). split; [exact P|]. split; assumption.
Qed.
Lemma iterators_alloc : forall n k0 max str pg_ pw_ ps_ pp_ p nils f t us h, (Z.of_nat max < 2 ^ 62)%Z -> (1 <= k0)%nat -> returns_ints f -> proper str max t -> Forall (it_use_proper str max) us ->
  p = pi_ -> let c := CIterators f t us in
  exists h1, SpecShare.start pg_ pw_ ps_ pp_ p n k0 c h = Done ([ptr (length h)], h1) /\ length h1 = S (length h)
  /\ forall k vss h2, in_turn (firstn k (SpecShare.calls pg_ pw_ ps_ pp_ p nils n k0 c)) (ptr (length h)) h1 = Done (vss, h2) ->
     (forall l, live h2 (ptr (length h)) l -> In l [length h]) /\ (forall vs v l, In vs vss -> In v vs -> ~ live h2 v l)
     /\ (spare c = true -> length h2 = length h1).
Proof.
  intros n [|k0] max str pg_ pw_ ps_ pp_ p nils f [o d] us h M K F T P -> c; [lia|]. unfold c. cbn [SpecShare.start SpecShare.calls]. unfold text_val. cbn [fst snd].
  eexists. split; [erewrite call_S by reflexivity; rewrite New_run; reflexivity|]. split; [unfold alloc; rewrite app_length; cbn; lia|]. intros k vss h2 RUN.
  match type of RUN with in_turn _ _ ?h1 = _ => assert (I1 : it_inv (length h) h1) end.
  { eexists o, _. split; [|apply hget_new]. destruct T as (_ & _ & T). cbn [fst snd] in *. unfold inv, Iterators.len. cbn. split; [exact F|lia]. }
  assert (US : Forall (good_use (go_it_use pi_ n (S k0)) (ptr (length h)) (it_inv (length h)) (fun _ h h' => length h' = length h)) us)
    by (rewrite Forall_forall in *; intros u U; eapply it_good; [exact (P u U)|exact M]).
  destruct (in_turn_good _ _ _ _ us US k _ vss h2 I1 RUN) as ((o' & it & _ & G2) & PL). split; [|split; [exact PL|]].
  - eapply plain_only; [exact G2|reflexivity].
  - intros _. eapply in_turn_same; [exact US| |exact I1|exact RUN]. intros u a b _ Q. exact Q.
Qed.
