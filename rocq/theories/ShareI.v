(** Clients of internal/iterators touch only the place of their iterator. *)
From Coq Require Import String.
From Verif Require Import SpecIter SpecApi.
From Verif Require Import Base GoSyntax GoSem GoFacts SpecCode SpecCode2 SpecIterators SpecShare ShareFacts ShareApi ProgOther CodeOther.
From Verif Require Iterators.
Local Open Scope string_scope.
Local Open Scope list_scope.

Definition it_model (s : origin * Iterators.iter) (u : use splitfun) : res (list val * (origin * Iterators.iter)) := ' (vs, o, it) <- it_use (fst s) (snd s) u ;; Ok (vs, (o, it)).
Definition it_rep (s : origin * Iterators.iter) (l : nat) (h : heap) : Prop := inv (snd s) /\ hget l h = Some (obj (fst s) (snd s)).
Lemma it_use_step : forall n k str max u, it_use_proper str max u -> (Z.of_nat max < 2 ^ 62)%Z -> use_step it_model (go_it_use pi_ n (S k)) it_rep u.
Proof.
  intros n k str max u P M [o it] l h (I & G). cbn [fst snd] in *. unfold it_model, it_rep. cbn [fst snd]. pose proof (hget_bound _ _ _ G) as B. destruct u; cbn [it_use go_it_use]; unfold method; erewrite call_S by reflexivity.
  - rewrite (Next_run _ _ o it) by assumption. destruct (Iterators.Next it) as [it' [b| |]] eqn:E; cbn [bind outcome]; [|reflexivity..].
    eexists. split; [reflexivity|]. split; [split; [eapply next_inv; eassumption|now apply hget_hset]|apply frame_hset].
  - rewrite (Value_run _ _ o it) by assumption. destruct (Iterators.Value it) as [v| |]; cbn [bind outcome]; [|reflexivity..]. eexists. split; [reflexivity|]. split; [split; assumption|apply frame_refl].
  - rewrite (Start_run _ _ o it) by assumption. eexists. split; [reflexivity|]. split; [split; assumption|apply frame_refl].
  - rewrite (End_run _ _ o it) by assumption. eexists. split; [reflexivity|]. split; [split; assumption|apply frame_refl].
  - rewrite (Reset_run _ _ o it) by assumption. eexists. split; [reflexivity|]. split; [|apply frame_hset]. split; [|now apply hget_hset].
    destruct I as (I1 & I2 & I3). unfold inv. cbn [fst snd Iterators.Reset Iterators.it_split Iterators.it_data Iterators.it_pos]. unfold Iterators.len in *. split; [assumption|lia].
  - unfold text_val. rewrite (SetText_run _ _ o it) by assumption. eexists. split; [reflexivity|]. split; [|apply frame_hset]. split; [|now apply hget_hset].
    destruct I as (I1 & I2 & I3). destruct P as (_ & _ & P). unfold inv. cbn [fst snd Iterators.SetText Iterators.it_split Iterators.it_data Iterators.it_pos]. unfold Iterators.len in *. split; [assumption|lia].
  - rewrite (First_run _ _ o it) by assumption. destruct (Iterators.First it) as [v| |]; cbn [bind outcome]; [|reflexivity..]. eexists. split; [reflexivity|]. split; [split; assumption|apply frame_refl].
  - rewrite (Split_run _ _ o it) by assumption. eexists. split; [reflexivity|]. split; [|apply frame_hset]. split; [|now apply hget_hset].
    destruct I as (I1 & I2 & I3). split; [exact P|]. split; assumption.
Qed.
Lemma iterators_local : forall n k0 max str pg_ pw_ ps_ pp_ p nils f t us, (Z.of_nat max < 2 ^ 62)%Z -> (1 <= k0)%nat -> returns_ints f -> proper str max t -> Forall (it_use_proper str max) us ->
  p = pi_ -> exists R ans, local pg_ pw_ ps_ pp_ p nils n k0 (CIterators f t us) R ans.
Proof.
  intros n [|k] max str pg_ pw_ ps_ pp_ p nils f t us M K F T P ->; [lia|]. do 2 eexists.
  eapply (model_local it_model (go_it_use pi_ n (S k)) it_rep) with (us := us) (s0 := (fst t, Iterators.New f (snd t))); [| | |reflexivity|].
  - intros s l h (_ & G). eexists. exact G.
  - intros s l h h' (I & G) KE. split; [exact I|]. apply KE; [now left|exact G].
  - rewrite Forall_forall in *. intros u U. eapply it_use_step; [exact (P u U)|exact M].
  - intros h. destruct t as [o d]. cbn [SpecShare.start]. unfold text_val. cbn [fst snd]. erewrite call_S by reflexivity. rewrite New_run. eexists. split; [reflexivity|]. split; [|apply grows_app].
    split; [|apply hget_new]. destruct T as (_ & _ & T). cbn [fst snd] in *. unfold inv, Iterators.len. cbn. split; [exact F|lia].
Qed.
