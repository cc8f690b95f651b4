(** What iterating with package phrases leaves in memory. *)
From Coq Require Import String.
From Verif Require Import SpecIter SpecApi ApiFacts ApiInst.
From Verif Require Import Base Engine GoSyntax GoSem GoFacts SpecCode CodeApi SpecShare SpecAlloc AllocFacts ProgPhrases Phrases PhrasesEngine CodePBase CodePSplit CodePIter CodePhrases.
Local Open Scope string_scope.
Local Open Scope list_scope.

Lemma phrases_alloc : forall n k0 max str pg_ pw_ ps_ pp_ pi_ nils t us h, (Z.of_nat max < 2 ^ 62)%Z -> (2 * max + 2 <= n)%nat -> (6 <= k0)%nat -> proper str max t -> Forall (use_proper str max) us ->
  pp_ = pp -> let c := CPhrases t us in
  exists h1, SpecShare.start pg_ pw_ ps_ pp_ pi_ n k0 c h = Done ([ptr (length h)], h1) /\ length h1 = S (length h)
  /\ forall k vss h2, in_turn (firstn k (SpecShare.calls pg_ pw_ ps_ pp_ pi_ nils n k0 c)) (ptr (length h)) h1 = Done (vss, h2) ->
     (forall l, live h2 (ptr (length h)) l -> In l [length h]) /\ (forall vs v l, In vs vss -> In v vs -> ~ live h2 v l)
     /\ (spare c = true -> length h2 = length h1).
Proof.
  intros n k0 max str pg_ pw_ ps_ pp_ pi_ nils t us h M R K T P -> c. destruct (Nat.le_exists_sub _ _ K) as (k & -> & _). rewrite Nat.add_comm. clear K.
  assert (FI : forall o d, proper str max (o, d) -> forall it, it_data it = d -> fine n o it).
  { intros o d (_ & Q1 & Q2) it <-. cbn in Q1, Q2. repeat split; [exact Q1|lia|lia]. }
  set (Rep := fun it o l h => hget l h = Some (iter_obj o it)).
  assert (GOOD : forall l u, use_proper str max u -> good_use (go_use phrases_api pp n (6 + k) (no_config pp n (6 + k))) (ptr l) (total_inv (A := phrases_api) (kof := kof_of phrases_api_ok) (data := it_data) (pos := it_pos) (start := it_start) max str Rep l) taken u).
  { intros l u PU. eapply (total_good phrases_api_ok pp n (6 + k) max str (no_config pp n (6 + k)) Rep); try exact PU; unfold method, Rep; clear l u PU.
    - intros it o l h' b it' G [W _] E. eexists. split; [eapply (call_Next n (1 + k)); [exact (FI _ _ W it eq_refl)|exact G|exact E]|].
      split; [apply hget_hset; eapply hget_bound; exact G|apply hset_length].
    - intros it o l h' v G _ E. exists h'. split; [eapply (call_Value n (5 + k)); eassumption|]. split; [exact G|reflexivity].
    - intros it o l h' G. exists h'. split; [cbn [Nat.add]; erewrite call_S by reflexivity; eapply Start_run; eassumption|]. split; [exact G|reflexivity].
    - intros it o l h' G. exists h'. split; [cbn [Nat.add]; erewrite call_S by reflexivity; eapply End_run; eassumption|]. split; [exact G|reflexivity].
    - intros it o l h' G. eexists. split; [cbn [Nat.add]; erewrite call_S by reflexivity; eapply Reset_run; eassumption|]. split; [apply hget_hset; eapply hget_bound; exact G|apply hset_length].
    - intros it o l h' [o' d] G _. eexists. split; [cbn [Nat.add]; erewrite call_S by reflexivity; eapply SetText_run; eassumption|]. split; [apply hget_hset; eapply hget_bound; exact G|apply hset_length].
    - intros it o l h' v it' G [W _] E. destruct (call_First n k o it v it' l h' (FI _ _ W it eq_refl) G E) as (-> & g & Q). eexists. split; [exact Q|].
      rewrite hget_app by (eapply hget_bound; exact G); exact G.
    - intros it o l h' []. }
  assert (NEW : exists h1, SpecShare.start pg_ pw_ ps_ pp pi_ n (6 + k) c h = Done ([ptr (length h)], h1) /\ Rep (FromBytes (snd t)) (fst t) (length h) h1 /\ length h1 = S (length h)).
  { destruct t as [o d], T as [S _]. unfold c. cbn [SpecShare.start]. unfold SpecShare.make, text_val, Rep. cbn [fst snd] in *.
    destruct (is_string o) eqn:E; cbn [Nat.add]; erewrite call_S by reflexivity; [replace o with Str by (destruct o; try discriminate; reflexivity); rewrite FromString_run|rewrite FromBytes_run];
      eexists; (split; [reflexivity|]); (split; [exact (hget_new _ _)|rewrite app_length; cbn; lia]). }
  destruct NEW as (h1 & E & G1 & L1). exists h1. split; [exact E|]. split; [exact L1|]. intros j vss h2 RUN. unfold c in RUN. cbn [SpecShare.calls] in RUN.
  pose proof (total_made phrases_api_ok max str Rep t (length h) h1 T G1) as I1.
  assert (US : Forall (good_use (go_use phrases_api pp n (6 + k) (no_config pp n (6 + k))) (ptr (length h)) (total_inv (A := phrases_api) (kof := kof_of phrases_api_ok) (data := it_data) (pos := it_pos) (start := it_start) max str Rep (length h)) taken) us)
    by (rewrite Forall_forall in *; intros u U; apply GOOD, P, U).
  destruct (in_turn_good _ _ _ _ us US j h1 vss h2 I1 RUN) as ((it & o & G2 & _) & PL). split; [|split; [exact PL|]].
  - eapply plain_only; [exact G2|reflexivity].
  - intros SP. eapply in_turn_same; [exact US| |exact I1|exact RUN]. intros u a b J Q. unfold c, spare in SP. rewrite forallb_forall in SP. specialize (SP u J). destruct Q as [Q|Q]; [destruct u; discriminate|exact Q].
Qed.
