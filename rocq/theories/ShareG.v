(** Clients of package graphemes touch only the place of their iterator. *)
From Coq Require Import String.
From Verif Require Import SpecIter SpecApi ApiFacts ApiInst.
From Verif Require Import Base Engine GoSyntax GoSem GoFacts SpecCode CodeApi SpecShare ShareFacts ShareApi ProgGraphemes Graphemes GraphemesEngine CodeGBase CodeGSplit CodeGAnsi CodeGIter CodeGraphemes.
Local Open Scope string_scope.
Local Open Scope list_scope.

Lemma graphemes_local : forall n k0 max str pg_ pw_ ps_ pp_ pi_ nils t us, (Z.of_nat max < 2 ^ 62)%Z -> (2 * max + 2 <= n)%nat -> (5 <= k0)%nat -> proper str max t -> Forall (use_proper str max) us ->
  pg_ = pg -> exists R ans, local pg_ pw_ ps_ pp_ pi_ nils n k0 (CGraphemes t us) R ans.
Proof.
  intros n k0 max str pg_ pw_ ps_ pp_ pi_ nils t us M R K T P ->. destruct (Nat.le_exists_sub _ _ K) as (k & -> & _). rewrite Nat.add_comm. clear K.
  assert (FI : forall o d, proper str max (o, d) -> forall it, it_data it = d -> fine n o it).
  { intros o d (_ & Q1 & Q2) it <-. cbn in Q1, Q2. repeat split; [exact Q1|lia|lia]. }
  eapply (total_local graphemes_api_ok pg n (5 + k) max str (graphemes_config pg n (5 + k)) (fun it o l h => hget l h = Some (iter_obj o it))) with (t := t) (us := us); try exact T; try exact P; try reflexivity; unfold method, make; clear t us T P.
  - intros it o l h b it' G [W _] E. eexists. split; [eapply (call_Next n (1 + k)); [exact (FI _ _ W it eq_refl)|exact G|exact E]|].
    split; [apply hget_hset; eapply hget_bound; exact G|apply frame_hset].
  - intros it o l h v G _ E. exists h. split; [eapply (call_Value n (4 + k)); eassumption|]. split; [exact G|apply frame_refl].
  - intros it o l h G. exists h. split; [cbn [Nat.add]; erewrite call_S by reflexivity; eapply Start_run; eassumption|]. split; [exact G|apply frame_refl].
  - intros it o l h G. exists h. split; [cbn [Nat.add]; erewrite call_S by reflexivity; eapply End_run; eassumption|]. split; [exact G|apply frame_refl].
  - intros it o l h G. eexists. split; [cbn [Nat.add]; erewrite call_S by reflexivity; eapply Reset_run; eassumption|]. split; [apply hget_hset; eapply hget_bound; exact G|apply frame_hset].
  - intros it o l h [o' d] G _. eexists. split; [cbn [Nat.add]; erewrite call_S by reflexivity; eapply SetText_run; eassumption|]. split; [apply hget_hset; eapply hget_bound; exact G|apply frame_hset].
  - intros it o l h v it' G [W _] E. destruct (call_First n k o it v it' l h (FI _ _ W it eq_refl) G E) as (-> & g & Q). eexists. split; [exact Q|].
    split; [rewrite hget_app by (eapply hget_bound; exact G); exact G|apply frame_grows, grows_app].
  - intros it o l h [a7 a8] G _. eexists. split; [unfold graphemes_config|].
    + rewrite exec_assign. cbn [fst snd].
      cbn. rewrite G. unfold iter_obj. cbn. rewrite hget_hset by (eapply hget_bound; exact G). cbn. rewrite hset_hset. reflexivity.
    + split; [apply hget_hset; eapply hget_bound; exact G|apply frame_hset].
  - intros it o l h G. eexists. exact G.
  - intros it o l h h' G F. apply F; [now left|exact G].
  - intros [o d] h [S _]. cbn [fst snd] in *. unfold text_val. cbn [fst snd].
    destruct (is_string o) eqn:E; cbn [Nat.add]; erewrite call_S by reflexivity; [replace o with Str by (destruct o; try discriminate; reflexivity); rewrite FromString_run|rewrite FromBytes_run];
      eexists; (split; [reflexivity|]); (split; [exact (hget_new _ _)|apply grows_app]).
Qed.
