(** Clients of package words touch only the place of their iterator; its joiners stay. *)
From Coq Require Import String.
From Verif Require Import SpecIter SpecApi ApiInst.
From Verif Require Import Base GoSyntax GoSem GoFacts SpecCode SpecCode2 SpecShare ShareFacts ShareApi ProgWords Words CodeWBase CodeWSplit CodeWFunc CodeWIter CodeWords CodeWordsAny.
Local Open Scope string_scope.
Local Open Scope list_scope.

Section Any.
  Variables (n k max : nat) (str nils : bool).
  Hypothesis M : (Z.of_nat max < 2 ^ 62)%Z.
  Hypothesis R : (2 * max + 2 <= n)%nat.
  Notation depth := (7 + k)%nat.
  Notation rep := (rep max str).
  Notation gouse := (go_use words_any pw n depth (words_any_config nils pw n depth)).
  Notation guse l := (gouse (VPtr "Iterator" (Some l))).
  Lemma any_step_frame : forall u o it l h, any_use_proper str max u -> rep it o l h ->
    match model_use words_any o it u with
    | Ok (vs, o', it') => exists h', guse l u h = Done (vs, h') /\ rep it' o' l h' /\ frame l h h'
    | Panic => guse l u h = Panics
    | OutOfFuel => guse l u h = Forever
    end.
  Proof.
    intros u o it l h P RP. pose proof (rep_fine n max str M R _ _ _ _ RP) as F. pose proof RP as RP0. destruct RP as (W & B & A & sv & G & S & IS).
    destruct u; cbn [model_use go_use]; unfold method.
    - destruct (call_Next n (1 + k) o sv it l h F S G) as (g & CN). change (a_next words_any it) with (Next it). 
      replace (VPtr "Iterator" (Some l) :: []) with [VPtr "Iterator" (Some l)] by reflexivity.
      destruct (Next it) as [[b it']| |] eqn:E; cbn [bind as_out fst snd] in *; [|exact CN|exact CN].
      destruct (next_bounds n max R _ _ _ E B) as [B' D']. pose proof (next_keeps _ _ _ E) as SI. eexists. split; [exact CN|]. split; [|eapply frame_trans; [eapply frame_hset|eapply frame_grows, grows_app]].
      unfold rep. rewrite D' in *. rewrite SI. split; [exact W|]. split; [exact B'|]. split; [exact A|]. exists sv. repeat split; try assumption.
      + rewrite hget_app by (rewrite hset_length; eapply hget_bound; exact G). apply hget_hset. eapply hget_bound; exact G.
      + apply split_at_app. eapply split_at_hset; [exact G|exact S].
    - change (a_value words_any it) with (Value it). destruct (Value it) as [v| |] eqn:E; cbn [bind].
      + exists h. split; [eapply (call_Value n (6 + k)); eassumption|split; [exact RP0|apply frame_refl]].
      + exfalso. unfold Value, slice in E. replace ((it_pos it <? it_start it)%nat || (length (it_data it) <? it_pos it)%nat) with false in E by (symmetry; apply orb_false_intro; apply Nat.ltb_ge; lia). discriminate.
      + exfalso. unfold Value, slice in E. destruct (_ || _); discriminate.
    - exists h. split; [cbn [Nat.add]; erewrite call_S by reflexivity; eapply Start_run; eassumption|split; [exact RP0|apply frame_refl]].
    - exists h. split; [cbn [Nat.add]; erewrite call_S by reflexivity; eapply End_run; eassumption|split; [exact RP0|apply frame_refl]].
    - eexists. split; [cbn [Nat.add]; erewrite call_S by reflexivity; eapply Reset_run; eassumption|]. split; [|apply frame_hset]. split; [exact W|]. split; [cbn; lia|]. split; [exact A|]. exists sv. repeat split; try assumption.
      + apply hget_hset. eapply hget_bound; exact G.
      + eapply split_at_hset; [exact G|exact S].
    - destruct t as [o' d]. unfold text_val. cbn [fst snd]. eexists. split; [cbn [Nat.add]; erewrite call_S by reflexivity; eapply SetText_run; eassumption|]. split; [|apply frame_hset]. split; [exact P|]. split; [cbn; lia|]. split; [exact A|]. exists sv. repeat split; try assumption.
      + apply hget_hset. eapply hget_bound; exact G.
      + eapply split_at_hset; [exact G|exact S].
    - destruct (call_First n k o sv it l h F S G) as (g & CN). change (a_first words_any it) with (First it).
      destruct (First it) as [[v it']| |] eqn:E; cbn [bind as_out fst snd] in *; [|exact CN|exact CN].
      assert (SI : it' = it) by (eapply first_keeps; exact E). subst it'. eexists. split; [exact CN|]. split; [|eapply frame_trans; [eapply frame_hset|eapply frame_grows, grows_app]]. split; [exact W|]. split; [exact B|]. split; [exact A|]. exists sv. repeat split; try assumption.
      + rewrite hget_app by (rewrite hset_length; eapply hget_bound; exact G). apply hget_hset. eapply hget_bound; exact G.
      + apply split_at_app. eapply split_at_hset; [exact G|exact S].
    - destruct c as [j|f]; cbn [words_any_config a_config words_any].
      + assert (AJ : forall d r, (length d <= max)%nat -> joinersSplitFunc j d true = Ok r -> (so_advance r < 2 ^ 62)%Z) by (intros d r L E; apply jsplit_bound in E; lia).
        unfold words_config. destruct j as [c|].
        * destruct (runes_val_rep nils (Middle c)) as (m & -> & Rm). destruct (runes_val_rep nils (Leading c)) as (le & -> & Rl).
          set (jo := ("Joiners", [("Middle", VRunes m); ("Leading", VRunes le)]) : object).
          assert (G' : hget l (h ++ [jo]) = Some (iter_obj o sv it)) by (rewrite hget_app by (eapply hget_bound; exact G); exact G).
          pose proof (call_Joiners n (5 + k) o sv it (Some c) (Some (length h)) l (h ++ [jo]) IS G') as CJ.
          eexists. split.
          -- rewrite exec_expr. cbn. unfold alloc. cbn in CJ. fold jo. rewrite CJ. cbn. reflexivity.
          -- split; [|apply (frame_trans _ _ (h ++ [jo])); [apply frame_grows, grows_app|apply frame_hset]]. split; [exact W|]. split; [exact B|]. split; [exact AJ|]. exists (VMethod (VPtr "Joiners" (Some (length h))) "splitFunc"). repeat split.
             ++ apply hget_hset. eapply hget_bound; exact G'.
             ++ right; left. exists (Some c), (Some (length h)). repeat split. eapply joiner_hset; [exact G'|]. exists m, le. repeat split; try assumption. exact (hget_new h jo).
        * pose proof (call_Joiners n (5 + k) o sv it None None l h IS G) as CJ. rewrite <- call_Joiners_nil in CJ. eexists. split.
          -- rewrite exec_expr. cbn. cbn in CJ. rewrite CJ. reflexivity.
          -- split; [|apply frame_hset]. split; [exact W|]. split; [exact B|]. split; [exact AJ|]. exists (VMethod (VPtr "Joiners" None) "splitFunc"). repeat split.
             ++ apply hget_hset. eapply hget_bound; exact G.
             ++ right; left. exists None, None. repeat split.
      + pose proof (call_Split n (6 + k) o sv it f (VExt f) l h IS I G) as CS. eexists. split; [unfold method; change (7 + k)%nat with (Datatypes.S (6 + k)); rewrite CS; reflexivity|]. split; [|apply frame_hset].
        split; [exact W|]. split; [exact B|]. split; [intros d r _ E; eapply P; exact E|]. exists (VExt f). repeat split; [|right; right; reflexivity].
        apply hget_hset. eapply hget_bound; exact G.
  Qed.
  Lemma any_keep : forall it o l h h', rep it o l h -> (forall l' x, (l' = l \/ ~ is_iter l' h) -> hget l' h = Some x -> hget l' h' = Some x) -> rep it o l h'.
  Proof.
    intros it o l h h' (W & B & A & sv & G & S & IS) F. split; [exact W|]. split; [exact B|]. split; [exact A|]. exists sv. split; [apply F; [now left|exact G]|]. split; [|exact IS].
    destruct S as [S|[(j & jl & S1 & S2 & S3)|S]]; [left; exact S|right; left|right; right; exact S]. exists j, jl. split; [exact S1|]. split; [exact S2|].
    destruct j as [j|], jl as [jl|]; cbn [joiner_at] in *; try exact S3. destruct S3 as (m & le & J & J1). exists m, le. split; [|exact J1]. apply F; [|exact J]. right. intros (x & X). rewrite X in J. discriminate.
  Qed.
End Any.
Lemma words_local : forall n k0 max str pg_ pw_ ps_ pp_ pi_ nils t us, (Z.of_nat max < 2 ^ 62)%Z -> (2 * max + 2 <= n)%nat -> (7 <= k0)%nat -> proper str max t -> Forall (any_use_proper str max) us ->
  pw_ = pw -> exists R ans, local pg_ pw_ ps_ pp_ pi_ nils n k0 (CWords t us) R ans.
Proof.
  intros n k0 max str pg_ pw_ ps_ pp_ pi_ nils t us M R K T P ->. destruct (Nat.le_exists_sub _ _ K) as (k & -> & _). rewrite Nat.add_comm. clear K. do 2 eexists.
  eapply (model_local (api_step words_any) (go_use words_any pw n (7 + k) (words_any_config nils pw n (7 + k))) (fun s => rep max str (snd s) (fst s)) ) with (us := us) (s0 := (fst t, FromBytes (snd t))); [| | |reflexivity|].
  - intros s l h (_ & _ & _ & sv & G & _). eexists. exact G.
  - intros s l h h' H F. eapply any_keep; eassumption.
  - rewrite Forall_forall in *. intros u U [o it] l h H. cbn [fst snd] in H. unfold api_step. cbn [fst snd]. pose proof (any_step_frame n k max str nils M R u o it l h (P u U) H) as S.
    destruct (model_use words_any o it u) as [[[vs o'] it']| |]; exact S.
  - intros h. destruct t as [o d]. cbn [SpecShare.start]. unfold make, text_val. cbn [fst snd].
    assert (SP : forall d r, (length d <= max)%nat -> splitFunc d true = Ok r -> (so_advance r < 2 ^ 62)%Z) by (intros d' r L E; apply (jsplit_bound (Some {| Middle := []; Leading := [] |})) in E; lia).
    exists (alloc h (iter_obj o (VFun "splitFunc") (FromBytes d))). split; [|split; [|apply grows_app]].
    + destruct (is_string o) eqn:E; cbn [Nat.add]; erewrite call_S by reflexivity; [replace o with Str by (destruct o; try discriminate; reflexivity); rewrite FromString_run|rewrite FromBytes_run]; reflexivity.
    + split; [exact T|]. split; [cbn; lia|]. split; [exact SP|]. exists (VFun "splitFunc"). repeat split; [apply hget_new|left; split; reflexivity].
Qed.
