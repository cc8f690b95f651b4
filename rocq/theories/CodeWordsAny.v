(** Package words with split functions of the client's: the text, run, gives the model, panics included. *)
From Coq Require Import String.
From Verif Require Import SpecIter SpecApi ApiInst.
From Verif Require Import Base GoSyntax GoSem GoFacts SpecCode SpecCode2 ProgWords Words CodeWBase CodeWSplit CodeWFunc CodeWIter CodeWords.
Local Open Scope string_scope.
Local Open Scope list_scope.

Section Any.
  Variables (n k max : nat) (str nils : bool).
  Hypothesis M : (Z.of_nat max < 2 ^ 62)%Z.
  Hypothesis R : (2 * max + 2 <= n)%nat.
  Notation depth := (7 + k)%nat.
  Definition rep (it : iter) (o : origin) (l : nat) (h : heap) : Prop :=
    proper str max (o, it_data it) /\ (it_start it <= it_pos it <= length (it_data it))%nat
    /\ (forall d r, (length d <= max)%nat -> it_split it d true = Ok r -> (so_advance r < 2 ^ 62)%Z)
    /\ exists sv, hget l h = Some (iter_obj o sv it) /\ split_at (it_split it) sv h /\ is_split sv.
  Lemma rep_fine : forall it o l h, rep it o l h -> fine n o it.
  Proof. intros it o l h ((_ & P1 & P2) & _ & A & _). cbn [fst snd] in *. repeat split; [exact P1|lia|lia|]. intros d r L. apply A. lia. Qed.
  Lemma next_bounds : forall it b it', Next it = Ok (b, it') -> (it_start it <= it_pos it <= length (it_data it))%nat ->
    (it_start it' <= it_pos it' <= length (it_data it'))%nat /\ it_data it' = it_data it.
  Proof.
    assert (NS : forall it b it', next_split it = Ok (b, it') -> (it_start it <= it_pos it)%nat -> (it_start it' <= it_pos it' <= length (it_data it'))%nat /\ it_data it' = it_data it).
    { intros it b it' H S. unfold next_split in H. destruct (slice_from _ _); try discriminate. cbn [bind] in H. destruct (it_split it a true) as [r| |]; try discriminate. cbn [bind] in H.
      destruct (so_err r); try discriminate. destruct (so_advance r <=? 0)%Z; try discriminate. destruct (Nat.ltb_spec (length (it_data it)) (it_pos it + Z.to_nat (so_advance r))) as [|L]; try discriminate.
      injection H as <- <-. cbn. split; [lia|reflexivity]. }
    intros it b it' H [S P]. unfold Next in H. destruct (Nat.leb_spec (length (it_data it)) (it_pos it)) as [L|L]. { injection H as <- <-. auto. }
    cbn [with_pos it_data it_pos it_start] in H. destruct (byte_at _ _) as [c| |]; try discriminate. cbn [bind] in H. destruct (isASCIIAlphanumeric c); [|apply NS in H; [exact H|cbn; lia]].
    unfold slice_from in H. destruct (_ <? _)%nat in H; try discriminate. cbn [bind] in H. pose proof (alnum_le (skipn (it_pos it + 1) (it_data it))) as A. rewrite skipn_length in A.
    destruct (_ <=? _)%nat in H. { injection H as <- <-. cbn. split; [lia|reflexivity]. }
    destruct (byte_at _ _) as [c'| |] in H; try discriminate. cbn [bind] in H. destruct (c' =? 32)%N; [injection H as <- <-; cbn; split; [lia|reflexivity]|]. apply NS in H; [exact H|cbn; lia].
  Qed.
  Notation gouse := (go_use words_any pw n depth (words_any_config nils pw n depth)).
  Notation guse l := (gouse (VPtr "Iterator" (Some l))).
  Lemma any_step : forall u o it l h, any_use_proper str max u -> rep it o l h ->
    match model_use words_any o it u with
    | Ok (vs, o', it') => exists h', guse l u h = Done (vs, h') /\ rep it' o' l h'
    | Panic => guse l u h = Panics
    | OutOfFuel => guse l u h = Forever
    end.
  Proof.
    intros u o it l h P RP. pose proof (rep_fine _ _ _ _ RP) as F. pose proof RP as RP0. destruct RP as (W & B & A & sv & G & S & IS).
    destruct u; cbn [model_use go_use]; unfold method.
    - destruct (call_Next n (1 + k) o sv it l h F S G) as (g & CN). change (a_next words_any it) with (Next it). 
      replace (VPtr "Iterator" (Some l) :: []) with [VPtr "Iterator" (Some l)] by reflexivity.
      destruct (Next it) as [[b it']| |] eqn:E; cbn [bind as_out fst snd] in *; [|exact CN|exact CN].
      destruct (next_bounds _ _ _ E B) as [B' D']. pose proof (next_keeps _ _ _ E) as SI. eexists. split; [exact CN|].
      unfold rep. rewrite D' in *. rewrite SI. split; [exact W|]. split; [exact B'|]. split; [exact A|]. exists sv. repeat split; try assumption.
      + rewrite hget_app by (rewrite hset_length; eapply hget_bound; exact G). apply hget_hset. eapply hget_bound; exact G.
      + apply split_at_app. eapply split_at_hset; [exact G|exact S].
    - change (a_value words_any it) with (Value it). destruct (Value it) as [v| |] eqn:E; cbn [bind].
      + exists h. split; [eapply (call_Value n (6 + k)); eassumption|exact RP0].
      + exfalso. unfold Value, slice in E. replace ((it_pos it <? it_start it)%nat || (length (it_data it) <? it_pos it)%nat) with false in E by (symmetry; apply orb_false_intro; apply Nat.ltb_ge; lia). discriminate.
      + exfalso. unfold Value, slice in E. destruct (_ || _); discriminate.
    - exists h. split; [cbn [Nat.add]; erewrite call_S by reflexivity; eapply Start_run; eassumption|exact RP0].
    - exists h. split; [cbn [Nat.add]; erewrite call_S by reflexivity; eapply End_run; eassumption|exact RP0].
    - eexists. split; [cbn [Nat.add]; erewrite call_S by reflexivity; eapply Reset_run; eassumption|]. split; [exact W|]. split; [cbn; lia|]. split; [exact A|]. exists sv. repeat split; try assumption.
      + apply hget_hset. eapply hget_bound; exact G.
      + eapply split_at_hset; [exact G|exact S].
    - destruct t as [o' d]. unfold text_val. cbn [fst snd]. eexists. split; [cbn [Nat.add]; erewrite call_S by reflexivity; eapply SetText_run; eassumption|]. split; [exact P|]. split; [cbn; lia|]. split; [exact A|]. exists sv. repeat split; try assumption.
      + apply hget_hset. eapply hget_bound; exact G.
      + eapply split_at_hset; [exact G|exact S].
    - destruct (call_First n k o sv it l h F S G) as (g & CN). change (a_first words_any it) with (First it).
      destruct (First it) as [[v it']| |] eqn:E; cbn [bind as_out fst snd] in *; [|exact CN|exact CN].
      assert (SI : it' = it) by (eapply first_keeps; exact E). subst it'. eexists. split; [exact CN|]. split; [exact W|]. split; [exact B|]. split; [exact A|]. exists sv. repeat split; try assumption.
      + rewrite hget_app by (rewrite hset_length; eapply hget_bound; exact G). apply hget_hset. eapply hget_bound; exact G.
      + apply split_at_app. eapply split_at_hset; [exact G|exact S].
    - destruct c as [j|f]; cbn [words_any_config a_config words_any].
      + assert (AJ : forall d r, (length d <= max)%nat -> joinersSplitFunc j d true = Ok r -> (so_advance r < 2 ^ 62)%Z) by (intros d r L E; apply jsplit_bound in E; lia).
        unfold words_config. destruct j as [c|].
        * destruct (runes_val_rep nils (Middle c)) as (m & -> & Rm). destruct (runes_val_rep nils (Leading c)) as (le & -> & Rl).
          set (jo := ("Joiners", [("Middle", VRunes m); ("Leading", VRunes le)]) : object).
          assert (G' : hget l (h ++ [jo]) = Some (iter_obj o sv it)) by (rewrite hget_app by (eapply hget_bound; exact G); exact G).
          pose proof (call_Joiners n (5 + k) o sv it (Some c) (Some (length h)) l (h ++ [jo]) IS G') as CJ.
          eexists. split.
          -- rewrite exec_expr. cbn. unfold alloc. cbn in CJ. fold jo. rewrite CJ. cbn. reflexivity.
          -- split; [exact W|]. split; [exact B|]. split; [exact AJ|]. exists (VMethod (VPtr "Joiners" (Some (length h))) "splitFunc"). repeat split.
             ++ apply hget_hset. eapply hget_bound; exact G'.
             ++ right; left. exists (Some c), (Some (length h)). repeat split. eapply joiner_hset; [exact G'|]. exists m, le. repeat split; try assumption. exact (hget_new h jo).
        * pose proof (call_Joiners n (5 + k) o sv it None None l h IS G) as CJ. rewrite <- call_Joiners_nil in CJ. eexists. split.
          -- rewrite exec_expr. cbn. cbn in CJ. rewrite CJ. reflexivity.
          -- split; [exact W|]. split; [exact B|]. split; [exact AJ|]. exists (VMethod (VPtr "Joiners" None) "splitFunc"). repeat split.
             ++ apply hget_hset. eapply hget_bound; exact G.
             ++ right; left. exists None, None. repeat split.
      + pose proof (call_Split n (6 + k) o sv it f (VExt f) l h IS I G) as CS. eexists. split; [unfold method; change (7 + k)%nat with (Datatypes.S (6 + k)); rewrite CS; reflexivity|].
        split; [exact W|]. split; [exact B|]. split; [intros d r _ E; eapply P; exact E|]. exists (VExt f). repeat split; [|right; right; reflexivity].
        apply hget_hset. eapply hget_bound; exact G.
  Qed.
  Lemma any_sim : forall us o it l h, Forall (any_use_proper str max) us -> rep it o l h ->
    go_uses words_any pw n depth (words_any_config nils pw n depth) us (VPtr "Iterator" (Some l)) h = outcome (model_uses words_any us o it).
  Proof.
    induction us as [|u us IH]; intros o it l h P RP; [reflexivity|]. inversion P as [|? ? P1 P2]; subst. cbn [go_uses model_uses].
    pose proof (any_step u o it l h P1 RP) as ST. destruct (model_use words_any o it u) as [[[vs o'] it']| |]; [|rewrite ST; reflexivity|rewrite ST; reflexivity].
    destruct ST as (h' & E & RP'). rewrite E. cbn [bind obind]. rewrite (IH o' it' l h' P2 RP'). destruct (model_uses words_any us o' it'); reflexivity.
  Qed.
End Any.
Lemma words_any_is_model : words_program_is_model pw 7.
Proof.
  intros nils str max n k0 [o d] us h T P M R K. destruct (Nat.le_exists_sub _ _ K) as (k & -> & _). rewrite Nat.add_comm. clear K. unfold go_client, model_client, text_val. cbn [fst snd].
  assert (SP : forall d r, (length d <= max)%nat -> splitFunc d true = Ok r -> (so_advance r < 2 ^ 62)%Z) by (intros d' r L E; apply (jsplit_bound (Some {| Middle := []; Leading := [] |})) in E; lia).
  assert (E : call pw n (7 + k) ("", if is_string o then "FromString" else "FromBytes") [VData o d] h = Done ([VPtr "Iterator" (Some (length h))], alloc h (iter_obj o (VFun "splitFunc") (FromBytes d)))).
  { destruct (is_string o) eqn:E; cbn [Nat.add]; erewrite call_S by reflexivity; [replace o with Str by (destruct o; try discriminate; reflexivity); rewrite FromString_run|rewrite FromBytes_run]; reflexivity. }
  rewrite E. cbn [obind]. eapply any_sim; [exact M|exact R|exact P|]. split; [exact T|]. split; [cbn; lia|]. split; [exact SP|]. exists (VFun "splitFunc"). repeat split; [apply hget_new|left; split; reflexivity].
Qed.
