(** Clients of the packages, step by step. *)
From Coq Require Import String.
From Verif Require Import SpecIter SpecApi ApiInst.
From Verif Require Import Base GoSyntax GoSem SpecCode SpecCode2 SpecIterators SpecSteps SpecStepsShare StepsRun StepsRel StepsSim.
From Verif Require SpecShare CodeGraphemes CodeSentences CodePhrases CodeWords CodeWordsAny CodeOther Words ProgGraphemes ProgSentences ProgPhrases ProgWords ProgOther ShareAll.
Local Open Scope string_scope.
Local Open Scope list_scope.
Import SpecShare (client, CGraphemes, CWords, CSentences, CPhrases, CIterators).

(** * Runs and steps *)
Lemma steps_done : forall A n (t : act A) h, (exists a, t = ret a) \/ (exists s, t = stop s) -> steps n t h = (t, h).
Proof. intros A. induction n as [|n IH]; intros t h [[a ->]|[s ->]]; try reflexivity; cbn; apply IH; eauto. Qed.
Lemma steps_add : forall A m n (t : act A) h, steps (m + n) t h = let (t1, h1) := steps m t h in steps n t1 h1.
Proof. intros A. induction m as [|m IH]; intros n t h; [reflexivity|]. cbn [steps Nat.add]. destruct (step t h) as [t1 h1]. apply IH. Qed.
Lemma finishes : forall A (t : act A) h, exists n t' h', steps n t h = (t', h') /\ final t' h' (run t h).
Proof.
  intros A. induction t as [a|s|l x k IH|l k IH|l x v k IH|o k IH]; intros h; cbn [run].
  - exists 0%nat, (ret a), h. split; reflexivity.
  - exists 0%nat, (stop s), h. split; [reflexivity|]. destruct s; reflexivity.
  - destruct (hget l h) as [[n fs]|] eqn:E; [destruct (assoc x fs) as [v|] eqn:F|].
    + destruct (IH v h) as (m & t' & h' & Q & R). exists (S m), t', h'. split; [|exact R]. cbn. rewrite E, F. exact Q.
    + exists 1%nat, (stop Wedged), h. split; [|reflexivity]. cbn. rewrite E, F. reflexivity.
    + exists 1%nat, (stop Wedged), h. split; [|reflexivity]. cbn. rewrite E. reflexivity.
  - destruct (hget l h) as [[n fs]|] eqn:E.
    + destruct (IH fs h) as (m & t' & h' & Q & R). exists (S m), t', h'. split; [|exact R]. cbn. rewrite E. exact Q.
    + exists 1%nat, (stop Wedged), h. split; [|reflexivity]. cbn. rewrite E. reflexivity.
  - destruct (hget l h) as [[n fs]|] eqn:E; [destruct (assoc x fs) as [u|] eqn:F|].
    + destruct (IH (hset l (n, put x (like u v) fs) h)) as (m & t' & h' & Q & R). exists (S m), t', h'. split; [|exact R]. cbn. rewrite E, F. exact Q.
    + exists 1%nat, (stop Wedged), h. split; [|reflexivity]. cbn. rewrite E, F. reflexivity.
    + exists 1%nat, (stop Wedged), h. split; [|reflexivity]. cbn. rewrite E. reflexivity.
  - destruct (IH (length h) (alloc h o)) as (m & t' & h' & Q & R). exists (S m), t', h'. split; [exact Q|exact R].
Qed.
Lemma run_steps : forall A n (t : act A) h, run t h = let (t', h') := steps n t h in run t' h'.
Proof.
  intros A. induction n as [|n IH]; intros t h; [reflexivity|]. cbn [steps]. rewrite <- (IH) || idtac. destruct (step t h) as [t1 h1] eqn:E. rewrite <- IH. clear IH.
  destruct t as [a|s|l x k|l k|l x v k|o k]; cbn in *; try (injection E as <- <-; reflexivity).
  - destruct (hget l h) as [[m fs]|]; [destruct (assoc x fs)|]; injection E as <- <-; reflexivity.
  - destruct (hget l h) as [[m fs]|]; injection E as <- <-; reflexivity.
  - destruct (hget l h) as [[m fs]|]; [destruct (assoc x fs)|]; injection E as <- <-; reflexivity.
Qed.
(** A goroutine that would finish alone finishes. *)
Lemma independent_ends : forall A (same : nat -> A -> A -> Prop) owns ts0 h, independent same owns ts0 h ->
  forall i t0 a g, nth_error ts0 i = Some t0 -> run t0 h = Done (a, g) ->
  exists n, forall sched, (n <= turns i sched)%nat -> exists a', nth_error (fst (together sched ts0 h)) i = Some (ret a') /\ same (length h) a' a.
Proof.
  intros A same owns ts0 h I i t0 a g E R. destruct (finishes A t0 h) as (n & t' & h' & ST & F). rewrite R in F. assert (t' = ret a) as ->.
  { destruct t' as [b|s| | | |]; cbn in F; try contradiction; [congruence|destruct s; discriminate]. }
  exists n. intros sched L. specialize (I sched). destruct (together sched ts0 h) as [ts h2]. destruct I as (I & _ & _). destruct (I i t0 E) as (t & E1 & AL & _). cbn [fst].
  replace (turns i sched) with (n + (turns i sched - n))%nat in AL by lia. rewrite steps_add, ST, steps_done in AL by eauto. cbn [fst] in AL. destruct t as [b| | | | |]; try contradiction. exists b. split; [exact E1|exact AL].
Qed.
(** Results that hold no addresses are the same. *)
Lemma independent_more : forall A (same same' : nat -> A -> A -> Prop) owns ts0 h, independent same owns ts0 h ->
  (forall t0 a g a', In t0 ts0 -> run t0 h = Done (a, g) -> same (length h) a' a -> same' (length h) a' a) -> independent same' owns ts0 h.
Proof.
  intros A same same' owns ts0 h I M sched. specialize (I sched). destruct (together sched ts0 h) as [ts h2]. destruct I as (I & R). split; [|exact R].
  intros i t0 E. destruct (I i t0 E) as (t & E1 & AL & OW). exists t. split; [exact E1|]. split; [|exact OW].
  pose proof (run_steps A (turns i sched) t0 h) as RS. destruct (steps (turns i sched) t0 h) as [u g]. cbn [fst] in *. destruct t as [b|s| | | |], u as [a|s'| | | |]; try exact AL. cbn in *.
  eapply M; [eapply nth_error_In; exact E|exact RS|exact AL].
Qed.
Lemma shape_plain : forall m v, plain v = true -> forall v', shape m v' = shape m v -> v' = v.
Proof.
  intros m. apply (val_all (fun v => plain v = true -> forall v', shape m v' = shape m v -> v' = v)).
  - intros n fs IH P v' H. destruct v' as [| | | |k [l|]|k l|k fs'| | | | | | | |]; try discriminate. cbn in H. injection H as -> H. f_equal. unfold plain in P. cbn [within] in P. revert fs' H.
    induction IH as [|[x v] fs Hv _ IH]; intros [|[x' v'] fs'] H; try discriminate; [reflexivity|]. cbn in *. apply andb_prop in P. injection H as -> H1 H2. f_equal; [f_equal; apply Hv; tauto|apply IH; tauto].
  - intros r x IH P v' H. destruct v' as [| | | |k [l|]|k l|k fs'| |r'| | | | | |]; try discriminate. cbn in H. injection H as H ->. f_equal. apply IH; [exact P|exact H].
  - intros v. destruct v as [t z|b|o b|rs|n [l|]|n l|n fs|f|r m0|f| |e|s|t a|s]; try exact I; intros P v' H; try discriminate; destruct v' as [| | | |k [l'|]|k l'|k fs'| |r'| | | | | |]; try discriminate; exact H.
Qed.
Lemma shapes_plain : forall m vs, forallb plain vs = true -> forall vs', shapes m vs' = shapes m vs -> vs' = vs.
Proof.
  intros m. induction vs as [|v vs IH]; intros P [|v' vs'] H; try discriminate; [reflexivity|]. cbn in *. apply andb_prop in P. injection H as H1 H2. f_equal; [apply (shape_plain m); tauto|apply IH; tauto].
Qed.
Definition same_answers (m : nat) (l l' : list (list val)) : Prop := map (shapes m) l = map (shapes m) l'.
Lemma answers_plain : forall m l, Forall (fun vs => forallb plain vs = true) l -> forall l', same_answers m l' l -> l' = l.
Proof. intros m l P. induction P as [|vs l V _ IH]; intros [|vs' l'] H; try discriminate; [reflexivity|]. cbn in H. injection H as H1 H2. f_equal; [now apply (shapes_plain m)|now apply IH]. Qed.

(** * Goroutines that call functions *)
Lemma jobs_rel : forall W S owns jobs, (forall i j, nth_error jobs i = Some j -> job_ok W S (owns i) j) -> forall i t, nth_error (map tree jobs) i = Some t -> trel W vsrel (home S owns i) t t.
Proof.
  intros W S owns jobs J i t E. rewrite nth_error_map in E. destruct (nth_error jobs i) as [j|] eqn:EJ; [|discriminate]. injection E as <-. destruct (J i j EJ) as [T A]. unfold tree. apply call_rel; [exact T|].
  clear - A. induction (j_args j) as [|v vs IH]; [constructor|]. cbn in A. apply andb_prop in A. constructor; [|apply IH; tauto]. apply (within_rel (fun k => S k || owns i k)); [|tauto]. intros l L. split; [reflexivity|exact L].
Qed.
Theorem jobs_independent : forall W S owns h jobs, constant S W h -> parted S owns h -> (forall i j, nth_error jobs i = Some j -> job_ok W S (owns i) j) -> independent same_shapes owns (map tree jobs) h.
Proof.
  intros W S owns h jobs C P J. apply (sim _ vsrel W S owns h (map tree jobs) C P (jobs_rel W S owns jobs J)). intros w M a a' R. symmetry. exact (shapes_rel _ w M a a' R).
Qed.

(** * Clients: what they do in one go *)
Section Run.
  Variable p : program.
  Variables n d : nat.
  Lemma run_method : forall m it vs h, run (tmethod p n d m it vs) h = method p n d m it vs h.
  Proof. intros. apply call_same. Qed.
  Notation sets tconf conf := (forall it c h, run (tconf it c) h = (h' <== conf it c h ;; Done ([], h'))).
  Lemma run_use : forall (A : api) tconf conf, sets tconf conf -> forall it (u : use (Cfg A)) h, run (tuse p n d tconf it u) h = go_use A p n d conf it u h.
  Proof. intros A tconf conf H it u h. destruct u; cbn [tuse go_use]; try apply run_method. apply H. Qed.
  Lemma run_uses : forall (A : api) tconf conf, sets tconf conf -> forall (us : list (use (Cfg A))) it h, obind (run (tuses p n d tconf us it) h) (fun r => Done (fst r)) = go_uses A p n d conf us it h.
  Proof.
    intros A tconf conf H. induction us as [|u us IH]; intros it h; [reflexivity|]. cbn [tuses go_uses]. rewrite run_bind, (run_use A tconf conf H). destruct (go_use A p n d conf it u h) as [[vs h1]| | |]; try reflexivity. cbn [obind fst snd].
    rewrite run_bind, <- IH. destruct (run (tuses p n d tconf us it) h1) as [[l h2]| | |]; reflexivity.
  Qed.
  Lemma run_client : forall (A : api) tconf conf, sets tconf conf -> forall t (us : list (use (Cfg A))) h, obind (run (tgo_client p n d tconf t us) h) (fun r => Done (fst r)) = go_client A p n d conf t us h.
  Proof.
    intros A tconf conf H t us h. unfold tgo_client, go_client. rewrite run_bind, call_same. destruct (call _ _ _ _ _ _) as [[vs h1]| | |]; try reflexivity. cbn [obind fst snd]. destruct vs as [|it [|]]; try reflexivity. now apply run_uses.
  Qed.
  Lemma run_graphemes_config : sets (tgraphemes_config p n d) (CodeGraphemes.graphemes_config p n d).
  Proof.
    intros it c h. unfold tgraphemes_config, CodeGraphemes.graphemes_config. rewrite run_bind, (exec_same p (tcall p n d) (call p n d) n (call_same p n d)). destruct (exec _ _ _ _ _ _) as [[[? ?] ?]| | |]; reflexivity.
  Qed.
  Lemma run_words_config : forall nils, sets (twords_config p n d nils) (words_any_config nils p n d).
  Proof.
    intros nils it [[j|]|f] h; unfold twords_config, words_any_config, CodeWords.words_config; rewrite run_bind.
    - rewrite (exec_same p (tcall p n d) (call p n d) n (call_same p n d)). destruct (exec _ _ _ _ _ _) as [[[? ?] ?]| | |]; reflexivity.
    - rewrite (exec_same p (tcall p n d) (call p n d) n (call_same p n d)). destruct (exec _ _ _ _ _ _) as [[[? ?] ?]| | |]; reflexivity.
    - rewrite run_method. destruct (method _ _ _ _ _ _ _) as [[? ?]| | |]; reflexivity.
  Qed.
  Lemma run_it_uses : forall us it h, obind (run (tuses p n d (tsplit_config p n d) us it) h) (fun r => Done (fst r)) = go_it_uses p n d us it h.
  Proof.
    induction us as [|u us IH]; intros it h; [reflexivity|]. cbn [tuses go_it_uses]. rewrite run_bind.
    assert (E : run (tuse p n d (tsplit_config p n d) it u) h = go_it_use p n d it u h) by (destruct u; apply run_method). rewrite E. destruct (go_it_use p n d it u h) as [[vs h1]| | |]; try reflexivity. cbn [obind fst snd].
    rewrite run_bind, <- IH. destruct (run (tuses p n d _ us it) h1) as [[l h2]| | |]; reflexivity.
  Qed.
End Run.
Lemma client_same : forall pg pw ps pp pi nils n d c h, obind (run (tclient pg pw ps pp pi nils n d c) h) (fun r => Done (fst r)) = SpecShare.alone pg pw ps pp pi nils n d c (uses c) h.
Proof.
  intros pg pw ps pp pi nils n d c h. destruct c as [t us|t us|t us|t us|f t us]; cbn [tclient SpecShare.alone uses]; rewrite firstn_all.
  - apply (run_client pg n d graphemes_api). apply run_graphemes_config.
  - apply (run_client pw n d words_any). apply run_words_config.
  - apply (run_client ps n d sentences_api). intros it [].
  - apply (run_client pp n d phrases_api). intros it [].
  - unfold go_it_client. rewrite run_bind, call_same. destruct (call _ _ _ _ _ _) as [[vs h1]| | |]; try reflexivity. cbn [obind fst snd]. destruct vs as [|it [|]]; try reflexivity. apply run_it_uses.
Qed.

(** * Clients: with other addresses *)
Section Rel.
  Variable W : string -> bool.
  Variable p : program.
  Variables n d : nat.
  Hypothesis T : tame W p = true.
  Definition arel (w : world) : list (list val) -> list (list val) -> Prop := Forall2 (vsrel w).
  Lemma arel_same : forall m (w : world), (forall a b, w a b -> Nat.min a m = Nat.min b m) -> forall l l', arel w l l' -> same_answers m l' l.
  Proof. intros m w M l l' H. induction H as [|vs vs' l l' V _ IH]; [reflexivity|]. unfold same_answers in *. cbn. rewrite IH. f_equal. symmetry. exact (shapes_rel m w M vs vs' V). Qed.
  Lemma method_rel : forall w m it it' vs vs', vrel w it it' -> vsrel w vs vs' -> trel W vsrel w (tmethod p n d m it vs) (tmethod p n d m it' vs').
  Proof. intros. apply call_rel; [exact T|]. now constructor. Qed.
  Definition settles {C} (conf : val -> C -> act (list val)) : Prop := forall w it it' c, vrel w it it' -> trel W vsrel w (conf it c) (conf it' c).
  Lemma use_rel : forall C (conf : val -> C -> act (list val)), settles conf -> forall w it it' u, vrel w it it' -> trel W vsrel w (tuse p n d conf it u) (tuse p n d conf it' u).
  Proof. intros C conf S w it it' u V. destruct u; cbn [tuse]; try (apply method_rel; [exact V|repeat constructor]). now apply S. Qed.
  Lemma uses_rel : forall C (conf : val -> C -> act (list val)), settles conf -> forall us w it it', vrel w it it' -> trel W arel w (tuses p n d conf us it) (tuses p n d conf us it').
  Proof.
    intros C conf S. induction us as [|u us IH]; intros w it it' V; cbn [tuses]; [repeat constructor|]. eapply trel_bind; [apply use_rel; [exact S|exact V]|]. intros w1 M1 vs vs' VS.
    eapply (trel_bind _ _ _ arel); [apply IH; eapply vrel_more; eassumption|]. intros w2 M2 l l' L. constructor. constructor; [eapply vsrel_more; eassumption|exact L].
  Qed.
  Lemma made_rel : forall C (conf : val -> C -> act (list val)), settles conf -> forall us w m m', trel W vsrel w m m' ->
    trel W arel w (vs <~~ m ;; match vs with [it] => tuses p n d conf us it | _ => stop Wedged end) (vs <~~ m' ;; match vs with [it] => tuses p n d conf us it | _ => stop Wedged end).
  Proof.
    intros C conf S us w m m' H. eapply trel_bind; [exact H|]. intros w1 M1 vs vs' V. destruct V as [|v v' vs vs' V V2]; [constructor|]. destruct V2; [|constructor]. now apply uses_rel.
  Qed.
  Lemma text_rel : forall w t, vrel w (text_val t) (text_val t). Proof. intros w t. reflexivity. Qed.
  Lemma client_rel : forall C (conf : val -> C -> act (list val)), settles conf -> forall t us w, trel W arel w (tgo_client p n d conf t us) (tgo_client p n d conf t us).
  Proof. intros C conf S t us w. unfold tgo_client. apply made_rel; [exact S|]. apply call_rel; [exact T|]. repeat constructor. Qed.
  Lemma exec_settles : forall s, forallb W (assigned s) = true -> forall w e e', erel w e e' ->
    trel W vsrel w (_ <~~ texec p (tcall p n d) n s e ;; ret []) (_ <~~ texec p (tcall p n d) n s e' ;; ret []).
  Proof.
    intros s A w e e' E. eapply trel_bind; [apply exec_rel; [|intros; now apply call_rel|exact A|exact E]|].
    - unfold tame in T. apply andb_prop in T. tauto.
    - intros. repeat constructor.
  Qed.
  Lemma graphemes_settles : W "AnsiEscapeSequences" = true -> W "AnsiEscapeSequences8Bit" = true -> settles (tgraphemes_config p n d).
  Proof. intros W1 W2 w it it' c V. apply exec_settles; [cbn; rewrite W1, W2; reflexivity|]. repeat constructor; exact V. Qed.
  Lemma words_settles : forall nils, settles (twords_config p n d nils).
  Proof.
    intros nils w it it' [[j|]|f] V; unfold twords_config.
    - apply exec_settles; [reflexivity|]. repeat constructor; exact V.
    - apply exec_settles; [reflexivity|]. repeat constructor; exact V.
    - eapply trel_bind; [apply method_rel; [exact V|repeat constructor]|]. intros. repeat constructor.
  Qed.
  Lemma no_settles : settles tno_config. Proof. intros w it it' []. Qed.
  Lemma split_settles : settles (tsplit_config p n d). Proof. intros w it it' f V. apply method_rel; [exact V|repeat constructor]. Qed.
End Rel.

(** * The packages *)
Definition all_fields (x : string) : bool := true.
Lemma pg_tame : tame all_fields ProgGraphemes.pg = true. Proof. vm_compute. reflexivity. Qed.
Lemma ps_tame : tame all_fields ProgSentences.ps = true. Proof. vm_compute. reflexivity. Qed.
Lemma pp_tame : tame all_fields ProgPhrases.pp = true. Proof. vm_compute. reflexivity. Qed.
Lemma pi_tame : tame all_fields ProgOther.pi_ = true. Proof. vm_compute. reflexivity. Qed.
Lemma pw_tame : tame (fun x => negb (joiner_field x)) ProgWords.pw = true. Proof. vm_compute. reflexivity. Qed.
Lemma tame_more : forall (W W' : string -> bool) p, (forall x, W x = true -> W' x = true) -> tame W p = true -> tame W' p = true.
Proof.
  intros W W' p M H. unfold tame in *. apply andb_prop in H. apply andb_true_intro. split; [tauto|]. rewrite forallb_forall. destruct H as [_ H]. rewrite forallb_forall in H. intros x I. apply M, H, I.
Qed.
Lemma tame_extend : forall W p fs, tame W p = true -> forallb W (flat_map (fun q => flat_map assigned (fd_body (snd q))) fs) = true -> tame W (extend p fs) = true.
Proof.
  intros W p fs H F. unfold tame, program_assigned, extend in *. cbn [p_globals p_funs]. apply andb_prop in H. apply andb_true_intro. split; [tauto|]. rewrite flat_map_app, forallb_app. apply andb_true_intro. split; [tauto|exact F].
Qed.
Section Packages.
  Import ProgGraphemes ProgSentences ProgPhrases ProgWords ProgOther.
  Lemma tclient_rel : forall nils n d c w, trel all_fields arel w (tclient pg pw ps pp pi_ nils n d c) (tclient pg pw ps pp pi_ nils n d c).
  Proof.
    intros nils n d c w. destruct c as [t us|t us|t us|t us|f t us]; cbn [tclient].
    - apply client_rel; [exact pg_tame|]. apply graphemes_settles; [exact pg_tame|reflexivity|reflexivity].
    - assert (PW : tame all_fields pw = true) by (eapply tame_more; [|exact pw_tame]; reflexivity). apply client_rel; [exact PW|]. apply words_settles. exact PW.
    - apply client_rel; [exact ps_tame|]. apply no_settles.
    - apply client_rel; [exact pp_tame|]. apply no_settles.
    - apply made_rel; [exact pi_tame|apply split_settles; exact pi_tame|]. apply call_rel; [exact pi_tame|]. repeat constructor.
  Qed.
  Lemma model_plain : forall A us o (it : It A) l, model_uses A us o it = Ok l -> Forall (fun vs => forallb plain vs = true) l.
  Proof.
    intros A. induction us as [|u us IH]; intros o it l H; cbn [model_uses] in H; [injection H as <-; constructor|].
    destruct (model_use A o it u) as [[[vs o'] it']| |] eqn:E; try discriminate. cbn [bind] in H. destruct (model_uses A us o' it') as [r| |] eqn:Q; try discriminate. injection H as <-. constructor; [|eapply IH; exact Q].
    destruct u; cbn [model_use] in E; try (injection E as <- _ _; reflexivity); unfold bind in E;
      match goal with _ : match ?x with _ => _ end = _ |- _ => destruct x as [y| |]; try discriminate; try destruct y; injection E as <- _ _; reflexivity end.
  Qed.
  Lemma it_plain : forall us o it l, it_uses us o it = Ok l -> Forall (fun vs => forallb plain vs = true) l.
  Proof.
    induction us as [|u us IH]; intros o it l H; cbn [it_uses] in H; [injection H as <-; constructor|].
    destruct (it_use o it u) as [[[vs o'] it']| |] eqn:E; try discriminate. cbn [bind] in H. destruct (it_uses us o' it') as [r| |] eqn:Q; try discriminate. injection H as <-. constructor; [|eapply IH; exact Q].
    destruct u; cbn [it_use] in E; try (injection E as <- _ _; reflexivity); unfold bind in E.
    - destruct (Iterators.Next it) as [? [b| |]]; try discriminate. injection E as <- _ _. reflexivity.
    - destruct (Iterators.Value it); try discriminate. injection E as <- _ _. reflexivity.
    - destruct (Iterators.First it); try discriminate. injection E as <- _ _. reflexivity.
  Qed.
  Lemma alone_plain : forall nils n d max c h l, SpecShare.proper_client max c -> (Z.of_nat max < 2 ^ 62)%Z -> (2 * max + 2 <= n)%nat -> (7 <= d)%nat ->
    SpecShare.alone pg pw ps pp pi_ nils n d c (uses c) h = Done l -> Forall (fun vs => forallb plain vs = true) l.
  Proof.
    intros nils n d max c h l (str & P) M R K E. destruct c as [t us|t us|t us|t us|f t us]; cbn [SpecShare.alone uses] in E; rewrite firstn_all in E.
    - destruct (CodeGraphemes.graphemes_is_model str max n d t us h (proj1 P) (proj2 P) M R ltac:(lia)) as (l' & Q & E'). rewrite E in E'. injection E' as ->. eapply model_plain. exact Q.
    - rewrite (CodeWordsAny.words_any_is_model nils str max n d t us h (proj1 P) (proj2 P) M R K) in E. destruct (model_client words_any t us) as [l'| |] eqn:Q; try discriminate. injection E as ->. eapply model_plain. exact Q.
    - destruct (CodeSentences.sentences_is_model str max n d t us h (proj1 P) (proj2 P) M R ltac:(lia)) as (l' & Q & E'). rewrite E in E'. injection E' as ->. eapply model_plain. exact Q.
    - destruct (CodePhrases.phrases_is_model str max n d t us h (proj1 P) (proj2 P) M R ltac:(lia)) as (l' & Q & E'). rewrite E in E'. injection E' as ->. eapply model_plain. exact Q.
    - rewrite (CodeOther.iterators_is_model str max n d f t us h (proj1 P) (proj1 (proj2 P)) (proj2 (proj2 P)) M ltac:(lia)) in E. destruct (it_client f t us) as [l'| |] eqn:Q; try discriminate. injection E as ->. eapply it_plain. exact Q.
  Qed.
  Theorem clients_independent : forall nils n d max cs h, Forall (SpecShare.proper_client max) cs -> (Z.of_nat max < 2 ^ 62)%Z -> (2 * max + 2 <= n)%nat -> (7 <= d)%nat ->
    independent (fun _ => eq) (fun _ _ => false) (map (tclient pg pw ps pp pi_ nils n d) cs) h.
  Proof.
    intros nils n d max cs h P M R K. apply (independent_more _ same_answers).
    - apply (sim _ arel all_fields (fun _ => false)).
      + intros l L. discriminate.
      + intros i l L. discriminate.
      + intros i t E. rewrite nth_error_map in E. destruct (nth_error cs i) as [c|]; [|discriminate]. injection E as <-. apply tclient_rel.
      + intros w MN a a' A. exact (arel_same _ w MN a a' A).
    - intros t0 a g a' I RN S. apply in_map_iff in I. destruct I as (c & <- & I). rewrite Forall_forall in P. apply (answers_plain (length h)); [|exact S].
      apply (alone_plain nils n d max c h); [now apply P|exact M|exact R|exact K|]. rewrite <- client_same, RN. reflexivity.
  Qed.
  Theorem clients_answers : forall nils n d max cs h, Forall (SpecShare.proper_client max) cs -> (Z.of_nat max < 2 ^ 62)%Z -> (2 * max + 2 <= n)%nat -> (7 <= d)%nat ->
    forall k c l, nth_error cs k = Some c -> SpecShare.alone pg pw ps pp pi_ nils n d c (uses c) h = Done l ->
    exists m, forall sched, (m <= turns k sched)%nat -> nth_error (fst (together sched (map (tclient pg pw ps pp pi_ nils n d) cs) h)) k = Some (ret l).
  Proof.
    intros nils n d max cs h P M R K k c l E A. rewrite <- client_same in A. destruct (run (tclient pg pw ps pp pi_ nils n d c) h) as [[l' g]| | |] eqn:RN; try discriminate. injection A as ->.
    destruct (independent_ends _ _ _ _ _ (clients_independent nils n d max cs h P M R K) k (tclient pg pw ps pp pi_ nils n d c) l g) as (m & H); [rewrite nth_error_map, E; reflexivity|exact RN|].
    exists m. intros sched L. destruct (H sched L) as (l' & E1 & ->). exact E1.
  Qed.
End Packages.
(** * Joiners *)
Lemma joiners_constant : forall S h, (forall l, S l = true -> is_joiners h l) -> constant S (fun x => negb (joiner_field x)) h.
Proof. intros S h H l L. destruct (H l L) as (m & d & E). exists "Joiners", [("Middle", VRunes m); ("Leading", VRunes d)]. split; [exact E|]. repeat constructor. Qed.
Theorem joiners_independent : forall fs n d S owns h (calls : list (fid * list val)),
  forallb (fun x => negb (joiner_field x)) (flat_map (fun q => flat_map assigned (fd_body (snd q))) fs) = true ->
  (forall l, S l = true -> is_joiners h l) -> parted S owns h ->
  (forall i f vs, nth_error calls i = Some (f, vs) -> forallb (within (fun k => S k || owns i k)) vs = true) ->
  independent same_shapes owns (map (fun q => tcall (extend ProgWords.pw fs) n d (fst q) (snd q)) calls) h.
Proof.
  intros fs n d S owns h calls F J P A. pose (job_of := fun q : fid * list val => {| j_program := extend ProgWords.pw fs; j_rounds := n; j_depth := d; j_fun := fst q; j_args := snd q |}).
  replace (map (fun q => tcall (extend ProgWords.pw fs) n d (fst q) (snd q)) calls) with (map tree (map job_of calls)) by (rewrite map_map; reflexivity).
  apply (jobs_independent (fun x => negb (joiner_field x)) S); [now apply joiners_constant|exact P|]. intros i j E. rewrite nth_error_map in E. destruct (nth_error calls i) as [[f vs]|] eqn:EI; [|discriminate]. injection E as <-. split; [|exact (A i f vs EI)].
  apply tame_extend; [exact pw_tame|exact F].
Qed.
