(** sentences.Iterator: one Next cuts off exactly what the split function says. *)
From Verif Require Import Base ListFacts Trie Engine EngineMore Lk LookupFacts TableFacts TableSentences SpecIter Drive SentencesEngine.
From Verif Require Sentences.
Import Sentences.
Local Open Scope N_scope.

Lemma is_lor_false : forall x a b, is x (N.lor a b) = false -> is x a = false /\ is x b = false.
Proof.
  intros x a b. unfold is. rewrite !negb_false_iff, !N.eqb_eq. rewrite N.land_lor_distr_r. apply N.lor_eq_0_iff.
Qed.
Lemma is_lor_true : forall x a b, is x a = true -> is x (N.lor a b) = true.
Proof.
  intros x a b H. destruct (is x (N.lor a b)) eqn:E; [reflexivity|]. apply is_lor_false in E. destruct E; congruence.
Qed.

(** Property values that the rules cannot tell apart when they sit in one of the "skipped" history variables. *)
Definition inertBits : N := N.lor _SATerm (N.lor _Close _ParaSep).
Definition eqi (a b : N) : Prop := a = b \/ (is a inertBits = false /\ is b inertBits = false).
Definition s_U (h1 h2 : shist) : Prop :=
  h_lastEx h1 = h_lastEx h2
  /\ (h_lastLastEx h1 = h_lastLastEx h2 \/ is (h_lastEx h1) _ATerm = false)
  /\ eqi (h_lastExSp h1) (h_lastExSp h2) /\ eqi (h_lastExClose h1) (h_lastExClose h2)
  /\ eqi (h_lastExSpClose h1) (h_lastExSpClose h2) /\ eqi (h_lastExParaSepSpClose h1) (h_lastExParaSepSpClose h2).
Definition s_R (st1 st2 : sst) : Prop :=
  ss_current st1 = ss_current st2 /\ s_U (s_update (ss_current st1) (ss_hist st1)) (s_update (ss_current st2) (ss_hist st2)).

Lemma eqi_refl : forall a, eqi a a.
Proof. left. reflexivity. Qed.
Lemma eqi_saterm : forall a b, eqi a b -> is a _SATerm = is b _SATerm.
Proof. intros a b [->|[H1 H2]]; [reflexivity|]. apply is_lor_false in H1, H2. destruct H1 as [-> _], H2 as [-> _]. reflexivity. Qed.
Lemma eqi_aterm : forall a b, eqi a b -> is a _ATerm = is b _ATerm.
Proof.
  intros a b [->|[H1 H2]]; [reflexivity|]. apply is_lor_false in H1, H2. destruct H1 as [H1 _], H2 as [H2 _].
  apply is_lor_false in H1, H2. destruct H1 as [_ ->], H2 as [_ ->]. reflexivity.
Qed.
Lemma eqi_close : forall a b, eqi a b -> is a _Close = is b _Close.
Proof.
  intros a b [->|[H1 H2]]; [reflexivity|]. apply is_lor_false in H1, H2. destruct H1 as [_ H1], H2 as [_ H2].
  apply is_lor_false in H1, H2. destruct H1 as [-> _], H2 as [-> _]. reflexivity.
Qed.
Lemma eqi_para : forall a b, eqi a b -> is a _ParaSep = is b _ParaSep.
Proof.
  intros a b [->|[H1 H2]]; [reflexivity|]. apply is_lor_false in H1, H2. destruct H1 as [_ H1], H2 as [_ H2].
  apply is_lor_false in H1, H2. destruct H1 as [_ ->], H2 as [_ ->]. reflexivity.
Qed.

Lemma s_update_U : forall last h1 h2, s_U h1 h2 -> s_U (s_update last h1) (s_update last h2).
Proof.
  intros last h1 h2 (H1 & H2 & H3 & H4 & H5 & H6). unfold s_U, s_update.
  cbn [h_lastEx h_lastLastEx h_lastExSp h_lastExClose h_lastExSpClose h_lastExParaSepSpClose].
  rewrite <- H1. set (lx := if negb (is last _Ignore) then last else h_lastEx h1).
  assert (E3 : eqi (if negb (is lx _Sp) then lx else h_lastExSp h1) (if negb (is lx _Sp) then lx else h_lastExSp h2))
    by (destruct (negb (is lx _Sp)); [apply eqi_refl | exact H3]).
  assert (E4 : eqi (if negb (is lx _Close) then lx else h_lastExClose h1) (if negb (is lx _Close) then lx else h_lastExClose h2))
    by (destruct (negb (is lx _Close)); [apply eqi_refl | exact H4]).
  revert E3. generalize (if negb (is lx _Sp) then lx else h_lastExSp h1), (if negb (is lx _Sp) then lx else h_lastExSp h2).
  intros a3 b3 E3.
  assert (E5 : eqi (if negb (is a3 _Close) then a3 else h_lastExSpClose h1) (if negb (is b3 _Close) then b3 else h_lastExSpClose h2))
    by (rewrite (eqi_close _ _ E3); destruct (negb (is b3 _Close)); [exact E3 | exact H5]).
  revert E5. generalize (if negb (is a3 _Close) then a3 else h_lastExSpClose h1), (if negb (is b3 _Close) then b3 else h_lastExSpClose h2).
  intros a5 b5 E5.
  assert (E6 : eqi (if negb (is a5 _ParaSep) then a5 else h_lastExParaSepSpClose h1) (if negb (is b5 _ParaSep) then b5 else h_lastExParaSepSpClose h2))
    by (rewrite (eqi_para _ _ E5); destruct (negb (is b5 _ParaSep)); [exact E5 | exact H6]).
  repeat split; auto. unfold lx. destruct (is last _Ignore); cbn [negb]; auto.
Qed.

Lemma s_rules_U : forall data b current last h1 h2 pos w, s_U h1 h2 ->
  s_rules data b current last h1 pos w = s_rules data b current last h2 pos w.
Proof.
  intros data b current last h1 h2 pos w (H1 & H2 & H3 & H4 & H5 & H6).
  unfold s_rules, s_rules_tail. rewrite <- H1, (eqi_aterm _ _ H5), (eqi_saterm _ _ H5), (eqi_saterm _ _ H4), (eqi_saterm _ _ H6).
  destruct H2 as [-> | ->]; [reflexivity|]. rewrite !andb_false_r, !andb_false_l. reflexivity.
Qed.

Lemma s_sim : forall st1 st2 v d w b, s_R st1 st2 -> d <> [] -> e_lk SE d = Ok (v, w) -> w <> 0%nat ->
  dec_rel SE s_R (e_rules SE st1 v d w b) (e_rules SE st2 v d w b).
Proof.
  intros st1 st2 v d w b (Hc & HU) Hd Hl Hw. change (e_rules SE) with s_erules.
  unfold s_erules. cbv zeta. rewrite <- (s_rules_U d b v (ss_current st2) _ _ 0 w HU). rewrite <- Hc.
  destruct (s_rules_total d b v (ss_current st1) (ss_hist st1) w Hd Hl Hw) as (dec & Hr & _). rewrite Hr. cbn [bind].
  destruct dec as [adv|[|q]|]; cbn [dec_rel]; auto. split; [reflexivity|]. split; [reflexivity|].
  cbn [ss_current ss_hist]. apply s_update_U. rewrite <- Hc in HU. exact HU.
Qed.

Definition s_Vr (v : N) : Prop := v = _Upper \/ v = _Lower \/ v = _Numeric \/ v = _Sp.
Lemma s_run0 : forall b s, isASCIIAlphanumericOrSpace b = true ->
  exists v, e_lk0 SE (b :: s) = Ok (v, 1%nat) /\ e_lk SE (b :: s) = Ok (v, 1%nat) /\ s_Vr v.
Proof.
  intros b s H. change (e_lk0 SE) with sentences_lookup. change (e_lk SE) with sentences_lookup.
  assert (Hlt : b < 0x80).
  { unfold isASCIIAlphanumericOrSpace in H.
    repeat (apply orb_prop in H; destruct H as [H|H]); try (apply andb_prop in H; destruct H as [A B]; apply N.leb_le in A, B; lia).
    apply N.eqb_eq in H. lia. }
  assert (C : forallb (fun b => negb (isASCIIAlphanumericOrSpace b)
     || match sentences_lookup [b] with Ok (v, 1%nat) => (v =? _Upper) || (v =? _Lower) || (v =? _Numeric) || (v =? _Sp) | _ => false end) (upto 0 128) = true)
    by (vm_compute; reflexivity).
  rewrite forallb_forall in C. specialize (C b (in_upto 0 128 b ltac:(simpl; lia))). rewrite H in C. cbn [negb orb] in C.
  destruct (sentences_lookup [b]) as [[v [|[|w]]]| |] eqn:E; try discriminate. exists v.
  destruct (s_lk [b] ltac:(discriminate)) as (v' & w' & Hl & _ & Hst). rewrite E in Hl. injection Hl as <- <-.
  assert (Hv : s_Vr v). { unfold s_Vr. rewrite !orb_true_iff, !N.eqb_eq in C. tauto. }
  specialize (Hst ltac:(lia) s). cbn [app] in Hst. auto.
Qed.

Lemma s_runj : forall v v' b s, s_Vr v -> s_Vr v' -> exists st',
  e_rules SE (e_init SE v) v' (b :: s) 1 true = Ok (EJoin 1 st') /\ s_R st' (e_init SE v').
Proof.
  intros v v' b s Hv Hv'. change (e_rules SE) with s_erules. unfold s_erules. cbv zeta.
  destruct Hv as [-> | [-> | [-> | ->]]], Hv' as [-> | [-> | [-> | ->]]];
    (eexists; split; [reflexivity|]; split; [reflexivity|]; split; [reflexivity|]; split; [right; reflexivity|];
     repeat split; (left; reflexivity) || (right; split; reflexivity)).
Qed.

Lemma s_FU : forall data v w, e_lk0 SE data = Ok (v, w) -> w <> 0%nat -> (w <= length data)%nat ->
  (s_mu (e_init SE v) (skipn w data) < s_fuel data)%nat.
Proof. intros data v w _ Hw Hle. unfold s_mu, s_fuel. rewrite skipn_length. destruct (ss_current (e_init SE v) =? _Lower); lia. Qed.

(** The fast path of Next as a split function. *)
Definition s_hot : splitfun := fun d atEOF =>
  let k := alnum_space_run d in
  if (length d <=? k)%nat then Ok (e_done (length d) d)
  else
    let k' := (k - 1)%nat in
    o <- splitFunc (skipn k' d) atEOF ;;
    let n := (k' + Z.to_nat (so_advance o))%nat in
    Ok (e_done n (firstn n d)).

Lemma run_forall : forall d, Forall (fun b => isASCIIAlphanumericOrSpace b = true) (firstn (alnum_space_run d) d).
Proof.
  induction d as [|b d IH]; [constructor|]. cbn [alnum_space_run]. destruct (isASCIIAlphanumericOrSpace b) eqn:E; constructor; auto.
Qed.
Lemma run_le : forall d, (alnum_space_run d <= length d)%nat.
Proof. induction d as [|b d IH]; simpl; [lia|]. destruct (isASCIIAlphanumericOrSpace b); lia. Qed.

Theorem hot_path_agrees : forall d, d <> [] -> s_hot d true = splitFunc d true.
Proof.
  intros d Hd. unfold s_hot. cbv zeta. rewrite <- (s_split_engine d).
  destruct (length d <=? alnum_space_run d)%nat eqn:EL.
  - apply Nat.leb_le in EL. pose proof (run_forall d) as HF. rewrite firstn_all2 in HF by lia.
    symmetry. apply (skip_all SE s_mu s_lk s_rules_ok s_R s_sim s_fuel s_FU _ s_Vr s_run0 s_runj); auto.
  - apply Nat.leb_gt in EL. rewrite <- s_split_engine.
    destruct (so_eof _ s_split_ok (skipn (alnum_space_run d - 1) d)) as (n & Hn & Hs); [apply skipn_nonnil; lia|].
    rewrite <- s_split_engine in Hs. rewrite Hs. cbn [bind e_done so_advance]. rewrite Nat2Z.id.
    destruct (alnum_space_run d) as [|k] eqn:Ek.
    + cbn [Nat.sub] in Hs |- *. change (skipn 0 d) with d in Hs. rewrite Hs. reflexivity.
    + replace (S k - 1)%nat with k in Hs |- * by lia. symmetry.
      apply (skip_run SE s_mu s_lk s_rules_ok s_R s_sim s_fuel s_FU _ s_Vr s_run0 s_runj); auto; [lia|].
      rewrite <- Ek. apply run_forall.
Qed.

Lemma s_next_eq : forall it, (it_pos it < length (it_data it))%nat -> exists n,
  (0 < n <= length (it_data it) - it_pos it)%nat
  /\ splitFunc (skipn (it_pos it) (it_data it)) true = Ok (e_done n (firstn n (skipn (it_pos it) (it_data it))))
  /\ Next it = Ok (true, with_pos it (it_pos it + n) (it_pos it)).
Proof.
  intros it Hlt. set (d := skipn (it_pos it) (it_data it)).
  assert (Hd : d <> []) by (apply skipn_nonnil; lia).
  assert (Hlen : length d = (length (it_data it) - it_pos it)%nat) by (unfold d; apply skipn_length).
  destruct (so_eof _ s_split_ok d Hd) as (n & Hn & Hs). exists n. split; [lia|]. split; [exact Hs|].
  pose proof (hot_path_agrees d Hd) as HH. rewrite Hs in HH. unfold s_hot in HH. cbv zeta in HH.
  unfold Next. replace (length (it_data it) <=? it_pos it)%nat with false by (symmetry; apply Nat.leb_gt; lia). cbv zeta.
  cbn [it_data it_pos it_start with_pos].
  rewrite slice_from_ok by lia. fold d. cbn [bind].
  pose proof (run_le d) as Hrl.
  destruct (length d <=? alnum_space_run d)%nat eqn:EL.
  - apply Nat.leb_le in EL. replace (length (it_data it) <=? it_pos it + alnum_space_run d)%nat with true by (symmetry; apply Nat.leb_le; lia).
    unfold e_done in HH. injection HH as HH _. assert (n = alnum_space_run d) as -> by lia. reflexivity.
  - apply Nat.leb_gt in EL. replace (length (it_data it) <=? it_pos it + alnum_space_run d)%nat with false by (symmetry; apply Nat.leb_gt; lia).
    destruct (so_eof _ s_split_ok (skipn (alnum_space_run d - 1) d)) as (m & Hm & Hsm); [apply skipn_nonnil; lia|].
    rewrite Hsm in HH. cbn [bind e_done so_advance] in HH. rewrite Nat2Z.id in HH. unfold e_done in HH. injection HH as HH _.
    assert (Hnm : n = (alnum_space_run d - 1 + m)%nat) by lia.
    rewrite skipn_length in Hm. unfold next_split. cbn [it_data it_pos it_start with_pos].
    assert (Hp2 : (if (it_pos it <? it_pos it + alnum_space_run d)%nat then (it_pos it + alnum_space_run d - 1)%nat
       else (it_pos it + alnum_space_run d)%nat) = (it_pos it + (alnum_space_run d - 1))%nat).
    { destruct (it_pos it <? it_pos it + alnum_space_run d)%nat eqn:E; [apply Nat.ltb_lt in E | apply Nat.ltb_ge in E]; lia. }
    rewrite Hp2. rewrite slice_from_ok by lia. cbn [bind].
    replace (skipn (it_pos it + (alnum_space_run d - 1)) (it_data it)) with (skipn (alnum_space_run d - 1) d)
      by (unfold d; rewrite skipn_skipn; f_equal; lia).
    rewrite Hsm. cbn [bind e_done so_err so_advance].
    replace (Z.of_nat m <=? 0)%Z with false by (symmetry; apply Z.leb_gt; lia). rewrite Nat2Z.id.
    replace (length (it_data it) <? it_pos it + (alnum_space_run d - 1) + m)%nat with false by (symmetry; apply Nat.ltb_ge; lia).
    rewrite Hnm. unfold with_pos. cbn [it_data]. do 3 f_equal. lia.
Qed.

Lemma s_next_ok : next_ok it_data it_pos it_start splitFunc (fun _ => True) Next Value.
Proof.
  split.
  - intros it _ H. unfold Next. apply Nat.leb_le in H. rewrite H. reflexivity.
  - intros it _ H. destruct (s_next_eq it H) as (n & Hn & Hs & Hx).
    exists n, (with_pos it (it_pos it + n) (it_pos it)). repeat split; auto; lia.
  - reflexivity.
Qed.
