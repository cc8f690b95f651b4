(** phrases.Iterator: one Next cuts off exactly what the split function says. *)
From Verif Require Import Base ListFacts Trie Engine EngineMore Lk LookupFacts TableFacts TablePhrases SpecIter Drive PhrasesEngine.
From Verif Require Phrases.
Import Phrases.
Local Open Scope N_scope.

Lemma is_lor_false : forall x a b, is x (N.lor a b) = false -> is x a = false /\ is x b = false.
Proof.
  intros x a b. unfold is. rewrite !negb_false_iff, !N.eqb_eq. rewrite N.land_lor_distr_r. apply N.lor_eq_0_iff.
Qed.

Definition midBits : N := N.lor (N.lor _MidLetter _MidNumLetQ) (N.lor _DoubleQuote (N.lor _MidNum _MidNumLetQ)).
Definition p_upd (st : pst) : N * N :=
  let last := ps_current st in
  (if negb (is last _Ignore) then last else ps_lastEx st, if negb (is last _Ignore) then ps_lastEx st else ps_lastLastEx st).
Definition p_U (x y : N * N) : Prop := fst x = fst y /\ (snd x = snd y \/ is (fst x) midBits = false).
Definition p_R (st1 st2 : pst) : Prop :=
  ps_current st1 = ps_current st2 /\ ps_ri st1 = ps_ri st2 /\ p_U (p_upd st1) (p_upd st2).

Lemma p_rules_ll : forall current last lastEx l1 l2 ri w after b, l1 = l2 \/ is lastEx midBits = false ->
  p_rules current last lastEx l1 ri w after b = p_rules current last lastEx l2 ri w after b.
Proof.
  intros current last lastEx l1 l2 ri w after b [->|H]; [reflexivity|]. unfold midBits in H.
  apply is_lor_false in H. destruct H as [H1 H]. apply is_lor_false in H. destruct H as [H2 H3].
  unfold p_rules. rewrite H1, H2, H3, !andb_false_r, !andb_false_l. reflexivity.
Qed.

Lemma p_sim : forall st1 st2 v d w b, p_R st1 st2 -> d <> [] -> e_lk PE d = Ok (v, w) -> w <> 0%nat ->
  dec_rel PE p_R (e_rules PE st1 v d w b) (e_rules PE st2 v d w b).
Proof.
  intros st1 st2 v d w b (Hc & Hri & HU) Hd Hl Hw. change (e_rules PE) with p_erules.
  unfold p_erules. rewrite slice_from_ok by (eapply p_lk_le; eauto). cbn [bind]. cbv zeta.
  unfold p_U, p_upd in HU. cbn [fst snd] in HU. destruct HU as [HU1 HU2].
  rewrite <- HU1, <- Hc, <- Hri. rewrite <- Hc in HU2, HU1.
  rewrite (p_rules_ll _ _ _ _ _ _ _ _ _ HU2).
  match goal with |- context [p_rules ?a ?b ?c ?d ?e ?f ?g ?h] =>
      destruct (p_rules_good a b c d e f g h) as (dec & Hr & _) end.
  rewrite Hr. cbn [bind]. destruct dec as [adv ri'| |]; cbn [dec_rel]; auto. split; [reflexivity|].
  unfold p_R. cbn [ps_current ps_ri]. split; [reflexivity|]. split; [reflexivity|].
  unfold p_U, p_upd. cbn [ps_current ps_lastEx ps_lastLastEx fst snd].
  destruct (is v _Ignore); cbn [negb]; auto.
Qed.

Definition p_Vr (v : N) : Prop := v = _ALetter \/ v = _Numeric \/ v = _WSegSpace.
Lemma p_run0 : forall b s, isASCIIAlphanumericOrSpace b = true ->
  exists v, e_lk0 PE (b :: s) = Ok (v, 1%nat) /\ e_lk PE (b :: s) = Ok (v, 1%nat) /\ p_Vr v.
Proof.
  intros b s H. change (e_lk0 PE) with phrases_lookup. change (e_lk PE) with phrases_lookup.
  assert (Hlt : b < 0x80).
  { unfold isASCIIAlphanumericOrSpace in H.
    repeat (apply orb_prop in H; destruct H as [H|H]); try (apply andb_prop in H; destruct H as [A B]; apply N.leb_le in A, B; lia).
    apply N.eqb_eq in H. lia. }
  assert (C : forallb (fun b => negb (isASCIIAlphanumericOrSpace b)
     || match phrases_lookup [b] with Ok (v, 1%nat) => (v =? _ALetter) || (v =? _Numeric) || (v =? _WSegSpace) | _ => false end) (upto 0 128) = true)
    by (vm_compute; reflexivity).
  rewrite forallb_forall in C. specialize (C b (in_upto 0 128 b ltac:(simpl; lia))). rewrite H in C. cbn [negb orb] in C.
  destruct (phrases_lookup [b]) as [[v [|[|w]]]| |] eqn:E; try discriminate. exists v.
  destruct (p_lk [b] ltac:(discriminate)) as (v' & w' & Hl & _ & Hst). rewrite E in Hl. injection Hl as <- <-.
  assert (Hv : p_Vr v). { unfold p_Vr. rewrite !orb_true_iff, !N.eqb_eq in C. tauto. }
  specialize (Hst ltac:(lia) s). cbn [app] in Hst. auto.
Qed.

Lemma p_runj : forall v v' b s, p_Vr v -> p_Vr v' -> exists st',
  e_rules PE (e_init PE v) v' (b :: s) 1 true = Ok (EJoin 1 st') /\ p_R st' (e_init PE v').
Proof.
  intros v v' b s Hv Hv'. change (e_rules PE) with p_erules. unfold p_erules. cbv zeta.
  rewrite slice_from_ok by (simpl; lia). cbn [bind].
  destruct Hv as [-> | [-> | ->]], Hv' as [-> | [-> | ->]];
    (eexists; split; [reflexivity|]; split; [reflexivity|]; split; [reflexivity|]; split; [reflexivity|right; reflexivity]).
Qed.

Lemma p_FU : forall data v w, e_lk0 PE data = Ok (v, w) -> w <> 0%nat -> (w <= length data)%nat ->
  (p_mu (e_init PE v) (skipn w data) < p_fuel data)%nat.
Proof. intros data v w _ Hw Hle. unfold p_mu, p_fuel. rewrite skipn_length. lia. Qed.

(** The fast path of Next as a split function. *)
Definition p_hot : splitfun := fun d atEOF =>
  let k := alnum_space_run d in
  if (length d <=? k)%nat then Ok (e_done (length d) d)
  else
    let k' := (k - 1)%nat in
    o <- splitFunc (skipn k' d) atEOF ;;
    let n := (k' + Z.to_nat (so_advance o))%nat in
    Ok (e_done n (firstn n d)).

Lemma run_forall : forall d, Forall (fun b => isASCIIAlphanumericOrSpace b = true) (firstn (alnum_space_run d) d).
Proof.
  induction d as [|b d IH]; [constructor|]. cbn [alnum_space_run]. destruct (isASCIIAlphanumericOrSpace b) eqn:E; constructor; auto.
Qed.
Lemma run_le : forall d, (alnum_space_run d <= length d)%nat.
Proof. induction d as [|b d IH]; simpl; [lia|]. destruct (isASCIIAlphanumericOrSpace b); lia. Qed.

Theorem hot_path_agrees : forall d, d <> [] -> p_hot d true = splitFunc d true.
Proof.
  intros d Hd. unfold p_hot. cbv zeta. rewrite <- (p_split_engine d).
  destruct (length d <=? alnum_space_run d)%nat eqn:EL.
  - apply Nat.leb_le in EL. pose proof (run_forall d) as HF. rewrite firstn_all2 in HF by lia.
    symmetry. apply (skip_all PE p_mu p_lk p_rules_ok p_R p_sim p_fuel p_FU _ p_Vr p_run0 p_runj); auto.
  - apply Nat.leb_gt in EL. rewrite <- p_split_engine.
    destruct (so_eof _ p_split_ok (skipn (alnum_space_run d - 1) d)) as (n & Hn & Hs); [apply skipn_nonnil; lia|].
    rewrite <- p_split_engine in Hs. rewrite Hs. cbn [bind e_done so_advance]. rewrite Nat2Z.id.
    destruct (alnum_space_run d) as [|k] eqn:Ek.
    + cbn [Nat.sub] in Hs |- *. change (skipn 0 d) with d in Hs. rewrite Hs. reflexivity.
    + replace (S k - 1)%nat with k in Hs |- * by lia. symmetry.
      apply (skip_run PE p_mu p_lk p_rules_ok p_R p_sim p_fuel p_FU _ p_Vr p_run0 p_runj); auto; [lia|].
      rewrite <- Ek. apply run_forall.
Qed.

Lemma p_next_eq : forall it, (it_pos it < length (it_data it))%nat -> exists n,
  (0 < n <= length (it_data it) - it_pos it)%nat
  /\ splitFunc (skipn (it_pos it) (it_data it)) true = Ok (e_done n (firstn n (skipn (it_pos it) (it_data it))))
  /\ Next it = Ok (true, with_pos it (it_pos it + n) (it_pos it)).
Proof.
  intros it Hlt. set (d := skipn (it_pos it) (it_data it)).
  assert (Hd : d <> []) by (apply skipn_nonnil; lia).
  assert (Hlen : length d = (length (it_data it) - it_pos it)%nat) by (unfold d; apply skipn_length).
  destruct (so_eof _ p_split_ok d Hd) as (n & Hn & Hs). exists n. split; [lia|]. split; [exact Hs|].
  pose proof (hot_path_agrees d Hd) as HH. rewrite Hs in HH. unfold p_hot in HH. cbv zeta in HH.
  unfold Next. replace (length (it_data it) <=? it_pos it)%nat with false by (symmetry; apply Nat.leb_gt; lia). cbv zeta.
  cbn [it_data it_pos it_start with_pos].
  rewrite slice_from_ok by lia. fold d. cbn [bind].
  pose proof (run_le d) as Hrl.
  destruct (length d <=? alnum_space_run d)%nat eqn:EL.
  - apply Nat.leb_le in EL. replace (length (it_data it) <=? it_pos it + alnum_space_run d)%nat with true by (symmetry; apply Nat.leb_le; lia).
    unfold e_done in HH. injection HH as HH _. assert (n = alnum_space_run d) as -> by lia. reflexivity.
  - apply Nat.leb_gt in EL. replace (length (it_data it) <=? it_pos it + alnum_space_run d)%nat with false by (symmetry; apply Nat.leb_gt; lia).
    destruct (so_eof _ p_split_ok (skipn (alnum_space_run d - 1) d)) as (m & Hm & Hsm); [apply skipn_nonnil; lia|].
    rewrite Hsm in HH. cbn [bind e_done so_advance] in HH. rewrite Nat2Z.id in HH. unfold e_done in HH. injection HH as HH _.
    assert (Hnm : n = (alnum_space_run d - 1 + m)%nat) by lia.
    rewrite skipn_length in Hm. unfold next_split. cbn [it_data it_pos it_start with_pos].
    assert (Hp2 : (if (it_pos it <? it_pos it + alnum_space_run d)%nat then (it_pos it + alnum_space_run d - 1)%nat
       else (it_pos it + alnum_space_run d)%nat) = (it_pos it + (alnum_space_run d - 1))%nat).
    { destruct (it_pos it <? it_pos it + alnum_space_run d)%nat eqn:E; [apply Nat.ltb_lt in E | apply Nat.ltb_ge in E]; lia. }
    rewrite Hp2. rewrite slice_from_ok by lia. cbn [bind].
    replace (skipn (it_pos it + (alnum_space_run d - 1)) (it_data it)) with (skipn (alnum_space_run d - 1) d)
      by (unfold d; rewrite skipn_skipn; f_equal; lia).
    rewrite Hsm. cbn [bind e_done so_err so_advance].
    replace (Z.of_nat m <=? 0)%Z with false by (symmetry; apply Z.leb_gt; lia). rewrite Nat2Z.id.
    replace (length (it_data it) <? it_pos it + (alnum_space_run d - 1) + m)%nat with false by (symmetry; apply Nat.ltb_ge; lia).
    rewrite Hnm. unfold with_pos. cbn [it_data]. do 3 f_equal. lia.
Qed.

Lemma p_next_ok : next_ok it_data it_pos it_start splitFunc (fun _ => True) Next Value.
Proof.
  split.
  - intros it _ H. unfold Next. apply Nat.leb_le in H. rewrite H. reflexivity.
  - intros it _ H. destruct (p_next_eq it H) as (n & Hn & Hs & Hx).
    exists n, (with_pos it (it_pos it + n) (it_pos it)). repeat split; auto; lia.
  - reflexivity.
Qed.
