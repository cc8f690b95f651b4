(** Clusters of ASCII text. *)
From Verif Require Import Base ListFacts Trie SpecUtf8 SpecUcd SpecRules SpecGraphemes SpecCluster RuleFacts BitFacts TableFacts UcdGraphemes TableGraphemes GraphemesEngine Conform GraphemesConform ClusterFacts ClusterCut.
From Verif Require Graphemes.
Import Graphemes.
Local Open Scope N_scope.

Definition ascii (c : N) : Prop := c < 128.
Definition asciis : list N := map N.of_nat (seq 0 128).
Lemma ascii_in : forall c, ascii c -> In c asciis.
Proof.
  intros c H. unfold ascii in H. apply in_map_iff. exists (N.to_nat c). split; [apply N2Nat.id|]. apply in_seq. lia.
Qed.
Lemma ascii_table : forallb (fun c => (kb KCtl (K c) || kb KOther (K c)) && Bool.eqb (is (P c) _CR) (c =? 13) && Bool.eqb (is (P c) _LF) (c =? 10)) asciis = true.
Proof. vm_compute. reflexivity. Qed.
Lemma ascii_row : forall c, ascii c -> (K c = KCtl \/ K c = KOther) /\ is (P c) _CR = (c =? 13) /\ is (P c) _LF = (c =? 10).
Proof.
  intros c H. pose proof (proj1 (forallb_forall _ _) ascii_table c (ascii_in c H)) as R. cbv beta in R. rewrite !andb_true_iff in R. destruct R as ((R1 & R2) & R3).
  apply eqb_prop in R2, R3. split; [|auto]. apply orb_prop in R1. destruct R1 as [R|R]; apply kb_eq in R; auto.
Qed.
Lemma ascii_scalar : forall c, ascii c -> scalar c.
Proof. unfold ascii, scalar. intros; lia. Qed.
Lemma ascii_scalars : forall d, Forall ascii d -> scalars d.
Proof. intros d F. eapply Forall_impl; [|exact F]. exact ascii_scalar. Qed.

Lemma ascii_joins : forall b x y, ascii x -> ascii y -> joins (b ++ [x]) y -> x = 13 /\ y = 10.
Proof.
  intros b x y Hx Hy J. destruct (ascii_row x Hx) as (Kx & Cx & _). destruct (ascii_row y Hy) as (Ky & _ & Ly).
  destruct (joins_kind b x y (ascii_scalar x Hx) (ascii_scalar y Hy) J) as [(H1 & H2)|(H1 & H2 & H3)].
  - rewrite Ly in H1. rewrite Cx in H2. apply N.eqb_eq in H1, H2. auto.
  - exfalso. destruct Kx as [Kx|Kx]; [congruence|]. destruct Ky as [Ky|Ky]; [congruence|].
    unfold join in H3. rewrite Kx, Ky in H3. cbn [pairjoin kb] in H3. rewrite !andb_false_r in H3. discriminate.
Qed.
Lemma glued_joins : forall s b y a, glued s -> s = b ++ y :: a -> joins b y.
Proof.
  intros s b y a G ->. change (y :: a) with ([y] ++ a) in G. rewrite app_assoc in G.
  assert (X : forall u t, glued (t ++ u) -> glued t).
  { induction u as [|z u IH] using rev_ind; intros t H; [rewrite app_nil_r in H; exact H|]. rewrite app_assoc in H. apply glued_snoc in H. apply IH. exact (proj1 H). }
  exact (proj2 (proj1 (glued_snoc b y) (X a _ G))).
Qed.

Lemma ascii_matches1 : forall c, ascii c -> matches extended_grapheme_cluster [c].
Proof. intros c H. apply cluster_iff; [constructor; [exact (ascii_scalar c H)|constructor]|]. split; [discriminate|apply glued_one]. Qed.
Lemma crlf_matches : matches extended_grapheme_cluster [13; 10].
Proof. apply m_altl, m_altl. change [13; 10] with ([13] ++ [10]). apply m_cat; apply m_cls; vm_compute; reflexivity. Qed.

Lemma ascii_longest : forall n d, (length d <= n)%nat -> Forall ascii d -> longest_matches extended_grapheme_cluster d (ascii_cut d).
Proof.
  induction n as [|n IH]; intros d Hn F; [destruct d; [constructor|cbn in Hn; lia]|].
  destruct d as [|x d]; [constructor|]. pose proof (Forall_inv F) as Hx. pose proof (Forall_inv_tail F) as Fd. cbn [length] in Hn.
  assert (One : (forall d', d = 10 :: d' -> x = 13 -> False) -> longest_matches extended_grapheme_cluster ([x] ++ d) ([x] :: ascii_cut d)).
  { intros Hno. constructor; [discriminate|exact (ascii_matches1 x Hx)| |apply IH; [lia|exact Fd]].
    intros t u E M. destruct t as [|t0 [|t1 t]]; [cbn; lia|cbn; lia|exfalso]. cbn [app] in E. injection E as -> E. subst d.
    assert (Ht : Forall ascii (t0 :: t1 :: t)) by (apply (proj1 (proj1 (Forall_app ascii (t0 :: t1 :: t) u) F))).
    apply cluster_iff in M; [|exact (ascii_scalars _ Ht)]. pose proof (glued_joins _ [t0] t1 t (proj2 M) eq_refl) as J.
    destruct (ascii_joins [] t0 t1 Hx (Forall_inv (Forall_inv_tail Ht)) J) as (E1 & E2). subst. exact (Hno _ eq_refl eq_refl). }
  destruct (N.eq_dec x 13) as [Ex|Ex].
  - subst x. destruct d as [|y d]; [apply One; discriminate|]. destruct (N.eq_dec y 10) as [Ey|Ey].
    + subst y. cbn [ascii_cut]. change (13 :: 10 :: d) with ([13; 10] ++ d). constructor; [discriminate|exact crlf_matches| |apply IH; [cbn in Hn; lia|exact (Forall_inv_tail Fd)]].
      intros t u E M. destruct t as [|t0 [|t1 [|t2 t]]]; [cbn; lia|cbn; lia|cbn; lia|exfalso]. cbn [app] in E. injection E as <- <- E. subst d.
      assert (Ht : Forall ascii (13 :: 10 :: t2 :: t)) by (apply (proj1 (proj1 (Forall_app ascii (13 :: 10 :: t2 :: t) u) F))).
      apply cluster_iff in M; [|exact (ascii_scalars _ Ht)]. pose proof (glued_joins _ [13; 10] t2 t (proj2 M) eq_refl) as J.
      destruct (ascii_joins [13] 10 t2 (Forall_inv Fd) (Forall_inv (Forall_inv_tail (Forall_inv_tail Ht))) J) as (E1 & _). discriminate.
    + assert (Ec : ascii_cut (13 :: y :: d) = [13] :: ascii_cut (y :: d)).
      { cbn [ascii_cut]. destruct y as [|p]; [reflexivity|]. do 4 (destruct p as [p|p|]; try reflexivity). elim Ey. reflexivity. }
      rewrite Ec. apply One. intros d' E _. congruence.
  - assert (Ec : ascii_cut (x :: d) = [x] :: ascii_cut d).
    { cbn [ascii_cut]. destruct x as [|p]; [reflexivity|]. do 4 (destruct p as [p|p|]; try reflexivity). elim Ex. reflexivity. }
    rewrite Ec. apply One. intros d' _ E. congruence.
Qed.
Lemma ascii_encode : forall d, Forall ascii d -> encode d = d.
Proof.
  intros d F. induction F as [|c d Hc F IH]; [reflexivity|]. rewrite encode_cons, IH. unfold utf8. unfold ascii in Hc.
  destruct (N.ltb_spec c 0x80); [reflexivity|lia].
Qed.
Lemma ascii_cut_concat : forall n d, (length d <= n)%nat -> concat (ascii_cut d) = d.
Proof.
  induction n as [|n IH]; intros e Hn; [destruct e; [reflexivity|cbn in Hn; lia]|]. destruct e as [|x e]; [reflexivity|]. cbn [length] in Hn.
  assert (One : concat ([x] :: ascii_cut e) = x :: e) by (cbn [concat app]; rewrite IH by lia; reflexivity).
  cbn [ascii_cut]. destruct x as [|p]; [exact One|]. do 4 (destruct p as [p|p|]; try exact One).
  destruct e as [|y e]; [exact One|]. destruct y as [|p]; [exact One|]. do 4 (destruct p as [p|p|]; try exact One).
Qed.
Lemma Forall_concat_inv : forall (Q : N -> Prop) l, Forall Q (concat l) -> Forall (Forall Q) l.
Proof.
  intros Q l. induction l as [|s l IH]; intros F; [constructor|]. cbn [concat] in F. apply Forall_app in F. constructor; [exact (proj1 F)|exact (IH (proj2 F))].
Qed.
