(** Lists of entries, and deciding the equality of tables and whether a hash tells nodes apart. *)
From Verif Require Import Base Trie SpecUtf8 SpecTriegen Triegen SpecTrieHash TriegenFacts TriegenIns TriegenExt GenFacts Crc64.
From Coq Require Import Permutation.
Local Open Scope N_scope.

Fixpoint run (lo : N) (n : nat) : list N := match n with O => [] | S m => lo :: run (lo + 1) m end.
Definition chunk (f : N -> N) (hi : N) : list (N * N) := filter (fun e => negb (snd e =? 0)) (map (fun cp => (cp, if valid_rune cp then f cp else 0)) (run (hi * 0x400) 1024)).
Definition entries (f : N -> N) : list (N * N) := concat (map (chunk f) (run 0 1088)).

Lemma in_run : forall n lo x, In x (run lo n) <-> lo <= x < lo + N.of_nat n.
Proof. induction n as [|n IH]; intros lo x; cbn [run In]; [split; [intros []|lia]|]. rewrite IH. lia. Qed.

Lemma in_chunk : forall f hi cp v, In (cp, v) (chunk f hi) <-> hi * 0x400 <= cp < hi * 0x400 + 0x400 /\ v = f cp /\ v <> 0 /\ scalar cp.
Proof.
  intros f hi cp v. unfold chunk. rewrite filter_In, in_map_iff. cbn [snd]. rewrite negb_true_iff, N.eqb_neq. split.
  - intros [(cp' & E & I) Hv]. apply in_run in I. change (N.of_nat 1024) with 0x400 in I. injection E as <- <-. destruct (valid_rune cp') eqn:Q; [|contradiction Hv; reflexivity].
    apply valid_rune_scalar in Q. repeat split; try assumption; lia.
  - intros (B & -> & Hv & S). split; [|exact Hv]. exists cp. apply valid_rune_scalar in S. rewrite S. split; [reflexivity|]. apply in_run. change (N.of_nat 1024) with 0x400. lia.
Qed.

Lemma in_entries : forall f cp v, In (cp, v) (entries f) <-> v = f cp /\ v <> 0 /\ scalar cp.
Proof.
  intros f cp v. unfold entries. rewrite in_concat. split.
  - intros (l & Hl & I). apply in_map_iff in Hl as (hi & <- & Hi). apply in_chunk in I. tauto.
  - intros (E & Hv & S). exists (chunk f (cp / 0x400)). split; [|].
    + apply in_map. apply in_run. change (N.of_nat 1088) with 0x440. split; [apply N.le_0_l|]. rewrite N.add_0_l. apply N.div_lt_upper_bound; [discriminate|unfold scalar in S; lia].
    + apply in_chunk. pose proof (N.div_mod cp 0x400 ltac:(discriminate)) as D. pose proof (N.mod_lt cp 0x400 ltac:(discriminate)) as M. set (q := cp / 0x400) in *. set (r := cp mod 0x400) in *. clearbody q r. repeat split; try assumption; lia.
Qed.

Lemma assigned_in : forall l (f : N -> N) cp, (forall r v, In (r, v) l -> v = f r) -> (f cp <> 0 -> In (cp, f cp) l) -> (f cp = 0 -> ~ In cp (map fst l)) -> assigned l cp = f cp.
Proof.
  intros l f cp F C Z.
  assert (G : forall l, (forall r v, In (r, v) l -> v = f r) -> assigned l cp = f cp \/ (assigned l cp = 0 /\ (f cp <> 0 -> ~ In (cp, f cp) l))).
  { clear. induction l as [|[r v] l IH]; intros F; [right; split; [reflexivity|intros _ []]|]. cbn [assigned].
    destruct (IH (fun r v I => F r v (or_intror I))) as [E|[E N]]; rewrite E.
    - destruct (N.eqb_spec (f cp) 0) as [Q|Q]; cbn [negb]; [|left; reflexivity]. destruct (N.eqb_spec r cp) as [->|]; [left; apply F; left; reflexivity|left; symmetry; exact Q].
    - cbn [N.eqb negb]. destruct (N.eqb_spec r cp) as [->|Hn]; [left; apply F; left; reflexivity|]. right. split; [reflexivity|]. intros Q [I|I]; [injection I as ->; contradiction Hn; reflexivity|exact (N Q I)]. }
  destruct (G l F) as [E|[E N]]; [exact E|]. rewrite E. destruct (N.eq_dec (f cp) 0) as [->|Q]; [reflexivity|]. exfalso. exact (N Q (C Q)).
Qed.

Lemma entries_assigned : forall f cp, scalar cp -> assigned (entries f) cp = f cp.
Proof.
  intros f cp S. apply assigned_in.
  - intros r v I. apply in_entries in I. tauto.
  - intros Q. apply in_entries. repeat split; assumption.
  - intros Q I. apply in_map_iff in I as ([r v] & E & I). cbn [fst] in E. subst r. apply in_entries in I as (-> & Hv & _). contradiction.
Qed.
Lemma entries_assignable : forall f, assignable (entries f).
Proof. intros f. unfold assignable. rewrite Forall_forall. intros [r v] I _. apply in_entries in I. tauto. Qed.

(** * Deciding the equality of the results *)
Fixpoint tree_eqb (a b : tree) : bool :=
  match a, b with
  | Lf, Lf => true
  | Nd l v r, Nd l' v' r' => tree_eqb l l' && (v =? v') && tree_eqb r r'
  | _, _ => false
  end.
Lemma tree_eqb_ok : forall a b, tree_eqb a b = true -> a = b.
Proof.
  induction a as [|l IHl v r IHr]; intros [|l' v' r'] E; try discriminate; [reflexivity|]. cbn [tree_eqb] in E. apply andb_true_iff in E as [E E3]. apply andb_true_iff in E as [E1 E2].
  apply N.eqb_eq in E2. rewrite (IHl _ E1), (IHr _ E3), E2. reflexivity.
Qed.
Definition arr_eqb (a b : arr) : bool := (arr_len a =? arr_len b) && tree_eqb (arr_tree a) (arr_tree b).
Lemma arr_eqb_ok : forall a b, arr_eqb a b = true -> a = b.
Proof. intros [la ta] [lb tb] E. apply andb_true_iff in E as [E1 E2]. cbn in *. apply N.eqb_eq in E1. apply tree_eqb_ok in E2. subst. reflexivity. Qed.

Fixpoint list_eqb (a b : list N) : bool := match a, b with [], [] => true | x :: a', y :: b' => (x =? y) && list_eqb a' b' | _, _ => false end.
Lemma list_eqb_ok : forall a b, list_eqb a b = true -> a = b.
Proof. induction a as [|x a IH]; intros [|y b] E; try discriminate; [reflexivity|]. cbn [list_eqb] in E. apply andb_true_iff in E as [E1 E2]. apply N.eqb_eq in E1. rewrite (IH _ E2), E1. reflexivity. Qed.
Fixpoint node_eqb (a b : node) {struct a} : bool :=
  match a, b with Node ch vs, Node ch' vs' =>
    list_eqb vs vs' && (fix go l l' := match l, l' with [], [] => true | None :: r, None :: r' => go r r' | Some c :: r, Some c' :: r' => node_eqb c c' && go r r' | _, _ => false end) ch ch'
  end.

(** Induction on nodes. *)
Section NodeInd.
  Variable P : node -> Prop.
  Hypothesis HN : forall ch vs, (forall c, In (Some c) ch -> P c) -> P (Node ch vs).
  Fixpoint node_induct (n : node) {struct n} : P n.
  Proof.
    destruct n as [ch vs]. apply HN. induction ch as [|[d|] r IH]; intros c I; [destruct I| |].
    - destruct I as [E|I]; [injection E as <-; apply node_induct|exact (IH c I)].
    - destruct I as [E|I]; [discriminate E|exact (IH c I)].
  Defined.
End NodeInd.

Lemma node_eqb_ok : forall a b, node_eqb a b = true -> a = b.
Proof.
  intros a. induction a as [ch vs IH] using node_induct. intros [ch' vs'] E. cbn [node_eqb] in E. apply andb_true_iff in E as [E1 E2]. apply list_eqb_ok in E1. subst vs'. f_equal.
  revert ch' E2. induction ch as [|[c|] ch IHc]; intros [|[c'|] ch'] E2; try discriminate; [reflexivity| |].
  - apply andb_true_iff in E2 as [E2 E3]. f_equal; [f_equal; apply IH; [left; reflexivity|exact E2]|]. apply IHc; [intros d I; apply IH; right; exact I|exact E3].
  - f_equal. apply IHc; [intros d I; apply IH; right; exact I|exact E2].
Qed.

(** * Deciding [distinct] *)
(** All nodes at or under a node. *)
Fixpoint nodes (n : node) {struct n} : list node :=
  match n with Node ch vs => n :: (fix go l := match l with [] => [] | None :: r => go r | Some c :: r => nodes c ++ go r end) ch end.
Fixpoint nodes_of (l : list (option node)) : list node := match l with [] => [] | None :: r => nodes_of r | Some c :: r => nodes c ++ nodes_of r end.
Lemma nodes_eq : forall ch vs, nodes (Node ch vs) = Node ch vs :: nodes_of ch.
Proof. reflexivity. Qed.
Lemma in_nodes_of : forall l n, In n (nodes_of l) <-> exists c, In (Some c) l /\ In n (nodes c).
Proof.
  induction l as [|[c|] l IH]; intros n; cbn [nodes_of In].
  - split; [intros []|intros (c & [] & _)].
  - rewrite in_app_iff, IH. split.
    + intros [I|(d & I & J)]; [exists c; split; [left; reflexivity|exact I]|exists d; split; [right; exact I|exact J]].
    + intros (d & [E|I] & J); [injection E as <-; left; exact J|right; exists d; split; assumption].
  - rewrite IH. split; intros (d & I & J); exists d; (split; [|exact J]); [right; exact I|destruct I as [I|I]; [discriminate I|exact I]].
Qed.
Lemma below_nodes : forall n t, below n t -> In n (nodes t).
Proof.
  intros n t B. induction B as [|ch vs c I B IH]; [destruct n; rewrite nodes_eq; left; reflexivity|]. rewrite nodes_eq. right. apply in_nodes_of. exists c. split; assumption.
Qed.

Fixpoint findn (h : N) (m : list (N * node)) : option node := match m with [] => None | (k, n) :: r => if k =? h then Some n else findn h r end.
(** Each hash has one node. *)
Fixpoint chk (l : list (N * node)) (m : list (N * node)) : bool :=
  match l with
  | [] => true
  | (h, n) :: r => match findn h m with Some n' => node_eqb n n' && chk r m | None => chk r ((h, n) :: m) end
  end.
Lemma chk_ok : forall l m, chk l m = true -> exists M, (forall h n, findn h m = Some n -> findn h M = Some n) /\ forall h n, In (h, n) l -> findn h M = Some n.
Proof.
  induction l as [|[h n] l IH]; intros m E; cbn [chk] in E; [exists m; split; [auto|intros ? ? []]|]. destruct (findn h m) as [n'|] eqn:F.
  - apply andb_true_iff in E as [E1 E2]. apply node_eqb_ok in E1. subst n'. destruct (IH m E2) as (M & M1 & M2). exists M. split; [exact M1|]. intros h' n' [I|I]; [injection I as <- <-; apply M1; exact F|apply M2; exact I].
  - destruct (IH _ E) as (M & M1 & M2). exists M. split.
    + intros h' n' F'. apply M1. cbn [findn]. destruct (N.eqb_spec h h') as [<-|]; [congruence|exact F'].
    + intros h' n' [I|I]; [injection I as <- <-; apply M1; cbn [findn]; rewrite N.eqb_refl; reflexivity|apply M2; exact I].
Qed.

Definition distinct_b (H : list N -> N) (t : node) : bool :=
  let ns := map (fun n => (nhash H n, n)) (nodes_of (children t)) in
  forallb (fun e => negb (fst e =? 0)) ns && chk (filter (fun e => is_leaf (snd e)) ns) [] && chk (filter (fun e => negb (is_leaf (snd e))) ns) [].
Lemma distinct_b_ok : forall H t, distinct_b H t = true -> distinct H t.
Proof.
  intros H t E c Hc. unfold distinct_b in E. apply andb_true_iff in E as [E E3]. apply andb_true_iff in E as [E1 E2]. rewrite forallb_forall in E1.
  assert (I : forall c n, In (Some c) (children t) -> below n c -> In (nhash H n, n) (map (fun n => (nhash H n, n)) (nodes_of (children t)))).
  { intros c0 n Ic B. apply in_map_iff. exists n. split; [reflexivity|]. apply in_nodes_of. exists c0. split; [exact Ic|apply below_nodes; exact B]. }
  split.
  - intros n B. specialize (E1 _ (I c n Hc B)). cbn [fst] in E1. apply negb_true_iff, N.eqb_neq in E1. exact E1.
  - intros c' n n' Hc' B B' L Eh. pose proof (I c n Hc B) as In1. pose proof (I c' n' Hc' B') as In2. destruct (is_leaf n) eqn:Ln.
    + destruct (chk_ok _ _ E2) as (M & _ & M2). assert (F1 := M2 _ _ (proj2 (filter_In _ _ _) (conj In1 Ln))). assert (F2 := M2 _ _ (proj2 (filter_In _ _ _) (conj In2 (eq_sym L)))). rewrite Eh, F2 in F1. congruence.
    + destruct (chk_ok _ _ E3) as (M & _ & M2).
      assert (Q1 : negb (is_leaf (snd (nhash H n, n))) = true) by (cbn [snd]; rewrite Ln; reflexivity). assert (Q2 : negb (is_leaf (snd (nhash H n', n'))) = true) by (cbn [snd]; rewrite <- L; reflexivity).
      assert (F1 := M2 _ _ (proj2 (filter_In _ _ _) (conj In1 Q1))). assert (F2 := M2 _ _ (proj2 (filter_In _ _ _) (conj In2 Q2))). rewrite Eh, F2 in F1. congruence.
Qed.
