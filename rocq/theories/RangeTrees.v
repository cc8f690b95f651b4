(** Search trees over the tables of the specification: the same values as a walk along the table, in fewer steps.  Checks over whole tables are stated with these. *)
From Verif Require Import Base SpecUcd.
Local Open Scope N_scope.

(** Ranges in ascending order, from [b]. *)
Fixpoint rising {A : Type} (b : N) (t : list (N * N * A)) : bool :=
  match t with [] => true | (lo, hi, _) :: r => (b <=? lo) && (lo <=? hi) && rising (hi + 1) r end.
Inductive rtree (A : Type) : Type := RLeaf | RNode (l : rtree A) (lo hi : N) (v : A) (r : rtree A).
Arguments RLeaf {A}. Arguments RNode {A}.
Fixpoint flat {A : Type} (t : rtree A) : list (N * N * A) := match t with RLeaf => [] | RNode l lo hi v r => flat l ++ (lo, hi, v) :: flat r end.
Fixpoint at_tree {A : Type} (d : A) (t : rtree A) (c : N) : A :=
  match t with RLeaf => d | RNode l lo hi v r => if c <? lo then at_tree d l c else if hi <? c then at_tree d r c else v end.
Fixpoint grow {A : Type} (n : nat) (t : list (N * N * A)) : rtree A :=
  match n with
  | O => RLeaf
  | S n => match skipn (Nat.div2 (length t)) t with
           | [] => RLeaf
           | (lo, hi, v) :: r => RNode (grow n (firstn (Nat.div2 (length t)) t)) lo hi v (grow n r)
           end
  end.

Lemma rising_low : forall A (d : A) t b c, rising b t = true -> c < b -> range_value d t c = d.
Proof.
  intros A d t. induction t as [|((lo, hi), v) t IH]; intros b c H L; [reflexivity|]. cbn [rising] in H. apply andb_prop in H. destruct H as (H & H3). apply andb_prop in H. destruct H as (H1 & H2). apply N.leb_le in H1, H2.
  cbn [range_value]. destruct (N.leb_spec lo c); [lia|]. cbn [andb]. apply (IH (hi + 1)); [exact H3|lia].
Qed.
Lemma rising_app : forall A (l : list (N * N * A)) b lo hi v r, rising b (l ++ (lo, hi, v) :: r) = true -> rising b l = true /\ b <= lo /\ lo <= hi /\ rising (hi + 1) r = true.
Proof.
  intros A l. induction l as [|((lo', hi'), v') l IH]; intros b lo hi v r H; cbn [app rising] in *.
  - apply andb_prop in H. destruct H as (H & H3). apply andb_prop in H. destruct H as (H1 & H2). apply N.leb_le in H1, H2. auto.
  - apply andb_prop in H. destruct H as (H & H3). destruct (IH _ _ _ _ _ H3) as (A1 & A2 & A3 & A4). rewrite H, A1. apply andb_prop in H. destruct H as (H1 & H2). apply N.leb_le in H1, H2. repeat split; [lia|exact A3|exact A4].
Qed.
Lemma before : forall A (d : A) l b lo hi v r c, rising b (l ++ (lo, hi, v) :: r) = true -> c < lo -> range_value d (l ++ (lo, hi, v) :: r) c = range_value d l c.
Proof.
  intros A d l. induction l as [|((lo', hi'), v') l IH]; intros b lo hi v r c H L.
  - cbn [app]. apply (rising_low _ _ _ lo); [|exact L]. cbn [app rising] in H |- *. apply andb_prop in H. destruct H as (H & H3). apply andb_prop in H. destruct H as (_ & H2). rewrite N.leb_refl, H2, H3. reflexivity.
  - cbn [app rising] in H. apply andb_prop in H. destruct H as (_ & H). cbn [app range_value]. rewrite (IH _ _ _ _ _ _ H L). reflexivity.
Qed.
Lemma after : forall A (d : A) l b lo hi v r c, rising b (l ++ (lo, hi, v) :: r) = true -> lo <= c -> range_value d (l ++ (lo, hi, v) :: r) c = range_value d ((lo, hi, v) :: r) c.
Proof.
  intros A d l. induction l as [|((lo', hi'), v') l IH]; intros b lo hi v r c H L; [reflexivity|].
  cbn [app rising] in H. apply andb_prop in H. destruct H as (_ & H). destruct (rising_app _ _ _ _ _ _ _ H) as (_ & B & _). rewrite <- (IH _ _ _ _ _ _ H L). cbn [app range_value]. destruct (N.leb_spec c hi'); [lia|]. rewrite andb_false_r. reflexivity.
Qed.
Lemma at_flat : forall A (d : A) t b c, rising b (flat t) = true -> at_tree d t c = range_value d (flat t) c.
Proof.
  intros A d t. induction t as [|l IHl lo hi v r IHr]; intros b c H; [reflexivity|]. cbn [flat at_tree] in *. destruct (rising_app _ _ _ _ _ _ _ H) as (Hl & B & C & Hr).
  destruct (N.ltb_spec c lo) as [L|L]; [rewrite (before _ _ _ _ _ _ _ _ _ H L); exact (IHl _ _ Hl)|]. rewrite (after _ _ _ _ _ _ _ _ _ H L). cbn [range_value]. destruct (N.leb_spec lo c); [|lia]. destruct (N.ltb_spec hi c), (N.leb_spec c hi); try lia; cbn [andb]; [exact (IHr _ _ Hr)|reflexivity].
Qed.
Lemma at_table : forall A (d : A) t table, flat t = table -> rising 0 table = true -> forall c, range_value d table c = at_tree d t c.
Proof. intros A d t table <- H c. symmetry. exact (at_flat _ _ _ _ _ H). Qed.

Definition gcb_tree := Eval vm_compute in grow 20 gcb_table.
Definition incb_tree := Eval vm_compute in grow 20 incb_table.
Definition wb_tree := Eval vm_compute in grow 20 wb_table.
Definition sb_tree := Eval vm_compute in grow 20 sb_table.
Definition extpict_tree := Eval vm_compute in grow 20 extpict_table.
Definition GCB' (c : N) : gcb := at_tree GCB_Other gcb_tree c.
Definition InCB' (c : N) : incb := at_tree InCB_Other incb_tree c.
Definition WB' (c : N) : wb := at_tree WB_Other wb_tree c.
Definition SB' (c : N) : sb := at_tree SB_Other sb_tree c.
Definition ExtPict' (c : N) : bool := at_tree false extpict_tree c.
Lemma GCB_tree : forall c, GCB c = GCB' c. Proof. apply at_table; vm_compute; reflexivity. Qed.
Lemma InCB_tree : forall c, InCB c = InCB' c. Proof. apply at_table; vm_compute; reflexivity. Qed.
Lemma WB_tree : forall c, WB c = WB' c. Proof. apply at_table; vm_compute; reflexivity. Qed.
Lemma SB_tree : forall c, SB c = SB' c. Proof. apply at_table; vm_compute; reflexivity. Qed.
Lemma ExtPict_tree : forall c, ExtPict c = ExtPict' c. Proof. apply at_table; vm_compute; reflexivity. Qed.
