(** Parts of the property tables: values looked up in the few rows around a character.  (Finite checks over a block of characters do not have to walk through the tables each time.) *)
From Verif Require Import Base SpecUcd.
Local Open Scope N_scope.

(** The part of a table that matters from [lo] to [hi]. *)
Definition near {A} (lo hi : N) (t : list (N * N * A)) : list (N * N * A) := filter (fun e => let '(l, h, _) := e in (l <=? hi) && (lo <=? h)) t.
Lemma near_value : forall A (d : A) t lo hi c, lo <= c -> c <= hi -> range_value d t c = range_value d (near lo hi t) c.
Proof.
  intros A d t lo hi c H1 H2. induction t as [|((l, h), v) t IH]; [reflexivity|]. cbn [range_value near filter]. destruct ((l <=? hi) && (lo <=? h)) eqn:E.
  - cbn [range_value]. rewrite IH. reflexivity.
  - destruct ((l <=? c) && (c <=? h)) eqn:E'; [exfalso|exact IH]. apply andb_prop in E'. destruct E' as (A1 & A2). apply N.leb_le in A1, A2.
    apply Bool.andb_false_iff in E. destruct E as [E|E]; apply N.leb_gt in E; lia.
Qed.
Lemma near_ascii : forall A (d : A) t s, near 0 127 t = s -> forall c, c < 128 -> range_value d t c = range_value d s c.
Proof. intros A d t s <- c H. apply near_value; lia. Qed.

Definition gcb_ascii := Eval vm_compute in near 0 127 gcb_table.
Definition incb_ascii := Eval vm_compute in near 0 127 incb_table.
Definition wb_ascii := Eval vm_compute in near 0 127 wb_table.
Definition sb_ascii := Eval vm_compute in near 0 127 sb_table.
Definition extpict_ascii := Eval vm_compute in near 0 127 extpict_table.
Lemma GCB_ascii : forall c, c < 128 -> GCB c = range_value GCB_Other gcb_ascii c. Proof. apply near_ascii. vm_compute. reflexivity. Qed.
Lemma InCB_ascii : forall c, c < 128 -> InCB c = range_value InCB_Other incb_ascii c. Proof. apply near_ascii. vm_compute. reflexivity. Qed.
Lemma WB_ascii : forall c, c < 128 -> WB c = range_value WB_Other wb_ascii c. Proof. apply near_ascii. vm_compute. reflexivity. Qed.
Lemma SB_ascii : forall c, c < 128 -> SB c = range_value SB_Other sb_ascii c. Proof. apply near_ascii. vm_compute. reflexivity. Qed.
Lemma ExtPict_ascii : forall c, c < 128 -> ExtPict c = range_value false extpict_ascii c. Proof. apply near_ascii. vm_compute. reflexivity. Qed.
