(** The templates of print.go expand without an error whatever the builder holds, as long as there is a compaction. *)
From Coq Require Import String.
From Verif Require Import Base Triegen SpecData SpecGoSource Print PrintCheck Template SourcePrint TemplateFacts.
Local Open Scope N_scope.

Definition info (t : trie_info) : val := rec [("Name"%string, VStr (ti_name t)); ("Checksum"%string, VNum (ti_checksum t)); ("ASCIIIndex"%string, VNum (ti_ascii t)); ("StarterIndex"%string, VNum (ti_starter t))]%list.
Definition comp (c : compaction) : val := rec [("Cutoff"%string, VNum (c_cutoff c)); ("Offset"%string, VNum (c_offset c)); ("Handler"%string, VStr (c_handler c))]%list.
Definition infos (l : list trie_info) : list val := map info l.
Definition comps (l : list compaction) : list val := map comp l.
Definition any_data (name : bytes) (tries : list trie_info) (cs : list compaction) (vt it ascii starter : bytes) (vblocks iblocks : list val) (vsz isz chk sz nv nvb ni nib nh : N) : val :=
  rec [("Name"%string, VStr name); ("ValueType"%string, VStr vt); ("ValueSize"%string, VNum vsz); ("IndexType"%string, VStr it); ("IndexSize"%string, VNum isz);
       ("SourceType"%string, VStr (str "[]byte")); ("Trie"%string, VList (infos tries)); ("IndexBlocks"%string, VList iblocks); ("ValueBlocks"%string, VList vblocks);
       ("Compactions"%string, VList (comps cs)); ("Checksum"%string, VNum chk); ("Size"%string, VNum sz); ("ASCIIBlock"%string, VStr ascii); ("StarterBlock"%string, VStr starter);
       ("Stats"%string, rec [("NValueEntries"%string, VNum nv); ("NValueBytes"%string, VNum nvb); ("NIndexEntries"%string, VNum ni); ("NIndexBytes"%string, VNum nib); ("NHandleBytes"%string, VNum nh)])]%list.

Lemma each_total : forall {A} f (g : A -> val) l i, (forall i x, exists s, f i (g x) = Some s) -> exists s, each f i (map g l) = Some s.
Proof.
  intros A f g l i E. revert i. induction l as [|x l IH]; intros i; [eexists; reflexivity|]. cbn [map each]. destruct (E i x) as (s & ->). destruct (IH (i + 1)) as (s' & ->). eexists; reflexivity.
Qed.
Lemma lookup_total : forall name tries cs vt it ascii starter vblocks iblocks vsz isz chk sz nv nvb ni nib nh,
  let d := any_data name tries cs vt it ascii starter vblocks iblocks vsz isz chk sz nv nvb ni nib nh in
  exists s, walk_all [] lookup_ast d [([0x24], d)] = Some s.
Proof. intros. subst d. eexists. lazy -[app count each infos comps]. reflexivity. Qed.

Ltac work' := lazy -[app count each dec hex pad psize printValues printIndex title blocks print_all infos comps N.ltb N.eqb N.sub].
Lemma trie_total : forall name tries cs vt it ascii starter values index vsz isz chk sz nv nvb ni nib nh, cs <> [] ->
  let d := any_data name tries cs vt it ascii starter (blocks values) (blocks index) vsz isz chk sz nv nvb ni nib nh in
  exists s, walk_all trie_funcs trie_ast d [([0x24], d)] = Some s.
Proof.
  intros. subst d. assert (Z : (count (comps cs) =? 0) = false) by (destruct cs; [contradiction|reflexivity]).
  work'. rewrite Z.
  destruct (1 <? count (infos tries)); work';
  repeat match goal with |- context[each ?f ?i ?l] =>
    let s := fresh "s" in let E := fresh "E" in
    assert (E : exists s, each f i l = Some s) by (first [apply each_total | unfold blocks; apply each_total | unfold infos; apply each_total | unfold comps; apply each_total];
      intros k x; try destruct x; work'; repeat match goal with |- context[?a =? ?b] => destruct (a =? b); work' end; eexists; reflexivity);
    destruct E as (s & ->); work' end; eexists; reflexivity.
Qed.

Theorem templates_total : forall b, bt_compactions b <> [] -> exists out, print_go print_text b = Some out.
Proof.
  intros b NE. unfold print_go, execute. pose proof lookup_parsed as LP. pose proof trie_parsed as TP.
  destruct (raw_const (str "lookupTemplate") print_text) as [l|]; [|discriminate LP]. destruct (raw_const (str "trieTemplate") print_text) as [u|]; [|discriminate TP].
  rewrite LP, TP. cbv beta iota zeta.
  set (one := match bt_tries b with [_] => true | _ => false end).
  change (print_data b) with (any_data (bt_name b) (bt_tries b) (bt_compactions b) (bt_vtype b) (bt_itype b) (if one then bt_name b ++ str "Values" else str "t.ascii") (if one then bt_name b ++ str "Index" else str "t.utf8Start")
    (blocks (bt_values b)) (blocks (bt_index b)) (bt_vsize b) (bt_isize b) (bt_checksum b) (bt_size b) (N.of_nat (length (bt_values b)) * N.of_nat blockSize) (N.of_nat (length (bt_values b)) * N.of_nat blockSize * bt_vsize b)
    (N.of_nat (length (bt_index b)) * N.of_nat blockSize) (N.of_nat (length (bt_index b)) * N.of_nat blockSize * bt_isize b) (N.of_nat (length (bt_tries b)) * 2 * bt_isize b)).
  match goal with |- context[walk_all [] lookup_ast (any_data ?a ?b ?c ?d ?e ?f ?g ?h ?i ?j ?k ?l ?m ?n ?o ?p ?q ?r) _] => destruct (lookup_total a b c d e f g h i j k l m n o p q r) as (x & Ex) end.
  match goal with |- context[walk_all trie_funcs trie_ast (any_data ?a ?b ?c ?d ?e ?f ?g (blocks ?h) (blocks ?i) ?j ?k ?l ?m ?n ?o ?p ?q ?r) _] => destruct (trie_total a b c d e f g h i j k l m n o p q r NE) as (y & Ey) end.
  cbv zeta in Ex, Ey. rewrite Ex, Ey. eexists. reflexivity.
Qed.
