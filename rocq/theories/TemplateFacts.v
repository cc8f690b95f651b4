From Coq Require Import String.
From Verif Require Import Base Triegen SpecData SpecGoSource Print PrintCheck Template SourcePrint.
Local Open Scope N_scope.
Definition print_text : bytes := source_text print_lines.

Definition lookup_ast : list tnode := Eval vm_compute in match raw_const (str "lookupTemplate") print_text with Some t => match parse_template t with Some l => l | None => [] end | None => [] end.
Definition trie_ast : list tnode := Eval vm_compute in match raw_const (str "trieTemplate") print_text with Some t => match parse_template t with Some l => l | None => [] end | None => [] end.
Lemma lookup_parsed : match raw_const (str "lookupTemplate") print_text with Some t => parse_template t | None => None end = Some lookup_ast.
Proof. vm_cast_no_check (eq_refl (Some lookup_ast)). Qed.
Lemma trie_parsed : match raw_const (str "trieTemplate") print_text with Some t => parse_template t | None => None end = Some trie_ast.
Proof. vm_cast_no_check (eq_refl (Some trie_ast)). Qed.

(** The value that print hands to the templates, for one trie and one compaction, with what is printed of it as parameters. *)
Definition one_data (name handler : bytes) (tname : bytes) (tsum tascii tstart cutoff offset : N) (vt it : bytes) (vblocks iblocks : list val) (vsz isz chk sz nv nvb ni nib nh : N) : val :=
  rec [("Name"%string, VStr name); ("ValueType"%string, VStr vt); ("ValueSize"%string, VNum vsz); ("IndexType"%string, VStr it); ("IndexSize"%string, VNum isz);
       ("SourceType"%string, VStr (str "[]byte"));
       ("Trie"%string, VList [rec [("Name"%string, VStr tname); ("Checksum"%string, VNum tsum); ("ASCIIIndex"%string, VNum tascii); ("StarterIndex"%string, VNum tstart)]]);
       ("IndexBlocks"%string, VList iblocks); ("ValueBlocks"%string, VList vblocks);
       ("Compactions"%string, VList [rec [("Cutoff"%string, VNum cutoff); ("Offset"%string, VNum offset); ("Handler"%string, VStr handler)]]);
       ("Checksum"%string, VNum chk); ("Size"%string, VNum sz);
       ("ASCIIBlock"%string, VStr (name ++ str "Values")); ("StarterBlock"%string, VStr (name ++ str "Index"));
       ("Stats"%string, rec [("NValueEntries"%string, VNum nv); ("NValueBytes"%string, VNum nvb); ("NIndexEntries"%string, VNum ni); ("NIndexBytes"%string, VNum nib); ("NHandleBytes"%string, VNum nh)])]%list.

(** * Concatenations are compared piece by piece *)
Inductive cats := Lf (s : bytes) | At (k : nat) | Ap (a b : cats).
Fixpoint den (e : list bytes) (t : cats) : bytes := match t with Lf s => s | At k => nth k e [] | Ap a b => den e a ++ den e b end.
Fixpoint norm (t : cats) (rest : list (N + nat)) : list (N + nat) := match t with Lf s => map inl s ++ rest | At k => inr k :: rest | Ap a b => norm a (norm b rest) end.
Fixpoint write (e : list bytes) (l : list (N + nat)) : bytes := match l with [] => [] | inl c :: r => c :: write e r | inr k :: r => nth k e [] ++ write e r end.
Lemma write_norm : forall e t rest, write e (norm t rest) = den e t ++ write e rest.
Proof.
  intros e. induction t as [s|k|a IHa b IHb]; intros rest; cbn [norm den].
  - induction s as [|c s IH]; [reflexivity|]. cbn [map app write]. f_equal. exact IH.
  - reflexivity.
  - rewrite IHa, IHb, app_assoc. reflexivity.
Qed.
Lemma by_pieces : forall e a b, norm a [] = norm b [] -> den e a = den e b.
Proof. intros e a b E. rewrite <- (app_nil_r (den e a)), <- (app_nil_r (den e b)). change (@nil N) with (write e []). rewrite <- !write_norm, E. reflexivity. Qed.
Ltac place x e k := match e with x :: _ => constr:(At k) | _ :: ?r => place x r (S k) | _ => constr:(Lf x) end.
Ltac reify t e := match t with ?a ++ ?b => let a' := reify a e in let b' := reify b e in constr:(Ap a' b') | _ => place t e 0%nat end.
Ltac pieces e := match goal with |- ?l = ?r => let a := reify l e in let b := reify r e in apply (by_pieces e a b); vm_cast_no_check (eq_refl (norm b [])) end.

Lemma lookup_expands : forall name handler tname tsum tascii tstart cutoff offset it vblocks iblocks vsz isz chk sz nv nvb ni nib nh,
  let d := one_data name handler tname tsum tascii tstart cutoff offset (str "property") it vblocks iblocks vsz isz chk sz nv nvb ni nib nh in
  walk_all [] lookup_ast d [([0x24], d)] = Some (lookup_text name).
Proof.
  intros. subst d. eapply eq_trans.
  { lazy -[app]. reflexivity. }
  f_equal. unfold lookup_text. cbv beta zeta delta [cat ln]. cbn [concat]. pieces (cons name nil).
Qed.

Lemma each_one : forall f i v, each f i [v] = match f i v with Some a => Some (a ++ []) | None => None end.
Proof. reflexivity. Qed.
Definition blocks (l : list (list N)) : list val := map Block l.
Lemma each_blocks : forall f (g : N -> list N -> bytes) l i, (forall i vs, f i (Block vs) = Some (ln (g i vs))) -> each f i (blocks l) = Some (print_all g i l).
Proof.
  intros f g l i E. revert i. induction l as [|b l IH]; intros i; [reflexivity|]. cbn [blocks map each print_all]. rewrite E. fold (blocks l). rewrite IH. reflexivity.
Qed.
Lemma count_blocks : forall l, count (blocks l) = N.of_nat (length l).
Proof. intros l. unfold count, blocks. rewrite map_length. reflexivity. Qed.
Ltac work := lazy -[app count each dec hex pad psize printValues printIndex title blocks print_all].
Lemma trie_expands : forall name tname tsum tascii tstart cutoff offset values index vsz isz chk sz nv nvb ni nib nh nvs nis,
  N.of_nat (length values) = nvs -> N.of_nat (length index) = nis ->
  let d := one_data name (name ++ str "Values[n<<6+uint32(b)]") tname tsum tascii tstart cutoff offset (str "property") (str "property") (blocks values) (blocks index) vsz isz chk sz nv nvb ni nib nh in
  walk_all trie_funcs trie_ast d [([0x24], d)] = Some (trie_head name (title name) sz chk
    ++ cat [ln []; ln (str "// " ++ (name ++ str "Values") ++ str ": " ++ dec nvs ++ str " blocks, " ++ dec nv ++ str " entries, " ++ dec nvb ++ str " bytes"); ln (str "// The third block is the zero block.");
            ln (str "var " ++ (name ++ str "Values") ++ str " = [" ++ dec nv ++ str "]property {"); print_all printValues 0 values; ln (str "}")]
    ++ cat [ln []; ln (str "// " ++ (name ++ str "Index") ++ str ": " ++ dec nis ++ str " blocks, " ++ dec ni ++ str " entries, " ++ dec nib ++ str " bytes"); ln (str "// Block 0 is the zero block.");
            ln (str "var " ++ (name ++ str "Index") ++ str " = [" ++ dec ni ++ str "]property {"); print_all printIndex 0 index; ln (str "}")]).
Proof.
  intros until nis. intros E1 E2 d. subst d. eapply eq_trans.
  { work. repeat match goal with |- context[@count ?A [?x]] => change (@count A [x]) with 1 end. work. rewrite each_one. work.
    rewrite !(each_blocks _ printValues) by (intros; reflexivity). work. rewrite !(each_blocks _ printIndex) by (intros; reflexivity). work. rewrite !count_blocks, E1, E2. reflexivity. }
  f_equal. unfold trie_head. cbv beta zeta delta [cat ln]. cbn [concat].
  pieces (cons name (cons (title name) (cons (psize sz) (cons (pad 8 (hex chk)) (cons (dec nvs) (cons (dec nv) (cons (dec nvb) (cons (dec nis) (cons (dec ni) (cons (dec nib) (cons (print_all printValues 0 values) (cons (print_all printIndex 0 index) nil)))))))))))).
Qed.

Definition data_fields (b : built) : list (bytes * val) := match print_data b with VRec l => l | _ => [] end.
Lemma one_data_ok : forall b t c, bt_tries b = [t] -> bt_compactions b = [c] ->
  print_data b = one_data (bt_name b) (c_handler c) (ti_name t) (ti_checksum t) (ti_ascii t) (ti_starter t) (c_cutoff c) (c_offset c) (bt_vtype b) (bt_itype b) (blocks (bt_values b)) (blocks (bt_index b))
    (bt_vsize b) (bt_isize b) (bt_checksum b) (bt_size b) (N.of_nat (length (bt_values b)) * N.of_nat blockSize) (N.of_nat (length (bt_values b)) * N.of_nat blockSize * bt_vsize b)
    (N.of_nat (length (bt_index b)) * N.of_nat blockSize) (N.of_nat (length (bt_index b)) * N.of_nat blockSize * bt_isize b) (N.of_nat 1 * 2 * bt_isize b).
Proof. intros b t c E1 E2. unfold print_data. rewrite E1, E2. reflexivity. Qed.

(** For one trie and one compaction, as Gen is called, the templates give the text of Print.v. *)
Theorem templates_expand : forall b t c, bt_tries b = [t] -> bt_compactions b = [c] -> c_handler c = bt_name b ++ str "Values[n<<6+uint32(b)]" -> bt_vtype b = str "property" -> bt_itype b = str "property" ->
  print_go print_text b = Some (lookup_text (bt_name b) ++ trie_head (bt_name b) (title (bt_name b)) (bt_size b) (bt_checksum b)
    ++ array_text (bt_name b ++ str "Values") (str "// The third block is the zero block.") printValues (bt_vsize b) (bt_values b)
    ++ array_text (bt_name b ++ str "Index") (str "// Block 0 is the zero block.") printIndex (bt_isize b) (bt_index b)).
Proof.
  intros b t c E1 E2 Eh Ev Ei. unfold print_go, execute. rewrite (one_data_ok b t c E1 E2), Eh, Ev, Ei.
  pose proof lookup_parsed as LP. pose proof trie_parsed as TP.
  destruct (raw_const (str "lookupTemplate") print_text) as [l|]; [|discriminate LP]. destruct (raw_const (str "trieTemplate") print_text) as [u|]; [|discriminate TP].
  rewrite LP, TP. cbv beta iota zeta. rewrite lookup_expands. rewrite (trie_expands _ _ _ _ _ _ _ _ _ _ _ _ _ _ _ _ _ _ _ _ eq_refl eq_refl). reflexivity.
Qed.
