(** Normalization Form D: a normal form of canonical equivalence. *)
From Verif Require Import Base ListFacts SpecHangul SpecDecomp SpecCanon SpecNorm RangeTrees.
Local Open Scope N_scope.

(** The mappings and the classes by search trees. *)
Definition single (e : N * list N) : N * N * option (list N) := (fst e, fst e, Some (snd e)).
Definition mapping_tree := Eval vm_compute in grow 20 (map single decompositions).
Definition class_tree := Eval vm_compute in grow 20 combining_classes.
Definition mapping' (c : N) : option (list N) := at_tree None mapping_tree c.
Definition ccc' (c : N) : N := at_tree 0 class_tree c.
Lemma single_value : forall l c, option_map snd (find (fun e : N * list N => fst e =? c) l) = SpecUcd.range_value None (map single l) c.
Proof.
  induction l as [|(k, d) l IH]; intros c; [reflexivity|]. cbn [find map single fst snd SpecUcd.range_value]. destruct (N.eqb_spec k c) as [->|]; [rewrite N.leb_refl; reflexivity|]. rewrite IH. destruct (N.leb_spec k c), (N.leb_spec c k); try reflexivity. lia.
Qed.
Lemma mapping_tree_ok : forall c, mapping c = mapping' c.
Proof. intros c. unfold mapping. rewrite single_value. apply at_table; vm_compute; reflexivity. Qed.
Lemma ranges_value : forall l c, match find (fun e : N * N * N => let '(lo, hi, _) := e in (lo <=? c) && (c <=? hi)) l with Some (_, _, k) => k | None => 0 end = SpecUcd.range_value 0 l c.
Proof. induction l as [|((lo, hi), k) l IH]; intros c; [reflexivity|]. cbn [find SpecUcd.range_value]. destruct ((lo <=? c) && (c <=? hi)); [reflexivity|apply IH]. Qed.
Lemma class_tree_ok : forall c, ccc c = ccc' c.
Proof. intros c. unfold ccc. rewrite ranges_value. apply at_table; vm_compute; reflexivity. Qed.
Fixpoint expand' (n : nat) (c : N) : list N := match n with O => [c] | S n => match mapping' c with Some d => flat_map (expand' n) d | None => jamo c end end.
Definition full' (c : N) : list N := expand' deep c.
Lemma full_tree : forall c, full c = full' c.
Proof.
  unfold full, full'. induction deep as [|n IH]; intros c; [reflexivity|]. cbn [expand expand']. rewrite mapping_tree_ok. destruct (mapping' c) as [d|]; [|reflexivity]. apply flat_map_ext. exact IH.
Qed.

(** What is checked on the tables. *)
Definition key_check (e : N * list N) : bool := match mapping' (fst e) with Some d => if list_eq_dec N.eq_dec d (snd e) then true else false | _ => false end.
Lemma keys_checked : forallb key_check decompositions = true.
Proof. vm_compute. reflexivity. Qed.
Definition full_check (e : N * list N) : bool := if list_eq_dec N.eq_dec (full' (fst e)) (flat_map full' (snd e)) then true else false.
Lemma full_checked : forallb full_check decompositions = true.
Proof. vm_compute. reflexivity. Qed.
Definition plainb (c : N) : bool := match mapping' c with None => negb (syllable c) | _ => false end.
Lemma plain_checked : forallb (fun e => forallb plainb (full' (fst e))) decompositions = true.
Proof. vm_compute. reflexivity. Qed.
Lemma class_checked : forallb (fun e => (ccc' (fst e) =? 0) || forallb (fun x => ccc' x =? ccc' (fst e)) (full' (fst e))) decompositions = true.
Proof. vm_compute. reflexivity. Qed.
Lemma others_checked : forallb (fun e => negb (syllable (fst e)) && ((fst e <? 0x1100) || (0x1200 <=? fst e)) && forallb (fun x => negb (x =? stroked_arrow)) (snd e)) decompositions = true.
Proof. vm_compute. reflexivity. Qed.
Lemma syllables_checked : forallb (fun e : N * N * N => let '(lo, hi, _) := e in (hi <? SBase) || (SBase + SCount <=? lo)) combining_classes = true.
Proof. vm_compute. reflexivity. Qed.

Lemma mapping_in : forall c d, mapping c = Some d -> In (c, d) decompositions.
Proof. intros c d H. unfold mapping in H. destruct (find _ decompositions) as [(c', d')|] eqn:E; [|discriminate]. apply find_some in E. destruct E as (I & E). cbn in E, H. apply N.eqb_eq in E. injection H as <-. subst c'. exact I. Qed.
Lemma in_mapping : forall c d, In (c, d) decompositions -> mapping c = Some d.
Proof. intros c d I. pose proof (proj1 (forallb_forall _ _) keys_checked _ I) as H. unfold key_check in H. cbn [fst snd] in H. rewrite <- mapping_tree_ok in H. destruct (mapping c) as [d'|]; [|discriminate]. destruct (list_eq_dec N.eq_dec d' d) as [->|]; [reflexivity|discriminate]. Qed.
Lemma full_map : forall c d, In (c, d) decompositions -> full c = flat_map full d.
Proof. intros c d I. pose proof (proj1 (forallb_forall _ _) full_checked _ I) as H. unfold full_check in H. cbn [fst snd] in H. rewrite <- full_tree, <- (flat_map_ext _ _ full_tree) in H. destruct (list_eq_dec N.eq_dec (full c) (flat_map full d)) as [E|]; [exact E|discriminate]. Qed.
Lemma full_none : forall c, mapping c = None -> full c = jamo c.
Proof. intros c H. unfold full, deep. cbn [expand]. rewrite H. reflexivity. Qed.
Lemma jamo_other : forall c, syllable c = false -> jamo c = [c].
Proof. intros c H. unfold jamo. rewrite H. reflexivity. Qed.
Lemma full_plain1 : forall c, plain c -> full c = [c].
Proof. intros c (M & S). rewrite (full_none c M). exact (jamo_other c S). Qed.
Lemma not_key : forall c, (syllable c = true \/ 0x1100 <= c < 0x1200) -> mapping c = None.
Proof.
  intros c H. destruct (mapping c) as [d|] eqn:E; [|reflexivity]. exfalso. apply mapping_in in E. pose proof (proj1 (forallb_forall _ _) others_checked _ E) as K. cbv beta in K. cbn [fst snd] in K.
  apply andb_prop in K. destruct K as (K & _). apply andb_prop in K. destruct K as (K1 & K2). destruct H as [H|H]; [rewrite H in K1; discriminate|]. apply orb_prop in K2. destruct K2 as [K2|K2]; [apply N.ltb_lt in K2|apply N.leb_le in K2]; lia.
Qed.
Lemma jamo_range : forall c, syllable c = true -> Forall (fun j => 0x1100 <= j < 0x1200) (jamo c).
Proof.
  intros c E. unfold jamo. rewrite E. unfold syllable in E. apply andb_prop in E. destruct E as (E1 & E2). apply N.leb_le in E1. apply N.ltb_lt in E2. cbv zeta.
  assert (L : ((c - SBase) / NCount < 19)) by (apply N.div_lt_upper_bound; [discriminate|change (NCount * 19) with SCount; lia]).
  assert (V : (((c - SBase) mod NCount) / TCount < 21)) by (apply N.div_lt_upper_bound; [discriminate|change (TCount * 21) with NCount; apply N.mod_lt; discriminate]).
  assert (T : ((c - SBase) mod TCount < 28)) by (apply N.mod_lt; discriminate).
  revert L V T. generalize ((c - SBase) / NCount), (((c - SBase) mod NCount) / TCount), ((c - SBase) mod TCount). intros l v t L V T.
  destruct (_ =? _); repeat (first [apply Forall_nil|apply Forall_cons]); unfold LBase, VBase, TBase; lia.
Qed.
Lemma jamo_plain : forall j, 0x1100 <= j < 0x1200 -> plain j.
Proof. intros j H. split; [apply not_key; right; exact H|]. unfold syllable, SBase. destruct (N.leb_spec 0xAC00 j); [lia|reflexivity]. Qed.
Lemma plain_full : forall t, Forall plain t -> flat_map full t = t.
Proof. intros t F. induction F as [|c t H F IH]; [reflexivity|]. cbn [flat_map]. rewrite (full_plain1 c H), IH. reflexivity. Qed.
Lemma jamo_plains : forall c, syllable c = true -> Forall plain (jamo c).
Proof. intros c H. eapply Forall_impl; [exact jamo_plain|exact (jamo_range c H)]. Qed.
Lemma full_plain : forall c, Forall plain (full c).
Proof.
  intros c. destruct (mapping c) as [d|] eqn:E.
  - apply mapping_in in E. pose proof (proj1 (forallb_forall _ _) plain_checked _ E) as H. cbv beta in H. cbn [fst] in H. rewrite <- full_tree in H. apply Forall_forall. intros x I. pose proof (proj1 (forallb_forall _ _) H x I) as K. clear - K.
    unfold plainb in K. rewrite <- mapping_tree_ok in K. destruct (mapping x) eqn:M; [discriminate|]. split; [exact M|]. apply negb_true_iff. exact K.
  - rewrite (full_none c E). destruct (syllable c) eqn:S; [exact (jamo_plains c S)|]. rewrite (jamo_other c S). apply Forall_cons; [split; assumption|apply Forall_nil].
Qed.
Lemma class_syllable : forall c, 0 < ccc c -> syllable c = false.
Proof.
  intros c H. unfold ccc in H. destruct (find _ combining_classes) as [((lo, hi), k)|] eqn:E; [|lia]. apply find_some in E. destruct E as (I & E). apply andb_prop in E. destruct E as (E1 & E2). apply N.leb_le in E1, E2.
  pose proof (proj1 (forallb_forall _ _) syllables_checked _ I) as K. cbv beta in K. clear I. unfold syllable. apply orb_prop in K. destruct K as [K|K]; [apply N.ltb_lt in K; destruct (N.leb_spec SBase c); [lia|reflexivity]|].
  apply N.leb_le in K. destruct (N.ltb_spec c (SBase + SCount)); [lia|apply andb_false_r].
Qed.
Lemma full_class : forall c, 0 < ccc c -> Forall (fun x => ccc x = ccc c) (full c).
Proof.
  intros c P. destruct (mapping c) as [d|] eqn:E.
  - apply mapping_in in E. pose proof (proj1 (forallb_forall _ _) class_checked _ E) as H. cbv beta in H. cbn [fst] in H. rewrite <- full_tree, <- class_tree_ok in H. apply orb_prop in H. destruct H as [H|H]; [apply N.eqb_eq in H; lia|].
    apply Forall_forall. intros x I. apply N.eqb_eq. rewrite (class_tree_ok x). exact (proj1 (forallb_forall _ _) H x I).
  - rewrite (full_none c E), (jamo_other c (class_syllable c P)). apply Forall_cons; [reflexivity|apply Forall_nil].
Qed.

(** Sorting. *)
Lemma put_swap : forall a b t, 0 < ccc b < ccc a -> put_mark a (put_mark b t) = put_mark b (put_mark a t).
Proof.
  intros a b t H. assert (AB : (0 <? ccc b) && (ccc b <? ccc a) = true) by (apply andb_true_intro; split; apply N.ltb_lt; lia). assert (BA : (0 <? ccc a) && (ccc a <? ccc b) = false) by (apply andb_false_iff; right; apply N.ltb_ge; lia).
  induction t as [|x r IH]; cbn [put_mark]; [rewrite AB, BA; reflexivity|].
  destruct ((0 <? ccc x) && (ccc x <? ccc b)) eqn:B.
  - assert (A : (0 <? ccc x) && (ccc x <? ccc a) = true). { apply andb_prop in B. destruct B as (B1 & B2). apply N.ltb_lt in B1, B2. apply andb_true_intro. split; apply N.ltb_lt; lia. }
    cbn [put_mark]. rewrite A. cbn [put_mark]. rewrite B. f_equal. exact IH.
  - cbn [put_mark]. rewrite AB. destruct ((0 <? ccc x) && (ccc x <? ccc a)) eqn:A; cbn [put_mark]; [rewrite B; reflexivity|rewrite BA; reflexivity].
Qed.
Definition puts (l t : list N) : list N := fold_right put_mark t l.
Lemma sort_app : forall l t, sort_marks (l ++ t) = puts l (sort_marks t).
Proof. intros. unfold sort_marks, puts. apply fold_right_app. Qed.
Lemma put_puts : forall a k l t, 0 < k < ccc a -> Forall (fun x => ccc x = k) l -> put_mark a (puts l t) = puts l (put_mark a t).
Proof. intros a k l t H F. induction F as [|b l E F IH]; [reflexivity|]. cbn [puts fold_right]. fold (puts l t) (puts l (put_mark a t)). rewrite put_swap by lia. rewrite IH. reflexivity. Qed.
Lemma puts_swap : forall i k l m t, 0 < k < i -> Forall (fun x => ccc x = i) l -> Forall (fun x => ccc x = k) m -> puts l (puts m t) = puts m (puts l t).
Proof. intros i k l m t H F G. induction F as [|a l E F IH]; [reflexivity|]. cbn [puts fold_right]. fold (puts l (puts m t)) (puts l t). rewrite IH. apply (put_puts a k); [lia|exact G]. Qed.

(** Equivalent texts have the same form. *)
Lemma canon_nfd : forall but t t', canon but t t' -> nfd t = nfd t'.
Proof.
  intros but t t' C. induction C as [t|t u C IH|t u v C1 IH1 C2 IH2|u c d v I N|u c v H|u a b v H]; [reflexivity|symmetry; exact IH|etransitivity; eassumption| | |]; unfold nfd; rewrite !flat_map_app.
  - cbn [flat_map]. rewrite app_nil_r, (full_map c d I). reflexivity.
  - cbn [flat_map]. rewrite app_nil_r, (full_none c (not_key c (or_introl H))), (plain_full _ (jamo_plains c H)). reflexivity.
  - cbn [flat_map]. rewrite !app_nil_r, <- !app_assoc, !sort_app. rewrite (puts_swap (ccc a) (ccc b) (full a) (full b)); [reflexivity|exact H|apply full_class; lia|apply full_class; lia].
Qed.

(** A text is equivalent to its form. *)
Lemma canon_around : forall but t t' p q, canon but t t' -> canon but (p ++ t ++ q) (p ++ t' ++ q).
Proof.
  intros but t t' p q C. induction C as [t|t u C IH|t u v C1 IH1 C2 IH2|u c d v I N|u c v H|u a b v H].
  - apply canon_refl.
  - apply canon_sym. exact IH.
  - exact (canon_trans _ _ _ _ IH1 IH2).
  - pose proof (canon_mapping but (p ++ u) c d (v ++ q) I N) as X. rewrite <- !app_assoc in *. exact X.
  - pose proof (canon_hangul but (p ++ u) c (v ++ q) H) as X. rewrite <- !app_assoc in *. exact X.
  - pose proof (canon_order but (p ++ u) a b (v ++ q) H) as X. rewrite <- !app_assoc in *. exact X.
Qed.
Lemma canon_flat : forall but (f : N -> list N) t, Forall (fun c => canon but [c] (f c)) t -> canon but t (flat_map f t).
Proof.
  intros but f t F. induction F as [|c t H F IH]; [apply canon_refl|]. cbn [flat_map]. apply (canon_trans _ _ (f c ++ t)).
  - exact (canon_around but [c] (f c) [] t H).
  - pose proof (canon_around but _ _ (f c) [] IH) as X. rewrite !app_nil_r in X. exact X.
Qed.
(** No mapping leads to the characters left out. *)
Definition aside (but : list N) : Prop := forall c d x, In (c, d) decompositions -> In x d -> ~ In x but.
Lemma aside_none : aside []. Proof. intros c d x _ _ []. Qed.
Lemma aside_arrow : aside [stroked_arrow].
Proof.
  intros c d x I J [E|[]]. subst x. pose proof (proj1 (forallb_forall _ _) others_checked _ I) as K. cbv beta in K. cbn [fst snd] in K. apply andb_prop in K. destruct K as (_ & K).
  pose proof (proj1 (forallb_forall _ _) K _ J) as X. cbv beta in X. rewrite N.eqb_refl in X. discriminate.
Qed.
Lemma canon_expand : forall but, aside but -> forall n c, ~ In c but -> canon but [c] (expand n c).
Proof.
  intros but A. induction n as [|n IH]; intros c H; [apply canon_refl|]. cbn [expand]. destruct (mapping c) as [d|] eqn:E.
  - apply mapping_in in E. apply (canon_trans _ _ d).
    + pose proof (canon_mapping but [] c d [] E H) as X. cbn [app] in X. rewrite app_nil_r in X. exact X.
    + apply canon_flat, Forall_forall. intros x I. apply IH. exact (A c d x E I).
  - destruct (syllable c) eqn:S; [|rewrite (jamo_other c S); apply canon_refl]. pose proof (canon_hangul but [] c [] S) as X. cbn [app] in X. rewrite app_nil_r in X. exact X.
Qed.
Lemma canon_put : forall but c t, canon but (c :: t) (put_mark c t).
Proof.
  intros but c t. induction t as [|x r IH]; [apply canon_refl|]. cbn [put_mark]. destruct ((0 <? ccc x) && (ccc x <? ccc c)) eqn:E; [|apply canon_refl]. apply andb_prop in E. destruct E as (E1 & E2). apply N.ltb_lt in E1, E2.
  apply (canon_trans _ _ (x :: c :: r)); [exact (canon_order but [] c x r (conj E1 E2))|]. pose proof (canon_around but _ _ [x] [] IH) as X. rewrite !app_nil_r in X. exact X.
Qed.
Lemma canon_sort : forall but t, canon but t (sort_marks t).
Proof. intros but. induction t as [|c t IH]; [apply canon_refl|]. cbn [sort_marks fold_right]. apply (canon_trans _ _ (c :: sort_marks t)); [|apply canon_put]. pose proof (canon_around but _ _ [c] [] IH) as X. rewrite !app_nil_r in X. exact X. Qed.
Lemma canon_to_nfd : forall but, aside but -> forall t, Forall (fun c => ~ In c but) t -> canon but t (nfd t).
Proof. intros but A t F. apply (canon_trans _ _ (flat_map full t)); [|apply canon_sort]. apply canon_flat. eapply Forall_impl; [|exact F]. intros c H. apply canon_expand; assumption. Qed.

(** The form is one in which nothing is left to do. *)
Definition sorted (t : list N) : Prop := forall u a b v, t = u ++ [a; b] ++ v -> ~ (0 < ccc b < ccc a).
Lemma sorted_cons : forall c t, sorted (c :: t) <-> sorted t /\ match t with x :: _ => ~ (0 < ccc x < ccc c) | [] => True end.
Proof.
  intros c t. split.
  - intros H. split; [intros u a b v E; apply (H (c :: u) a b v); cbn; rewrite E; reflexivity|]. destruct t as [|x t]; [exact I|]. exact (H [] c x t eq_refl).
  - intros (H & K) u a b v E. destruct u as [|c' u]; cbn [app] in E; injection E as -> E; [subst t; exact K|]. exact (H u a b v E).
Qed.
Lemma sorted_part : forall u t v, sorted (u ++ t ++ v) -> sorted t.
Proof. intros u t v H w a b x E. apply (H (u ++ w) a b (x ++ v)). rewrite E, <- !app_assoc. reflexivity. Qed.
Lemma put_sorted : forall c t, sorted t -> sorted (put_mark c t).
Proof.
  intros c t. induction t as [|x r IH]; intros H; cbn [put_mark]; [apply sorted_cons; split; [exact H|exact I]|].
  destruct ((0 <? ccc x) && (ccc x <? ccc c)) eqn:E.
  - apply sorted_cons in H. destruct H as (H & K). apply sorted_cons. split; [exact (IH H)|]. apply andb_prop in E. destruct E as (E1 & E2). apply N.ltb_lt in E1, E2. destruct r as [|y r]; cbn [put_mark]; [lia|]. destruct (_ && _); [exact K|lia].
  - apply sorted_cons. split; [exact H|]. apply andb_false_iff in E. intros (X & Y). destruct E as [E|E]; apply N.ltb_ge in E; lia.
Qed.
Lemma sort_sorted : forall t, sorted (sort_marks t).
Proof. induction t as [|c t IH]; [intros [|] ? ? ? E; discriminate|]. cbn [sort_marks fold_right]. apply put_sorted. exact IH. Qed.
Lemma sorted_sort : forall t, sorted t -> sort_marks t = t.
Proof.
  induction t as [|c t IH]; intros H; [reflexivity|]. apply sorted_cons in H. destruct H as (H & K). cbn [sort_marks fold_right]. fold (sort_marks t). rewrite (IH H). destruct t as [|x t]; [reflexivity|]. cbn [put_mark].
  destruct ((0 <? ccc x) && (ccc x <? ccc c)) eqn:E; [|reflexivity]. apply andb_prop in E. destruct E as (E1 & E2). apply N.ltb_lt in E1, E2. destruct (K (conj E1 E2)).
Qed.
Lemma put_plain : forall c t, plain c -> Forall plain t -> Forall plain (put_mark c t).
Proof. intros c t H F. induction F as [|x t Hx F IH]; cbn [put_mark]; [apply Forall_cons; [exact H|apply Forall_nil]|]. destruct (_ && _); apply Forall_cons; auto. Qed.
Lemma sort_plain : forall t, Forall plain t -> Forall plain (sort_marks t).
Proof. intros t F. induction F as [|c t H F IH]; [apply Forall_nil|]. cbn [sort_marks fold_right]. apply put_plain; assumption. Qed.
Lemma nfd_in : forall t, in_nfd (nfd t).
Proof.
  intros t. split; [|apply sort_sorted]. apply sort_plain. induction t as [|c t IH]; [apply Forall_nil|]. cbn [flat_map]. apply Forall_app. split; [apply full_plain|exact IH].
Qed.
Lemma in_nfd_part : forall u t v, in_nfd (u ++ t ++ v) -> in_nfd t.
Proof. intros u t v (P & S). apply Forall_app in P. destruct P as (_ & P). apply Forall_app in P. split; [apply P|exact (sorted_part u t v S)]. Qed.
Lemma in_nfd_nfd : forall t, in_nfd t -> nfd t = t.
Proof. intros t (P & S). unfold nfd. rewrite (plain_full t P). apply sorted_sort. exact S. Qed.
Lemma nfd_canon : forall t t', nfd t = nfd t' -> canon [] t t'.
Proof.
  intros t t' E. assert (F : forall s : list N, Forall (fun c => ~ In c []) s) by (intros s; apply Forall_forall; intros c _ []).
  apply (canon_trans _ _ (nfd t)); [apply (canon_to_nfd [] aside_none t (F t))|]. rewrite E. apply canon_sym, (canon_to_nfd [] aside_none t' (F t')).
Qed.
