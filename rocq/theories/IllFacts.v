(** Ill-formed text: units, and what the lookups make of them. *)
From Verif Require Import Base ListFacts Trie LookupFacts TableFacts Lk LookupOnly SpecUtf8 SpecUcd SpecLookup Engine Utf8 DecodeFacts UcdFacts UcdGraphemes UcdWords UcdSentences UcdPhrases SpecIll.
From Verif Require TableGraphemes TableWords TableSentences TablePhrases.
Local Open Scope N_scope.

Lemma scalarb_ok : forall c, scalarb c = true <-> scalar c.
Proof.
  intros c. unfold scalarb, scalar. rewrite orb_true_iff, andb_true_iff, N.leb_le, !N.ltb_lt. lia.
Qed.
Lemma dm : forall q r n, n <> 0 -> r < n -> (q * n + r) / n = q /\ (q * n + r) mod n = r.
Proof. exact divmod. Qed.

Lemma add_sub_l : forall k q, k + q - k = q.
Proof. intros. lia. Qed.
Lemma value_utf8 : forall c, scalar c -> value (utf8 c) = c.
Proof.
  intros c Hc. unfold utf8. destruct (N.ltb_spec c 0x80); [reflexivity|]. pose proof (N.div_mod c 0x40 ltac:(discriminate)) as E1. destruct (N.ltb_spec c 0x800).
  { cbn [value]. rewrite !add_sub_l. rewrite (N.mul_comm (c / 0x40)). symmetry. exact E1. }
  pose proof (N.div_mod (c / 0x40) 0x40 ltac:(discriminate)) as E2. rewrite N.div_div in E2 by discriminate. change (0x40 * 0x40) with 0x1000 in E2.
  destruct (N.ltb_spec c 0x10000).
  { cbn [value]. rewrite !add_sub_l. generalize dependent (c mod 0x40). generalize dependent ((c / 0x40) mod 0x40). generalize dependent (c / 0x40). generalize dependent (c / 0x1000). intros. lia. }
  pose proof (N.div_mod (c / 0x1000) 0x40 ltac:(discriminate)) as E3. rewrite N.div_div in E3 by discriminate. change (0x1000 * 0x40) with 0x40000 in E3.
  cbn [value]. rewrite !add_sub_l. generalize dependent (c mod 0x40). generalize dependent ((c / 0x40) mod 0x40). generalize dependent ((c / 0x1000) mod 0x40).
  generalize dependent (c / 0x40). generalize dependent (c / 0x40000). generalize dependent (c / 0x1000). intros. lia.
Qed.
Lemma character_utf8 : forall c, scalar c -> character (utf8 c) = c.
Proof.
  intros c Hc. unfold character. rewrite (value_utf8 c Hc). rewrite (proj2 (scalarb_ok c) Hc). destruct (list_eq_dec _ _ _) as [_|N]; [reflexivity|contradiction N; reflexivity].
Qed.
Lemma character_cases : forall u, (scalar (character u) /\ utf8 (character u) = u) \/ (character u = 0xFFFD /\ forall c, scalar c -> u <> utf8 c).
Proof.
  intros u. destruct (scalarb (value u) && (if list_eq_dec N.eq_dec (utf8 (value u)) u then true else false)) eqn:E.
  - left. unfold character. rewrite E. apply andb_prop in E. destruct E as (E1 & E2). destruct (list_eq_dec _ _ _) as [E3|]; [|discriminate]. split; [apply scalarb_ok; exact E1|exact E3].
  - right. unfold character. rewrite E. split; [reflexivity|]. intros c Hc ->. rewrite (value_utf8 c Hc), (proj2 (scalarb_ok c) Hc) in E.
    destruct (list_eq_dec _ _ _) as [_|N]; [discriminate|contradiction N; reflexivity].
Qed.
Lemma character_scalar : forall u, scalar (character u).
Proof. intros u. destruct (character_cases u) as [(H & _)|(-> & _)]; [exact H|unfold scalar; lia]. Qed.

Lemma continuation_not : forall c, continuation c = negb (notCont c).
Proof.
  intros c. unfold continuation, notCont. destruct (N.leb_spec 0x80 c), (N.ltb_spec c 0x80), (N.leb_spec c 0xBF), (N.leb_spec 0xC0 c); try reflexivity; lia.
Qed.

(** The width of a lookup is the length of the first unit. *)
Section Width.
  Variables values index : arr.
  Lemma lookup_width : forall d v w, lookup values index d = Ok (v, w) ->
    match first_unit d with Some u => w = length u | None => w = 0%nat end.
  Proof.
    intros [|c0 s] v w H; [discriminate|]. unfold first_unit, announced. revert H. unfold lookup. cbn [byte_at nth_error bind].
    destruct (N.ltb_spec c0 0x80).
    { destruct (N.ltb_spec c0 0xC2); [|lia]. destruct (arr_get _ _); cbn [bind]; intros HH; try discriminate. injection HH as _ <-.
      destruct (Nat.leb_spec 1 (length (c0 :: s))); [|cbn [length] in *; lia]. reflexivity. }
    destruct (N.ltb_spec c0 0xC2).
    { intros HH. injection HH as _ <-. destruct (Nat.leb_spec 1 (length (c0 :: s))); [|cbn [length] in *; lia]. reflexivity. }
    destruct (N.ltb_spec c0 0xE0).
    { destruct s as [|c1 s]. { cbn. intros HH. injection HH as _ <-. reflexivity. }
      cbn [length Nat.ltb Nat.leb byte_at nth_error bind Nat.sub continuations]. rewrite continuation_not.
      destruct (arr_get _ _); cbn [bind]; try discriminate. destruct (notCont c1); cbn [negb bind].
      { intros HH; injection HH as _ <-. reflexivity. }
      destruct (lookupValue _ _ _); cbn [bind]; intros HH; try discriminate. injection HH as _ <-. destruct s; reflexivity. }
    destruct (N.ltb_spec c0 0xF0).
    { destruct s as [|c1 [|c2 s]]; try (cbn; intros HH; injection HH as _ <-; reflexivity).
      cbn [length Nat.ltb Nat.leb byte_at nth_error bind Nat.sub continuations]. rewrite !continuation_not.
      destruct (arr_get _ _); cbn [bind]; try discriminate. destruct (notCont c1); cbn [negb bind].
      { intros HH; injection HH as _ <-. reflexivity. }
      destruct (arr_get _ _); cbn [bind]; try discriminate. destruct (notCont c2); cbn [negb bind].
      { intros HH; injection HH as _ <-. reflexivity. }
      destruct (lookupValue _ _ _); cbn [bind]; intros HH; try discriminate. injection HH as _ <-. destruct s; reflexivity. }
    destruct (N.ltb_spec c0 0xF8).
    { destruct s as [|c1 [|c2 [|c3 s]]]; try (cbn; intros HH; injection HH as _ <-; reflexivity).
      cbn [length Nat.ltb Nat.leb byte_at nth_error bind Nat.sub continuations]. rewrite !continuation_not.
      destruct (arr_get _ _); cbn [bind]; try discriminate. destruct (notCont c1); cbn [negb bind].
      { intros HH; injection HH as _ <-. reflexivity. }
      destruct (arr_get _ _); cbn [bind]; try discriminate. destruct (notCont c2); cbn [negb bind].
      { intros HH; injection HH as _ <-. reflexivity. }
      destruct (arr_get _ _); cbn [bind]; try discriminate. destruct (notCont c3); cbn [negb bind].
      { intros HH; injection HH as _ <-. reflexivity. }
      destruct (lookupValue _ _ _); cbn [bind]; intros HH; try discriminate. injection HH as _ <-. destruct s; reflexivity. }
    intros HH. injection HH as _ <-. cbn [length Nat.leb]. reflexivity.
  Qed.
End Width.

Lemma first_unit_nonnil : forall d u, first_unit d = Some u -> u <> [].
Proof. intros [|c d] u; cbn [first_unit]; [discriminate|]. destruct (_ <=? _)%nat; [|discriminate]. intros H. injection H as <-. discriminate. Qed.

(** A lookup of a unit gives the property of its character. *)
Section Property.
  Variable lk : bytes -> res (N * nat).
  Variable P : N -> N.
  Hypothesis LK : lk_ok lk.
  Hypothesis W : forall d v w, lk d = Ok (v, w) -> match first_unit d with Some u => w = length u | None => w = 0%nat end.
  Hypothesis CP : forall c rest, scalar c -> lk (utf8 c ++ rest) = Ok (P c, length (utf8 c)).
  Hypothesis ONLY : forall d v w, lk d = Ok (v, w) -> v <> 0 -> exists c rest, scalar c /\ d = utf8 c ++ rest /\ w = length (utf8 c).
  Hypothesis Z : P 0xFFFD = 0.

  Lemma lk_unit : forall u d, first_unit (u ++ d) = Some u -> lk (u ++ d) = Ok (P (character u), length u).
  Proof.
    intros u d Hu. pose proof (first_unit_nonnil _ _ Hu) as Nu. destruct (LK (u ++ d)) as (v & w & E & _). { intros X. apply app_eq_nil in X. tauto. }
    pose proof (W _ _ _ E) as Ew. rewrite Hu in Ew. subst w. destruct (character_cases u) as [(Hs & He)|(He & Hn)].
    - pose proof (CP (character u) d Hs) as C. rewrite He in C. exact C.
    - rewrite He, Z, E. f_equal. f_equal. destruct (N.eq_dec v 0) as [|Nv]; [assumption|]. exfalso.
      destruct (ONLY _ _ _ E Nv) as (c & rest & Hc & Eq & El). apply (Hn c Hc). apply (f_equal (firstn (length u))) in Eq.
      rewrite firstn_app, firstn_all, Nat.sub_diag, app_nil_r in Eq. rewrite El, firstn_app, firstn_all, Nat.sub_diag, app_nil_r in Eq. exact Eq.
  Qed.
  Lemma lk_none : forall d, d <> [] -> first_unit d = None -> exists v, lk d = Ok (v, 0%nat).
  Proof. intros d Hd Hu. destruct (LK d Hd) as (v & w & E & _). pose proof (W _ _ _ E) as Ew. rewrite Hu in Ew. subst w. exists v. exact E. Qed.
End Property.

Lemma g_unit : forall u d, first_unit (u ++ d) = Some u -> TableGraphemes.graphemes_lookup (u ++ d) = Ok (graphemes_property (character u), length u).
Proof.
  apply lk_unit; [exact g_lk|exact (lookup_width _ _)|exact g_lookup_cp| |vm_compute; reflexivity].
  intros d v w H Hv. exact (lookup_only _ _ g_only d v w H Hv).
Qed.
Lemma w_unit : forall u d, first_unit (u ++ d) = Some u -> TableWords.words_lookup (u ++ d) = Ok (words_property (character u), length u).
Proof.
  apply lk_unit; [exact w_lk|exact (lookup_width _ _)|exact w_lookup_cp| |vm_compute; reflexivity].
  intros d v w H Hv. exact (lookup_only _ _ w_only d v w H Hv).
Qed.
Lemma s_unit : forall u d, first_unit (u ++ d) = Some u -> TableSentences.sentences_lookup (u ++ d) = Ok (sentences_property (character u), length u).
Proof.
  apply lk_unit; [exact s_lk|exact (lookup_width _ _)|exact s_lookup_cp| |vm_compute; reflexivity].
  intros d v w H Hv. exact (lookup_only _ _ s_only d v w H Hv).
Qed.
Lemma p_unit : forall u d, first_unit (u ++ d) = Some u -> TablePhrases.phrases_lookup (u ++ d) = Ok (phrases_property (character u), length u).
Proof.
  apply lk_unit; [exact p_lk|exact (lookup_width _ _)|exact p_lookup_cp| |vm_compute; reflexivity].
  intros d v w H Hv. exact (lookup_only _ _ p_only d v w H Hv).
Qed.
Lemma g_none : forall d, d <> [] -> first_unit d = None -> exists v, TableGraphemes.graphemes_lookup d = Ok (v, 0%nat).
Proof. apply lk_none; [exact g_lk|exact (lookup_width _ _)]. Qed.
Lemma w_none : forall d, d <> [] -> first_unit d = None -> exists v, TableWords.words_lookup d = Ok (v, 0%nat).
Proof. apply lk_none; [exact w_lk|exact (lookup_width _ _)]. Qed.
Lemma s_none : forall d, d <> [] -> first_unit d = None -> exists v, TableSentences.sentences_lookup d = Ok (v, 0%nat).
Proof. apply lk_none; [exact s_lk|exact (lookup_width _ _)]. Qed.
Lemma p_none : forall d, d <> [] -> first_unit d = None -> exists v, TablePhrases.phrases_lookup d = Ok (v, 0%nat).
Proof. apply lk_none; [exact p_lk|exact (lookup_width _ _)]. Qed.

(** Every sequence of bytes has its units, and only one way. *)
Lemma first_unit_prefix : forall d u, first_unit d = Some u -> exists r, d = u ++ r.
Proof.
  assert (C : forall n d, exists r, d = continuations n d ++ r).
  { induction n as [|n IH]; intros d; [exists d; reflexivity|]. destruct d as [|c d]; [exists []; reflexivity|]. cbn [continuations].
    destruct (continuation c); [|exists (c :: d); reflexivity]. destruct (IH d) as (r & E). exists r. cbn [app]. rewrite <- E. reflexivity. }
  intros [|c d] u; cbn [first_unit]; [discriminate|]. destruct (_ <=? _)%nat; [|discriminate]. intros H. injection H as <-.
  destruct (C (announced c - 1)%nat d) as (r & E). exists r. cbn [app]. rewrite <- E. reflexivity.
Qed.
Lemma units_exist : forall d, exists us tail, units d us tail.
Proof.
  intros d. remember (length d) as n. revert d Heqn. induction n as [n IH] using lt_wf_ind. intros d ->.
  destruct (first_unit d) as [u|] eqn:E; [|exists [], d; constructor; exact E].
  destruct (first_unit_prefix d u E) as (r & ->). pose proof (first_unit_nonnil _ _ E) as Nu.
  destruct (IH (length r)) with (d := r) as (us & tail & U). { rewrite app_length. destruct u; [congruence|cbn; lia]. } { reflexivity. }
  exists (u :: us), tail. constructor; assumption.
Qed.
Lemma units_fun : forall d us tail, units d us tail -> forall us' tail', units d us' tail' -> us' = us /\ tail' = tail.
Proof.
  intros d us tail U. induction U as [tail E|u d us tail E U IH]; intros us' tail' U'.
  - inversion U' as [t E' H1 H2 H3|u d' us'' t E' U'' H1 H2 H3]; subst; [split; reflexivity|]. rewrite E in E'. discriminate.
  - remember (u ++ d) as x. destruct U' as [t E'|u' d' us'' t E' U'']; [rewrite E in E'; discriminate|]. rewrite Heqx in *. assert (u' = u) by congruence. subst u'.
    assert (d' = d). { apply (app_inv_head u). congruence. } subst d'. destruct (IH _ _ U'') as (-> & ->). split; reflexivity.
Qed.
Lemma units_concat : forall d us tail, units d us tail -> d = concat us ++ tail.
Proof. intros d us tail U. induction U; [reflexivity|]. cbn [concat]. rewrite <- app_assoc, <- IHU. reflexivity. Qed.
(** Well-formed text: the units are the characters. *)
Lemma first_unit_utf8 : forall c rest, scalar c -> first_unit (utf8 c ++ rest) = Some (utf8 c).
Proof.
  intros c rest Hc. pose proof (g_lookup_cp c rest Hc) as L. pose proof (lookup_width _ _ _ _ _ L) as Wd. destruct (first_unit (utf8 c ++ rest)) as [u|] eqn:E.
  - destruct (first_unit_prefix _ _ E) as (r & Er). f_equal. apply (f_equal (firstn (length u))) in Er. rewrite firstn_app, (firstn_app (length u) u), firstn_all, Nat.sub_diag in Er.
    rewrite <- Wd, Nat.sub_diag, firstn_all in Er. cbn [firstn] in Er. rewrite !app_nil_r in Er. congruence.
  - destruct (utf8_nonnil c) as (a & s & Eu). rewrite Eu in Wd. discriminate.
Qed.
Lemma units_encode : forall cps, scalars cps -> units (encode cps) (map utf8 cps) [].
Proof.
  intros cps H. induction H as [|c cps Hc H IH]; [constructor; reflexivity|]. unfold encode. cbn [map concat]. constructor; [apply first_unit_utf8; exact Hc|exact IH].
Qed.
