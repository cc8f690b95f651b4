(** graphemes: the split function as an instance of the common loop, and its contract. *)
From Verif Require Import Base ListFacts Trie Engine Lk TableGraphemes.
From Verif Require Graphemes.
Import Graphemes.
Local Open Scope N_scope.

Record gst := { gs_current : N; gs_lastEx : N; gs_lastLastEx : N; gs_ri : nat; gs_incb : incbState }.

Definition g_erules (st : gst) (current : N) (d : bytes) (w : nat) (atEOF : bool) : res (edec gst) :=
  let last := gs_current st in
  let lastLastEx := if negb (is last _Ignore) then gs_lastEx st else gs_lastLastEx st in
  let lastEx := if negb (is last _Ignore) then last else gs_lastEx st in
  let incb := g_incb_update last (gs_incb st) in
  match g_rules current last lastLastEx (gs_ri st) incb with
  | GBreak => Ok EBreak
  | GJoin ri' incb' =>
    Ok (EJoin w {| gs_current := current; gs_lastEx := lastEx; gs_lastLastEx := lastLastEx;
                   gs_ri := ri'; gs_incb := incb' |})
  end.

Definition GE : eng := {|
  e_St := gst;
  e_lk0 := graphemes_lookup;
  e_lk := graphemes_lookup;
  e_init := fun v => {| gs_current := v; gs_lastEx := 0; gs_lastLastEx := 0; gs_ri := 0; gs_incb := incbNone |};
  e_rules := g_erules
|}.

Definition to_g (pos : nat) (st : gst) : gstate :=
  {| g_pos := pos; g_current := gs_current st; g_lastEx := gs_lastEx st; g_lastLastEx := gs_lastLastEx st;
     g_ri := gs_ri st; g_incb := gs_incb st |}.

Lemma g_loop_engine : forall fuel data atEOF pos st, (pos <= length data)%nat ->
  g_loop fuel data atEOF (to_g pos st)
  = (r <- eloop GE fuel (skipn pos data) atEOF st ;; Ok (option_map (fun n => (pos + n)%nat) r)).
Proof.
  induction fuel as [|fuel IH]; intros data atEOF pos st Hp; [reflexivity|].
  unfold to_g; cbn [g_loop eloop g_pos g_current g_lastEx g_lastLastEx g_ri g_incb].
  destruct (Nat.eqb pos (length data)) eqn:E.
  { apply Nat.eqb_eq in E. rewrite skipn_all2 by lia. cbn [is_nil].
    destruct atEOF; cbn [negb bind option_map]; [rewrite Nat.add_0_r|]; reflexivity. }
  apply Nat.eqb_neq in E. rewrite (is_nil_false (skipn pos data)) by (apply skipn_nonnil; lia).
  unfold slice_from at 1. replace (length data <? pos)%nat with false by (symmetry; apply Nat.ltb_ge; lia). cbn [bind].
  change (e_lk GE) with graphemes_lookup.
  destruct (g_lk (skipn pos data)) as (v & w & Hl & Hw & _). { apply skipn_nonnil; lia. }
  rewrite Hl. cbn [bind]. destruct (Nat.eqb w 0) eqn:E0.
  { destruct atEOF; cbn [bind option_map]; [|reflexivity]. rewrite skipn_length. do 2 f_equal. lia. }
  rewrite skipn_length in Hw.
  change (e_rules GE st v (skipn pos data) w atEOF) with (g_erules st v (skipn pos data) w atEOF).
  unfold g_erules. destruct (g_rules v (gs_current st) _ _ _) as [ri' incb'|] eqn:Er.
  2:{ cbn [bind option_map]. rewrite Nat.add_0_r. reflexivity. }
  cbn [bind]. unfold slice_from. rewrite skipn_length.
  replace (length data - pos <? w)%nat with false by (symmetry; apply Nat.ltb_ge; lia). cbn [bind].
  rewrite skipn_skipn. replace (w + pos)%nat with (pos + w)%nat by lia.
  specialize (IH data atEOF (pos + w)%nat
    {| gs_current := v; gs_lastEx := if negb (is (gs_current st) _Ignore) then gs_current st else gs_lastEx st;
       gs_lastLastEx := if negb (is (gs_current st) _Ignore) then gs_lastEx st else gs_lastLastEx st;
       gs_ri := ri'; gs_incb := incb' |} ltac:(lia)).
  unfold to_g in IH; cbn [gs_current gs_lastEx gs_lastLastEx gs_ri gs_incb] in IH. rewrite IH.
  destruct (eloop GE fuel (skipn (pos + w) data) atEOF _) as [[n|]| |]; cbn [bind option_map]; try reflexivity.
  rewrite Nat.add_assoc. reflexivity.
Qed.

Definition g_fuel (data : bytes) : nat := S (length data).

Lemma g_split_engine : forall data atEOF, esplit GE g_fuel data atEOF = splitFunc data atEOF.
Proof.
  intros data atEOF. unfold esplit, splitFunc. destruct data as [|c d0]; [reflexivity|].
  set (data := c :: d0). change (is_nil data) with false. cbv iota.
  assert (Hs0 : slice_from data 0 = Ok data) by reflexivity. rewrite Hs0. cbn [bind].
  change (e_lk0 GE) with graphemes_lookup.
  destruct (g_lk data ltac:(discriminate)) as (v & w & Hl & Hw & _). rewrite Hl. cbn [bind].
  assert (Hst : slice_to data (length data) = Ok data).
  { unfold slice_to. replace (length data <? length data)%nat with false by (symmetry; apply Nat.ltb_ge; lia).
    rewrite firstn_all. reflexivity. }
  destruct (Nat.eqb w 0) eqn:E0. { rewrite Hst. cbn [bind]. destruct atEOF; reflexivity. }
  unfold slice_from. replace (length data <? w)%nat with false by (symmetry; apply Nat.ltb_ge; lia). cbn [bind].
  pose proof (g_loop_engine (S (length data)) data atEOF w (e_init GE v) Hw) as H.
  change (to_g w (e_init GE v)) with
    {| g_pos := w; g_current := v; g_lastEx := 0; g_lastLastEx := 0; g_ri := 0; g_incb := incbNone |} in H.
  rewrite H.
  unfold g_fuel. destruct (eloop GE _ (skipn w data) atEOF _) as [[n|]| |]; reflexivity.
Qed.

Definition g_mu (st : gst) (d : bytes) : nat := length d.

Lemma g_rules_ok : rules_ok GE g_mu.
Proof.
  intros st v d w Hd Hl Hw. change (e_lk GE) with graphemes_lookup in Hl.
  destruct (g_lk d Hd) as (v' & w' & Hl' & Hle & _). rewrite Hl in Hl'. injection Hl' as <- <-.
  change (e_rules GE) with g_erules. unfold g_erules.
  split.
  - intros atEOF. destruct (g_rules _ _ _ _ _) as [ri' incb'|].
    + eexists; split; [reflexivity|]. split; [|split; discriminate].
      intros adv st' H. injection H as <- <-. unfold g_mu. rewrite skipn_length. lia.
    + eexists; split; [reflexivity|]. split; [|split]; discriminate.
  - intros dec H _ t b. exact H.
Qed.

Theorem g_split_ok : split_ok splitFunc.
Proof.
  eapply split_ok_ext; [apply g_split_engine|].
  apply (esplit_ok GE g_mu g_fuel g_lk g_lk g_rules_ok).
  intros data v w _ Hw Hle. unfold g_mu, g_fuel. rewrite skipn_length. lia.
Qed.
