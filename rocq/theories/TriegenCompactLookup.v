(** The lookup in tables generated with Compacters follows the tries. *)
From Verif Require Import Base Trie SpecUtf8 LookupOnly ListFacts SpecTriegen Triegen TriegenMany TriegenCompact SpecTrieHash SpecTrieShare SpecTrieCompact.
From Verif Require Import TriegenFacts TriegenIns TriegenBuild TriegenSize TriegenTables TriegenLookup TriegenShare TriegenFit TriegenCompactFacts.
Local Open Scope N_scope.

(** * Offset and Cutoff *)
Fixpoint span (ms : list N) : N := match ms with [] => 0 | m :: r => m + 1 + span r end.
Lemma u32_id : forall x, x < 2 ^ 32 -> u32 x = x.
Proof. intros x Hx. unfold u32. change 0xFFFFFFFF with (N.ones 32). rewrite N.land_ones. apply N.mod_small. exact Hx. Qed.

Lemma layout_cons : forall off m r, off + (m + 1) < 2 ^ 32 -> layout off (m :: r) = (off, off + (m + 1)) :: layout (off + (m + 1)) r.
Proof. intros off m r Hl. cbn [layout]. rewrite (u32_id (m + 1)) by lia. rewrite u32_id by exact Hl. reflexivity. Qed.

Lemma layout_switch : forall ms off k c i m, nth_error ms c = Some m -> i <= m -> (k = 0%nat -> off = 0) -> off + span ms < 2 ^ 32 ->
  let o := fst (nth c (layout off ms) (0, 0)) in off <= o /\ o + i < off + span ms /\ switch k (o + i) (layout off ms) = ((k + c)%nat, i).
Proof.
  induction ms as [|m r IH]; intros off k [|c] i m' E Hi Hk Hs; try discriminate E; cbn [span] in Hs; rewrite layout_cons by lia; cbn [nth fst].
  - injection E as ->. split; [lia|]. split; [cbn [span]; lia|]. cbn [switch].
    assert (Q : (k, match k with O => off + i | S _ => off + i - off end) = ((k + 0)%nat, i)) by (rewrite Nat.add_0_r; f_equal; destruct k; [rewrite Hk by reflexivity; lia|lia]).
    destruct (layout (off + (m' + 1)) r); [exact Q|]. replace (off + i <? off + (m' + 1)) with true by (symmetry; apply N.ltb_lt; lia). exact Q.
  - cbn [nth_error] in E. destruct (IH (off + (m + 1)) (S k) c i m' E Hi ltac:(discriminate) ltac:(lia)) as (A & B & C). cbv zeta in *.
    set (o := fst (nth c (layout (off + (m + 1)) r) (0, 0))) in *. split; [lia|]. split; [cbn [span]; lia|]. cbn [switch].
    assert (R : exists x y, layout (off + (m + 1)) r = x :: y) by (destruct r as [|m2 r]; [destruct c; discriminate E|cbn [layout]; do 2 eexists; reflexivity]).
    destruct R as (x & y & R). rewrite R in *. replace (o + i <? off + (m + 1)) with false by (symmetry; apply N.ltb_ge; lia). rewrite C. f_equal. lia.
Qed.
Lemma layout_last : forall r m off d, off + span (m :: r) < 2 ^ 32 -> snd (last (layout off (m :: r)) d) = off + span (m :: r).
Proof.
  induction r as [|m2 r IH]; intros m off d Hs; cbn [span] in Hs; rewrite layout_cons by lia; [cbn [layout last snd span]; lia|].
  specialize (IH m2 (off + (m + 1)) d). replace (last ((off, off + (m + 1)) :: layout (off + (m + 1)) (m2 :: r)) d) with (last (layout (off + (m + 1)) (m2 :: r)) d) by reflexivity.
  rewrite IH by (cbn [span]; lia). cbn [span]. lia.
Qed.

Section Tables.
  Variable H : list N -> N.
  Variable cs : list compacter.
  Variable vsize : N.
  Variable T : node -> Prop.
  Variable t : node.
  Variable b : cbuilder.
  Variable g : generated_c.
  Variable row : list nodeIndex.
  Variables r0 a0 : nat.
  (** No value is larger. *)
  Variable M : N.
  Hypothesis W : wf_root t.
  Hypothesis Wi : within M t.
  Hypothesis Srow : nth_error (c_index b) (r0 + 3) = Some row.
  Hypothesis Lrow : length row = 64%nat.
  Hypothesis Crow : forall p oc, nth_error (children t) p = Some oc -> match oc with None => nth p row ni0 = ni0 | Some c => crepr cs (depth p) b c (nth p row ni0) end.
  Hypothesis V0 : nth_error (c_values b) a0 = Some (firstn blockSize (values t)).
  Hypothesis V1 : nth_error (c_values b) (S a0) = Some (skipn blockSize (values t)).
  Hypothesis I : cinv H cs vsize T M false b.
  Hypothesis Cn : ccount b <= 0x4000000.
  Hypothesis Faith : Forall faithful cs.
  Hypothesis Span : span (maxes b) < 2 ^ 32.
  Hypothesis Gv : gc_values g = fst (ctables b).
  Hypothesis Gl : gc_lay g = lay b.
  Hypothesis Gs : gc_stored g = map k_stored (c_more b).
  Hypothesis Gw : M < 2 ^ (8 * gc_vsize g).

  Let Values : arr := fst (ctables b).
  Let Index : arr := snd (ctables b).
  Let tr : trie := {| t_values := Values; t_index := Index; t_ascii := N.of_nat a0 * 64; t_utf8Start := N.of_nat r0 * 64 |}.
  Let en : nodeIndex -> N := entry (lay b).

  Lemma cvget : forall n block j, nth_error (c_values b) n = Some block -> j < 64 -> arr_get Values (N.of_nat n * 64 + j) = Ok (nth (N.to_nat j) block 0).
  Proof. intros n block j E Hj. apply get_block; [exact (proj2 (ci_rows H cs vsize T M false b I))|exact E|exact Hj]. Qed.

  Lemma entry_at : forall c i m, nth_error (maxes b) c = Some m -> i <= m -> en (c, i) < 2 ^ 32 /\ switch 0 (en (c, i)) (lay b) = (c, i).
  Proof.
    intros c i m E Hi. destruct (layout_switch (maxes b) 0 0 c i m E Hi ltac:(reflexivity) ltac:(lia)) as (_ & B & C). cbv zeta in B, C. unfold en, entry, lay. cbn [fst snd].
    set (o := fst (nth c (layout 0 (maxes b)) (0, 0))) in *. rewrite (u32_id i) by lia. rewrite u32_id by lia. split; [lia|exact C].
  Qed.
  Lemma entry_0 : forall i, i < 2 ^ 32 -> en (0%nat, i) = i.
  Proof. intros i Hi. unfold en, entry, lay, maxes. cbn [layout fst snd nth]. rewrite N.add_0_l, u32_id; [apply u32_id; exact Hi|]. rewrite u32_id by exact Hi. exact Hi. Qed.
  Lemma entry_00 : en ni0 = 0.
  Proof. apply entry_0. reflexivity. Qed.
  Lemma switch_00 : switch 0 0 (lay b) = (0%nat, 0).
  Proof. destruct (entry_at 0 0 (c_max b) eq_refl (N.le_0_l _)) as [_ E]. rewrite entry_00 in E. exact E. Qed.

  Lemma ciget : forall n r j, nth_error (c_index b) n = Some r -> j < 64 -> arr_get Index (N.of_nat n * 64 + j) = Ok (en (nth (N.to_nat j) r ni0)).
  Proof.
    intros n r j E Hj. unfold Index, ctables. cbn [snd]. rewrite (get_block (rows b) n (map en r) j); [| |unfold rows; exact (map_nth_error _ _ _ E)|exact Hj].
    - f_equal. rewrite <- entry_00. apply map_nth.
    - unfold rows. apply Forall_map. pose proof (proj1 (ci_rows H cs vsize T M false b I)) as R. apply Forall_impl with (2 := R). intros x Hx. rewrite map_length. exact Hx.
  Qed.

  Definition cstate (k : nat) (on : option node) (i : N) : Prop :=
    match on with None => i = 0 | Some n => wf k n /\ within M n /\ exists e, i = en e /\ crepr cs k b n e end.

  Lemma in_maxes : forall j k, nth_error (c_more b) j = Some k -> nth_error (maxes b) (S j) = Some (k_max k).
  Proof. intros j k E. unfold maxes. cbn [nth_error]. exact (map_nth_error k_max _ _ E). Qed.

  Lemma plain_value : forall i block c, nth_error (c_values b) (N.to_nat i + 2) = Some block -> cont c -> lookupValue (gc_values g) i c = Ok (nth (N.to_nat (c - 0x80)) block 0).
  Proof.
    intros i block c E Hc. rewrite Gv. unfold lookupValue. assert (L : (N.to_nat i + 2 < length (c_values b))%nat) by (apply nth_error_Some; rewrite E; discriminate). unfold ccount in Cn.
    rewrite addr by (assumption || lia). apply (cvget _ _ _ E). unfold cont in Hc. lia.
  Qed.

  Lemma cstep_value : forall on i c, cstate 0 on i -> cont c -> lookupValue_c cs g i c = Ok (getp [c] on).
  Proof.
    intros on i c S Hc. unfold lookupValue_c. rewrite Gl. destruct on as [n|]; cbn [cstate getp get_path] in *.
    - destruct S as (Wn & Wm & e & -> & R). destruct Wn as [_ Lv]. destruct e as [[|j] x]; cbn [crepr leaf_at fst snd] in R.
      + destruct R as [R Mx]. destruct (entry_at 0 x (c_max b) eq_refl Mx) as [_ ->]. apply plain_value; assumption.
      + destruct R as (k & ka & before & after & Ec & Ek & Es & -> & Sz & Mx). destruct (entry_at (Datatypes.S j) _ _ (in_maxes j ka Ek) Mx) as [_ ->]. rewrite Ec, Gs, (map_nth_error k_stored _ _ Ek), Es. f_equal.
        assert (F : faithful k) by (rewrite Forall_forall in Faith; apply Faith; exact (nth_error_In _ _ Ec)).
        destruct (F before (values n) after Lv Sz) as [_ F2]. rewrite F2 by (unfold cont in Hc; lia). apply N.mod_small.
        assert (B : nth (N.to_nat (c - 0x80)) (values n) 0 <= M); [|lia]. specialize (Wm n (below_refl n)). rewrite Forall_forall in Wm. apply Wm. apply nth_In. unfold cont in Hc. lia.
    - subst i. rewrite switch_00. rewrite (plain_value 0 _ c (ci_zero H cs vsize T M false b I) Hc). rewrite nth_repeat_0. reflexivity.
  Qed.

  Lemma cstep_index : forall k on i c, cstate (S k) on i -> cont c ->
    exists on' i', arr_get Index (u32 (u32 (N.shiftl i 6) + c)) = Ok i' /\ cstate k on' i' /\ forall c2 r, getp (c :: c2 :: r) on = getp (c2 :: r) on'.
  Proof.
    intros k on i c S Hc. assert (Hj : c - 0x80 < 64) by (unfold cont in Hc; lia). destruct on as [n|]; cbn [cstate] in S.
    - destruct S as (Wn & Wm & e & Ei & R). destruct R as (Z & G2 & r & R & L & C). destruct e as [e0 x]. cbn [fst snd] in *. subst e0.
      assert (Lx : (N.to_nat x + 2 < length (c_index b))%nat) by (apply nth_error_Some; rewrite R; discriminate). unfold ccount in Cn.
      rewrite entry_0 in Ei by lia. subst i. rewrite addr by (assumption || lia). destruct Wn as (_ & Wl & Wc).
      destruct (nth_error (children n) (N.to_nat (c - 0x80))) as [oc|] eqn:E; [|apply nth_error_None in E; lia].
      exists oc. eexists. rewrite (ciget _ _ _ R Hj). split; [reflexivity|]. specialize (C _ _ E). split.
      + destruct oc as [c'|]; cbn [cstate]; [|rewrite C; exact entry_00]. split; [exact (Wc _ _ E)|]. split; [destruct n as [nc nv]; exact (within_child M nc nv c' Wm (nth_error_In _ _ E))|]. eexists. split; [reflexivity|exact C].
      + intros c2 r2. change (getp (c :: c2 :: r2) (Some n)) with (match nth_error (children n) (N.to_nat (c mod 64)) with Some (Some c') => get_path (c2 :: r2) c' | _ => 0 end).
        rewrite cont_mod by exact Hc. rewrite E. destruct oc; reflexivity.
    - subst i. rewrite addr by (assumption || reflexivity). exists None, 0. cbn [N.to_nat Nat.add]. rewrite (ciget 2 _ _ (ci_low H cs vsize T M false b I 2%nat ltac:(lia)) Hj).
      split; [destruct (N.to_nat (c - 0x80)); cbn [nth]; rewrite entry_00; reflexivity|]. split; reflexivity.
  Qed.

  Lemma cstep_root : forall c, 0xC2 <= c < 0xF8 ->
    exists on i, arr_get Index (N.of_nat r0 * 64 + c) = Ok i /\ cstate (depth (N.to_nat (c - 0xC0))) on i /\ forall c2 r, get t (c :: c2 :: r) = getp (c2 :: r) on.
  Proof.
    intros c Hc. assert (Hj : c - 0xC0 < 64) by lia. pose proof (ciget _ row (c - 0xC0) Srow Hj) as Ig. replace (N.of_nat (r0 + 3) * 64 + (c - 0xC0)) with (N.of_nat r0 * 64 + c) in Ig by lia.
    destruct W as (_ & Wl & Wc). destruct (nth_error (children t) (N.to_nat (c - 0xC0))) as [oc|] eqn:E; [|apply nth_error_None in E; lia].
    exists oc. eexists. rewrite Ig. split; [reflexivity|]. pose proof (Crow _ _ E) as C. split.
    - destruct oc as [c'|]; cbn [cstate]; [|rewrite C; exact entry_00]. split; [exact (Wc _ _ E)|]. split; [destruct t as [tc tv]; exact (within_child M tc tv c' Wi (nth_error_In _ _ E))|]. eexists. split; [reflexivity|exact C].
    - intros c2 r2. change (get t (c :: c2 :: r2)) with (match nth_error (children t) (N.to_nat (c mod 64)) with Some (Some c') => get_path (c2 :: r2) c' | _ => 0 end).
      rewrite mod_hi by lia. rewrite E. destruct oc; reflexivity.
  Qed.

  Lemma cstep_ascii : forall c, c < 0x80 -> arr_get Values (N.of_nat a0 * 64 + c) = Ok (nth (N.to_nat c) (values t) 0).
  Proof.
    intros c Hc. destruct W as (Wv & _ & _). destruct (N.lt_ge_cases c 64) as [L|L].
    - rewrite (cvget _ _ _ V0 L). f_equal. rewrite <- (firstn_skipn blockSize (values t)) at 2. rewrite app_nth1; [reflexivity|]. rewrite firstn_length. unfold blockSize. lia.
    - replace (N.of_nat a0 * 64 + c) with (N.of_nat (S a0) * 64 + (c - 64)) by lia. rewrite (cvget _ _ _ V1) by lia. f_equal. rewrite <- (firstn_skipn blockSize (values t)) at 2.
      assert (Lf : length (firstn blockSize (values t)) = 64%nat) by (rewrite firstn_length; unfold blockSize; lia).
      rewrite app_nth2 by lia. rewrite Lf. f_equal. lia.
  Qed.

  Lemma clookup_answer : forall d, d <> [] -> exists v w, lookup_c cs g tr d = Ok (v, w) /\ answer t d v w.
  Proof. exact (steps_answer t _ tr cstate cstep_value cstep_index cstep_root cstep_ascii). Qed.
End Tables.

(** * All the tries *)
Section All.
  Variable H : list N -> N.
  Variable cs : list compacter.
  Variable vsize : N.
  Variable all : list node.
  Hypothesis W : forall t, In t all -> wf_root t.
  Hypothesis D : distinct_all H all.
  Variable M : N.
  Hypothesis Wm : forall t, In t all -> within M t.

  Lemma among_max : forall n, among all n -> Forall (fun x => x <= M) (values n).
  Proof. intros n (t & Ht & B). exact (Wm t Ht n B). Qed.

  Definition cascii_at (b : cbuilder) (t : node) (v : N) : Prop :=
    nth_error (c_values b) (N.to_nat v) = Some (firstn blockSize (values t)) /\ nth_error (c_values b) (S (N.to_nat v)) = Some (skipn blockSize (values t)).
  Lemma cascii_at_grows : forall b b' t v, cgrows false b b' -> cascii_at b t v -> cascii_at b' t v.
  Proof. intros b b' t v [G _] [A B]. split; apply G; assumption. Qed.

  Record cgood (s : cshared) : Prop := {
    cg_inv : cinv H cs vsize (among all) M false (cs_builder s);
    cg_ascii : forall h v, find h (cs_ascii s) = Some v -> exists t, In t all /\ H (values t) = h /\ cascii_at (cs_builder s) t v
  }.
  Definition chandle_ok (b : cbuilder) (t : node) (h : handle) : Prop := croot_repr cs b t (h_starter h + 1) /\ cascii_at b t (h_ascii h) /\ h_checksum h = nhash H t.
  Lemma chandle_ok_grows : forall b b' t h, cgrows false b b' -> chandle_ok b t h -> chandle_ok b' t h.
  Proof. intros b b' t h G (A & B & C). split; [exact (croot_repr_grows cs b b' t _ G A)|]. split; [exact (cascii_at_grows b b' t _ G B)|exact C]. Qed.

  Lemma cplace_ok : forall t s, In t all -> cgood s -> let '(v, s1) := place_ascii_c H t s in
    cgood s1 /\ cgrows false (cs_builder s) (cs_builder s1) /\ cascii_at (cs_builder s1) t v /\ ccount (cs_builder s1) <= ccount (cs_builder s) + 2.
  Proof.
    intros t s Ht G. unfold place_ascii_c. destruct (find (H (values t)) (cs_ascii s)) as [v|] eqn:F.
    - split; [exact G|]. split; [apply cgrows_refl|]. split; [|lia]. destruct (cg_ascii s G _ _ F) as (t' & Ht' & E & A).
      unfold cascii_at in *. rewrite <- (proj2 (proj2 D) t' t Ht' Ht E). exact A.
    - set (b := cs_builder s). pose proof (cg_inv s G) as I. pose proof (ci_vlen _ _ _ _ _ _ _ I) as VL. fold b in I, VL.
      assert (Q : Nat.eqb (length (c_values b)) 0 = false) by (apply Nat.eqb_neq; lia). rewrite Q, app_nil_r. cbv zeta.
      set (b' := {| c_index := c_index b |}). set (v := N.of_nat (length (c_values b))).
      assert (Gr : cgrows false b b').
      { split; [|split; [intros j x _ E; exact E|split; [cbn [b' c_max c_index]; lia|apply kgrows_refl]]]. intros j x E. cbn [b' c_values]. rewrite nth_error_app1; [exact E|]. apply nth_error_Some. rewrite E. discriminate. }
      assert (A : cascii_at b' t v).
      { unfold cascii_at, v. rewrite Nnat.Nat2N.id. cbn [b' c_values]. split; (rewrite nth_error_app2 by lia).
        - rewrite Nat.sub_diag. reflexivity.
        - replace (S (length (c_values b)) - length (c_values b))%nat with 1%nat by lia. reflexivity. }
      destruct (W t Ht) as (Wv & _ & _).
      split; [|split; [exact Gr|split; [exact A|]]].
      + constructor; cbn [cs_builder cs_ascii].
        * constructor.
          -- exact (ci_low _ _ _ _ _ _ b I).
          -- exact (ci_len _ _ _ _ _ _ b I).
          -- apply (proj1 Gr). exact (ci_zero _ _ _ _ _ _ b I).
          -- intros h i Fh Zh. exact (ci_grows_i _ _ _ _ _ _ b b' I Gr h i Fh Zh).
          -- intros h i Fh Zh. exact (ci_grows_v _ _ _ _ _ _ b b' I Gr h i Fh Zh).
          -- exact (ci_k _ _ _ _ _ _ b I).
          -- exact (ci_max _ _ _ _ _ _ b I).
          -- pose proof (ci_top _ _ _ _ _ _ b I). cbn [b' c_max c_values]. rewrite app_length. cbn [length]. lia.
          -- exact (ents_grow false b b' _ Gr (ci_ent _ _ _ _ _ _ b I)).
          -- cbn [b' c_values]. apply Forall_app. split; [exact (ci_vals _ _ _ _ _ _ b I)|]. pose proof (Wm t Ht t (below_refl t)) as Vt. constructor; [apply Forall_firstn; exact Vt|]. constructor; [apply Forall_skipn; exact Vt|constructor].
          -- exact (ci_said _ _ _ _ _ _ b I).
          -- split; [exact (proj1 (ci_rows _ _ _ _ _ _ b I))|]. cbn [b' c_values]. apply Forall_app. split; [exact (proj2 (ci_rows _ _ _ _ _ _ b I))|].
             unfold blockSize, le64. constructor; [rewrite firstn_length; lia|]. constructor; [rewrite skipn_length; lia|constructor].
        * intros h x Fx. cbn [find] in Fx. destruct (N.eqb_spec (H (values t)) h) as [<-|_].
          -- injection Fx as <-. exists t. repeat split; [exact Ht|exact (proj1 A)|exact (proj2 A)].
          -- destruct (cg_ascii s G h x Fx) as (t' & Ht' & E & A'). exists t'. split; [exact Ht'|]. split; [exact E|]. exact (cascii_at_grows b b' t' x Gr A').
      + unfold ccount. cbn [cs_builder b' c_index c_values]. fold b. rewrite app_length. cbn [length]. lia.
  Qed.

  Lemma ctrie_ok : forall t s, In t all -> cgood s -> let '(h, s') := buildTrie_c H cs vsize t s in
    cgood s' /\ cgrows false (cs_builder s) (cs_builder s') /\ chandle_ok (cs_builder s') t h /\ ccount (cs_builder s') <= ccount (cs_builder s) + 266307.
  Proof.
    intros t s Ht G. unfold buildTrie_c. pose proof (cplace_ok t s Ht G) as P. destruct (place_ascii_c H t s) as [v s1]. destruct P as (G1 & X1 & A1 & C1).
    destruct D as (DZ & DI & _).
    pose proof (croot_ok H cs vsize (among all) (among_child all) DZ DI M among_max t (cs_builder s1) (W t Ht) (among_root all t Ht) (cg_inv s1 G1)) as R.
    destruct (computeOffsets_c H cs vsize t (cs_builder s1)) as [[h i] b]. destruct R as (Eh & I & X & _ & Rr & Cn). cbn [cs_builder].
    split; [|split; [exact (cgrows_trans _ _ _ _ X1 X)|split; [|lia]]].
    - constructor; [exact I|]. cbn [cs_ascii cs_builder]. intros h' x Fx. destruct (cg_ascii s1 G1 h' x Fx) as (t' & Ht' & E & A'). exists t'. split; [exact Ht'|]. split; [exact E|]. exact (cascii_at_grows _ _ t' x X A').
    - split; [|split; [exact (cascii_at_grows _ _ t v X A1)|exact Eh]]. cbn [h_starter]. pose proof (proj1 Rr) as P1. change (N.of_nat (rootBlockOffset - blockOffset)) with 1. rewrite N.sub_add by exact P1. exact Rr.
  Qed.

  Lemma ctrie_first_ok : forall t, In t all -> let '(h, s') := buildTrie_c H cs vsize t (cshared0 cs) in
    cgood s' /\ chandle_ok (cs_builder s') t h /\ ccount (cs_builder s') <= 266311.
  Proof.
    intros t Ht. unfold buildTrie_c, place_ascii_c. cbn [cs_ascii cshared0 find cs_builder c_index c_values c_iidx c_vidx c_max c_more length Nat.eqb app].
    destruct D as (DZ & DI & _). destruct (W t Ht) as (Wv & Wr). set (b0 := {| c_index := [[]; []; []] |}).
    assert (R := cfirst_ok H cs vsize (among all) (among_child all) DZ DI M among_max t b0 (W t Ht) (among_root all t Ht) eq_refl eq_refl eq_refl eq_refl eq_refl (map_length _ _)).
    assert (K : forall j k, nth_error (c_more b0) j = Some k -> k_stored k = [] /\ k_max k = 0 /\ k_total k = 0).
    { intros j k E. cbn [b0 c_more] in E. apply nth_error_In in E. apply in_map_iff in E as (c & <- & _). repeat split; reflexivity. }
    assert (V : Forall le64 (c_values b0)).
    { cbn [b0 c_values]. unfold blockSize, le64. constructor; [rewrite firstn_length; lia|]. constructor; [rewrite skipn_length; lia|]. constructor; [rewrite repeat_length; lia|constructor]. }
    assert (V2 : Forall (Forall (fun x => x <= M)) (c_values b0)).
    { cbn [b0 c_values]. pose proof (Wm t Ht t (below_refl t)) as Vt. constructor; [apply Forall_firstn; exact Vt|]. constructor; [apply Forall_skipn; exact Vt|]. constructor; [apply repeat_le|constructor]. }
    specialize (R K V V2). destruct (computeOffsets_c H cs vsize t b0) as [[h i] b]. destruct R as (Eh & I & X & -> & Rr & Cn). cbn [cs_builder h_ascii h_starter snd].
    assert (A : cascii_at b t 0) by (split; apply (proj1 X); reflexivity).
    split; [|split].
    - constructor; [exact I|]. cbn [cs_ascii cs_builder find]. intros h' x Fx. destruct (N.eqb_spec (H (values t)) h') as [<-|_]; [|discriminate Fx]. injection Fx as <-. exists t. split; [exact Ht|]. split; [reflexivity|exact A].
    - split; [exact Rr|]. split; [exact A|exact Eh].
    - change (ccount b0) with 6 in Cn. lia.
  Qed.

  Lemma ctries_ok : forall ts s, incl ts all -> cgood s -> let '(hs, s') := build_tries_c H cs vsize ts s in
    cgood s' /\ cgrows false (cs_builder s) (cs_builder s') /\ Forall2 (chandle_ok (cs_builder s')) ts hs /\ ccount (cs_builder s') <= ccount (cs_builder s) + N.of_nat (length ts) * 266307.
  Proof.
    induction ts as [|t ts IH]; intros s In G; cbn [build_tries_c].
    - split; [exact G|]. split; [apply cgrows_refl|]. split; [constructor|]. cbn [length]. lia.
    - pose proof (ctrie_ok t s (In t (or_introl eq_refl)) G) as P. destruct (buildTrie_c H cs vsize t s) as [h s1]. destruct P as (G1 & X1 & O1 & C1).
      specialize (IH s1 (fun x Hx => In x (or_intror Hx)) G1). destruct (build_tries_c H cs vsize ts s1) as [hs s2]. destruct IH as (G2 & X2 & O2 & C2).
      split; [exact G2|]. split; [exact (cgrows_trans _ _ _ _ X1 X2)|]. split; [constructor; [exact (chandle_ok_grows _ _ t h X2 O1)|exact O2]|]. cbn [length]. rewrite Nnat.Nat2N.inj_succ, N.mul_succ_l. lia.
  Qed.

  Lemma cbuild_ok : forall t ts, all = t :: ts -> let '(hs, s) := build_tries_c H cs vsize all (cshared0 cs) in
    cgood s /\ Forall2 (chandle_ok (cs_builder s)) all hs /\ ccount (cs_builder s) <= 4 + N.of_nat (length all) * 266307.
  Proof.
    intros t ts E. replace (build_tries_c H cs vsize all (cshared0 cs)) with (build_tries_c H cs vsize (t :: ts) (cshared0 cs)) by (f_equal; symmetry; exact E). cbn [build_tries_c]. assert (Ht : In t all) by (rewrite E; left; reflexivity).
    pose proof (ctrie_first_ok t Ht) as P. destruct (buildTrie_c H cs vsize t (cshared0 cs)) as [h s1]. destruct P as (G1 & O1 & C1).
    assert (Hi : incl ts all) by (rewrite E; intros x Hx; right; exact Hx).
    pose proof (ctries_ok ts s1 Hi G1) as P. destruct (build_tries_c H cs vsize ts s1) as [hs s2]. destruct P as (G2 & X2 & O2 & C2).
    split; [exact G2|].
    assert (F : Forall2 (chandle_ok (cs_builder s2)) (t :: ts) (h :: hs)) by (constructor; [exact (chandle_ok_grows _ _ t h X2 O1)|exact O2]). rewrite <- E in F. split; [exact F|].
    assert (L : length all = S (length ts)) by (rewrite E; reflexivity). rewrite L. cbn [length]. rewrite Nnat.Nat2N.inj_succ, N.mul_succ_l. lia.
  Qed.

  (** The span of all the handles. *)
  Lemma span_more : forall s, cgood s -> span (map k_max (c_more (cs_builder s))) = handles cs (map k_stored (c_more (cs_builder s))).
  Proof.
    intros s G. pose proof (ci_max _ _ _ _ _ _ _ (cg_inv s G)) as Mx. pose proof (ci_k _ _ _ _ _ _ _ (cg_inv s G)) as L. revert Mx L. generalize (c_more (cs_builder s)) as ks. clear.
    induction cs as [|c r IH]; intros [|k ks] Mx L; try discriminate L; [reflexivity|]. cbn [map span handles]. rewrite (Mx 0%nat c k eq_refl eq_refl). f_equal.
    apply IH; [|injection L as L; exact L]. intros j c' k' Ec Ek. exact (Mx (S j) c' k' Ec Ek).
  Qed.
  Lemma span_all : forall s, cgood s -> ccount (cs_builder s) <= 0x4000000 -> handles cs (map k_stored (c_more (cs_builder s))) <= 0xF0000000 -> span (maxes (cs_builder s)) < 2 ^ 32.
  Proof.
    intros s G Cn Hh. unfold maxes. cbn [span]. rewrite (span_more s G). pose proof (ci_top _ _ _ _ _ _ _ (cg_inv s G)) as Top. unfold ccount in Cn. change (2 ^ 32) with 4294967296. lia.
  Qed.
End All.

Lemma chandle_answers : forall H cs vsize all s t h g M, wf_root t -> within M t -> cgood H cs vsize all M s -> chandle_ok H cs (cs_builder s) t h -> ccount (cs_builder s) <= 0x4000000 ->
  Forall faithful cs -> span (maxes (cs_builder s)) < 2 ^ 32 ->
  gc_values g = fst (ctables (cs_builder s)) -> gc_lay g = lay (cs_builder s) -> gc_stored g = map k_stored (c_more (cs_builder s)) -> M < 2 ^ (8 * gc_vsize g) ->
  exists tr, newTrie (fst (ctables (cs_builder s))) (snd (ctables (cs_builder s))) h = Ok tr /\ forall d, d <> [] -> exists v w, lookup_c cs g tr d = Ok (v, w) /\ answer t d v w.
Proof.
  intros H cs vsize all s t h g M Wt Wi G (Rr & [A0 A1] & _) Cn Fa Sp Gv Gl Gs Gw. set (b := cs_builder s) in *. destruct Rr as (_ & row & Sr & Lr & Cr).
  set (r0 := N.to_nat (h_starter h)). set (a0 := N.to_nat (h_ascii h)).
  replace (N.to_nat (h_starter h + 1) + 2)%nat with (r0 + 3)%nat in Sr by (unfold r0; lia).
  assert (Lv : (S a0 < length (c_values b))%nat) by (apply nth_error_Some; unfold a0; rewrite A1; discriminate).
  assert (Li : (r0 + 3 < length (c_index b))%nat) by (apply nth_error_Some; rewrite Sr; discriminate).
  assert (Off : forall x n, x = N.of_nat n -> N.of_nat n < 0x4000000 -> u32 (N.shiftl (u32 x) 6) = N.of_nat n * 64).
  { intros x n -> Hn. rewrite N.shiftl_mul_pow2. change (2 ^ 6) with 64. rewrite (u32_id (N.of_nat n)) by (change (2 ^ 32) with 4294967296; lia). apply u32_id. change (2 ^ 32) with 4294967296. lia. }
  pose proof (cg_inv H cs vsize all M s G) as I. fold b in I. pose proof Cn as Cn'. unfold ccount in Cn'.
  exists {| t_values := fst (ctables b); t_index := snd (ctables b); t_ascii := N.of_nat a0 * 64; t_utf8Start := N.of_nat r0 * 64 |}. split.
  - unfold newTrie. rewrite (Off (h_ascii h) a0) by (unfold a0; lia). rewrite (Off (h_starter h) r0) by (unfold r0; lia). cbn [fst snd ctables arr_of arr_len].
    assert (Lr' : length (rows b) = length (c_index b)) by (unfold rows; apply map_length).
    replace (N.of_nat a0 * 64 <=? _) with true by (symmetry; apply N.leb_le; unfold blockSize; lia). replace (N.of_nat r0 * 64 <=? _) with true by (symmetry; apply N.leb_le; unfold blockSize; lia). reflexivity.
  - exact (clookup_answer H cs vsize _ t b g row r0 a0 M Wt Wi Sr Lr Cr A0 A1 I Cn Fa Sp Gv Gl Gs Gw).
Qed.

Lemma Gen_c_looks_up : forall H cs ls ts, Forall faithful cs -> Forall2 inserted ls ts -> Forall (Forall (fun e => snd e < 2 ^ 64)) ls -> distinct_all H ts -> (length ts <= 250)%nat ->
  handles cs (gc_stored (Gen_c H cs ts)) <= 0xF0000000 ->
  length (gc_handles (Gen_c H cs ts)) = length ts /\
  forall k l, nth_error ls k = Some l -> exists h tr, nth_error (gc_handles (Gen_c H cs ts)) k = Some h
    /\ newTrie (gc_values (Gen_c H cs ts)) (gc_index (Gen_c H cs ts)) h = Ok tr /\ looks_up Ok (lookup_c cs (Gen_c H cs ts) tr) l.
Proof.
  intros H cs ls ts Fa F V D L Hh. pose proof (inserted_wf ls ts F) as W. destruct ts as [|t0 ts'] eqn:Et.
  { inversion F. subst ls. split; [reflexivity|]. intros [|k] l E; discriminate E. }
  rewrite <- Et in *.
  assert (Wi : forall t, In t ts -> wf_root t /\ within (2 ^ 64 - 1) t).
  { intros t Ht. split; [exact (W t Ht)|]. clear - F V Ht. induction F as [|l x ls ts [A E] F IH]; [destruct Ht|]. inversion V as [|? ? V1 V2]; subst. destruct Ht as [->|Ht]; [|exact (IH V2 Ht)].
    apply (inserts_within _ l NewTrie t); [|apply within_new|exact E]. apply Forall_impl with (2 := V1). intros e He. lia. }
  pose proof (maxValue_all_le ts (2 ^ 64 - 1) 0 Wi ltac:(discriminate)) as Mx. destruct (maxValue_all ts 0 W) as [_ Wm]. set (M := fold_left (fun m t => maxValue t m) ts 0) in *.
  pose proof (cbuild_ok H cs (value_size ts) ts W D M Wm t0 ts' Et) as P. set (g := Gen_c H cs ts) in *.
  assert (Eg : g = Gen_c H cs ts) by reflexivity. clearbody g. unfold Gen_c in Eg. destruct (build_tries_c H cs (value_size ts) ts (cshared0 cs)) as [hs s]. destruct P as (G & O & Cn).
  assert (Gv : gc_values g = fst (ctables (cs_builder s))) by (rewrite Eg; reflexivity). assert (Gi : gc_index g = snd (ctables (cs_builder s))) by (rewrite Eg; reflexivity).
  assert (Gl : gc_lay g = lay (cs_builder s)) by (rewrite Eg; reflexivity). assert (Gs : gc_stored g = map k_stored (c_more (cs_builder s))) by (rewrite Eg; reflexivity).
  assert (Gh : gc_handles g = hs) by (rewrite Eg; reflexivity). assert (Gz : gc_vsize g = value_size ts) by (rewrite Eg; reflexivity). clear Eg.
  rewrite Gv, Gi, Gh. rewrite Gs in Hh. split; [clear - O; induction O; cbn [length]; congruence|]. intros k l E.
  destruct (Forall2_in _ _ _ _ _ F k l E) as (t & Ht & A & Ei). destruct (Forall2_in _ _ _ _ _ O k t Ht) as (h & Hk & Ho).
  assert (Cn' : ccount (cs_builder s) <= 0x4000000) by lia.
  assert (Gw : M < 2 ^ (8 * gc_vsize g)).
  { rewrite Gz. unfold value_size. fold M. apply intSize_fits; [apply N.le_refl|]. change (2 ^ 64 - 1) with 18446744073709551615 in Mx. change (2 ^ 64) with 18446744073709551616. lia. }
  destruct (chandle_answers H cs (value_size ts) ts s t h g M (W t (nth_error_In _ _ Ht)) (Wm t (nth_error_In _ _ Ht)) G Ho Cn' Fa (span_all H cs (value_size ts) ts M s G Cn' Hh) Gv Gl Gs Gw) as (tr & Etr & An).
  exists h, tr. split; [exact Hk|]. split; [exact Etr|].
  apply (answer_looks_up l t _ A Ei). intros _. exact An.
Qed.
