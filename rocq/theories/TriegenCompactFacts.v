(** Facts about the generator with Compacters: every node of the tries ends up as a block of the tables or of a Compacter. *)
From Verif Require Import Base Trie SpecUtf8 ListFacts SpecTriegen Triegen TriegenMany TriegenCompact SpecTrieHash SpecTrieShare SpecTrieCompact TriegenFacts TriegenIns TriegenBuild TriegenSize TriegenTables TriegenLookup TriegenShare.
Local Open Scope N_scope.

Notation ni0 := (0%nat, 0).

Section Hash.
  Variable H : list N -> N.
  Variable cs : list compacter.
  Variable vsize : N.
  Notation nhash := (nhash H).
  Notation hashes := (hashes H).
  Notation compute := (computeOffsets_c H cs vsize).

  Fixpoint coffs (l : list (option node)) (b : cbuilder) : list N * list nodeIndex * cbuilder :=
    match l with
    | [] => ([], [], b)
    | None :: r => let '(hs, row, b') := coffs r b in (0 :: hs, ni0 :: row, b')
    | Some c :: r =>
      let '(h, i, b') := compute c b in
      let '(hs, row, b'') := coffs r b' in (h :: hs, i :: row, b'')
    end.
  Lemma compute_eq : forall ch vs b, compute (Node ch vs) b =
      let first := Nat.eqb (length (c_index b)) rootBlockOffset in
      let b0 := if first then {| c_index := c_index b ++ [[]]; c_values := c_values b; c_iidx := c_iidx b; c_vidx := c_vidx b; c_max := c_max b; c_more := c_more b |} else b in
      let '(hs, row, b1) := coffs ch b0 in
      let hash := if is_nil ch && is_nil vs then 0 else H (hs ++ vs) in
      let b2 := if first then {| c_index := firstn rootBlockOffset (c_index b1) ++ row :: skipn (S rootBlockOffset) (c_index b1); c_values := c_values b1;
                                 c_iidx := (hash, N.of_nat (rootBlockOffset - blockOffset)) :: c_iidx b1; c_vidx := c_vidx b1; c_max := c_max b1; c_more := c_more b1 |} else b1 in
      if negb (is_nil ch) then
        match find hash (c_iidx b2) with
        | Some v => (hash, (0%nat, v), b2)
        | None =>
          let v := N.of_nat (length (c_index b2) - blockOffset) in
          (hash, (0%nat, v), {| c_index := c_index b2 ++ [row]; c_values := c_values b2; c_iidx := (hash, v) :: c_iidx b2; c_vidx := c_vidx b2; c_max := c_max b2; c_more := c_more b2 |})
        end
      else
        match cfind hash (c_vidx b2) with
        | Some i => (hash, i, b2)
        | None => let '(i, b3) := store_leaf cs vsize hash vs b2 in (hash, i, b3)
        end.
  Proof. reflexivity. Qed.

  (** * The Compacters *)
  Definition kgrows (ks ks' : list compaction) : Prop := forall j k, nth_error ks j = Some k ->
    exists k' more, nth_error ks' j = Some k' /\ k_stored k' = k_stored k ++ more /\ k_max k <= k_max k'.
  Lemma kgrows_refl : forall ks, kgrows ks ks.
  Proof. intros ks j k E. exists k, []. rewrite app_nil_r. repeat split; [exact E|lia]. Qed.
  Lemma kgrows_trans : forall a b c, kgrows a b -> kgrows b c -> kgrows a c.
  Proof.
    intros a b c A B j k E. destruct (A j k E) as (k1 & m1 & E1 & S1 & M1). destruct (B j k1 E1) as (k2 & m2 & E2 & S2 & M2). exists k2, (m1 ++ m2).
    split; [exact E2|]. split; [rewrite S2, S1, app_assoc; reflexivity|lia].
  Qed.

  Lemma choose_spec : forall vs cs' ks best i b s, choose best i cs' ks vs = (b, s) -> (b, s) = best \/
    exists j c k, b = (i + j)%nat /\ nth_error cs' j = Some c /\ nth_error ks j = Some k /\ c_size c (k_stored k) vs = Some s /\ s < snd best.
  Proof.
    intros vs. induction cs' as [|c cs' IH]; intros [|k ks] best i b s E; cbn [choose] in E; try (left; symmetry; exact E).
    destruct (IH _ _ _ _ _ E) as [Q|(j & c' & k' & -> & A & B & C & D)].
    - destruct (c_size c (k_stored k) vs) as [sz|] eqn:Ec; [|left; exact Q]. destruct (N.ltb_spec sz (snd best)) as [Hb|Hb]; [|left; exact Q].
      injection Q as -> ->. right. exists 0%nat, c, k. rewrite Nat.add_0_r. repeat split; assumption.
    - right. exists (S j), c', k'. split; [lia|]. split; [exact A|]. split; [exact B|]. split; [exact C|].
      destruct (c_size c (k_stored k) vs) as [sz|]; [|exact D]. destruct (N.ltb_spec sz (snd best)) as [Hb|Hb]; cbn [snd] in D; lia.
  Qed.

  Lemma store_in_spec : forall sz vs cs' ks j c k, nth_error cs' j = Some c -> nth_error ks j = Some k ->
    exists ks', store_in j sz vs cs' ks = (c_store c (k_stored k) vs, ks') /\ length ks' = length ks /\
      nth_error ks' j = Some {| k_stored := k_stored k ++ [vs]; k_max := N.max (k_max k) (c_store c (k_stored k) vs); k_total := k_total k + sz |} /\
      forall j', j' <> j -> nth_error ks' j' = nth_error ks j'.
  Proof.
    intros sz vs. induction cs' as [|c' cs' IH]; intros [|k' ks] [|j] c k Ec Ek; try discriminate Ec; try discriminate Ek; cbn [nth_error] in Ec, Ek; cbn [store_in].
    - injection Ec as ->. injection Ek as ->. eexists. split; [reflexivity|]. split; [reflexivity|]. split; [reflexivity|]. intros [|j'] Hj; [congruence|reflexivity].
    - destruct (IH ks j c k Ec Ek) as (ks' & E & L & A & B). rewrite E. exists (k' :: ks'). split; [reflexivity|]. split; [cbn [length]; congruence|]. split; [exact A|].
      intros [|j'] Hj; [reflexivity|]. cbn [nth_error]. apply B. congruence.
  Qed.

  Lemma largest_snoc : forall c l before v, largest c before (l ++ [v]) = N.max (largest c before l) (c_store c (before ++ l) v).
  Proof.
    intros c. induction l as [|x l IH]; intros before v; cbn [app largest].
    - rewrite app_nil_r. lia.
    - rewrite IH, <- app_assoc. cbn [app]. lia.
  Qed.

  Lemma said_snoc : forall c l before v, said c before (l ++ [v]) = said c before l + match c_size c (before ++ l) v with Some s => s | None => 0 end.
  Proof.
    intros c. induction l as [|x l IH]; intros before v; cbn [app said].
    - rewrite app_nil_r. lia.
    - rewrite IH, <- app_assoc. cbn [app]. lia.
  Qed.
  Lemma saved_snoc : forall p c l before v s, saved p c before l -> c_size c (before ++ l) v = Some s -> s < p -> saved p c before (l ++ [v]).
  Proof.
    intros p c. induction l as [|x l IH]; intros before v s Sv E Hs; cbn [app saved] in *.
    - rewrite app_nil_r in E. split; [exists s; split; assumption|exact I].
    - destruct Sv as [S1 S2]. split; [exact S1|]. apply (IH _ v s S2); [rewrite <- app_assoc; exact E|exact Hs].
  Qed.
  Definition plain : N := N.of_nat blockSize * vsize.

  Section Inside.
    Variable T : node -> Prop.
    Hypothesis T_child : forall ch vs c, T (Node ch vs) -> In (Some c) ch -> T c.
    Hypothesis T_zero : forall n, T n -> nhash n <> 0.
    Hypothesis T_inj : forall n n', T n -> T n' -> is_leaf n = is_leaf n' -> nhash n = nhash n' -> n = n'.
    (** No value is larger. *)
    Variable M : N.
    Hypothesis T_max : forall n, T n -> Forall (fun x => x <= M) (values n).

    (** The block of values with this index. *)
    Definition leaf_at (b : cbuilder) (e : nodeIndex) (vs : list N) : Prop :=
      match fst e with
      | O => nth_error (c_values b) (N.to_nat (snd e) + 2) = Some vs /\ snd e <= c_max b
      | S j => exists c k before after, nth_error cs j = Some c /\ nth_error (c_more b) j = Some k /\ k_stored k = before ++ vs :: after
          /\ snd e = c_store c before vs /\ c_size c before vs <> None /\ snd e <= k_max k
      end.
    Fixpoint crepr (k : nat) (b : cbuilder) (n : node) (e : nodeIndex) : Prop :=
      match k with
      | O => leaf_at b e (values n)
      | S j => fst e = 0%nat /\ 2 <= snd e /\ exists row, nth_error (c_index b) (N.to_nat (snd e) + 2) = Some row /\ length row = length (children n) /\
          forall p oc, nth_error (children n) p = Some oc -> match oc with None => nth p row ni0 = ni0 | Some c => crepr j b c (nth p row ni0) end
      end.
    Definition croot_repr (b : cbuilder) (t : node) (i : N) : Prop :=
      1 <= i /\ exists row, nth_error (c_index b) (N.to_nat i + 2) = Some row /\ length row = 64%nat /\
        forall p oc, nth_error (children t) p = Some oc -> match oc with None => nth p row ni0 = ni0 | Some c => crepr (depth p) b c (nth p row ni0) end.

    (** While the first root is being done ([first]), its row is not there yet. *)
    Definition cgrows (first : bool) (b b' : cbuilder) : Prop :=
      (forall j x, nth_error (c_values b) j = Some x -> nth_error (c_values b') j = Some x) /\
      (forall j x, (first = true -> j <> 3%nat) -> nth_error (c_index b) j = Some x -> nth_error (c_index b') j = Some x) /\
      (c_max b <= c_max b' /\ (length (c_index b) <= length (c_index b'))%nat) /\ kgrows (c_more b) (c_more b').
    Lemma cgrows_refl : forall f b, cgrows f b b.
    Proof. intros f b. split; [auto|]. split; [auto|]. split; [lia|apply kgrows_refl]. Qed.
    Lemma cgrows_trans : forall f a b c, cgrows f a b -> cgrows f b c -> cgrows f a c.
    Proof. intros f a b c (A1 & A2 & A3 & A4) (B1 & B2 & B3 & B4). split; [auto|]. split; [auto|]. split; [lia|exact (kgrows_trans _ _ _ A4 B4)]. Qed.
    Lemma cgrows_weak : forall f b b', cgrows false b b' -> cgrows f b b'.
    Proof. intros f b b' (A1 & A2 & A). split; [exact A1|]. split; [|exact A]. intros j x _ E. apply A2; [discriminate|exact E]. Qed.
    Lemma leaf_at_grows : forall f b b' e vs, cgrows f b b' -> leaf_at b e vs -> leaf_at b' e vs.
    Proof.
      intros f b b' [[|j] i] vs (A1 & _ & A3 & A4) L; cbn [leaf_at fst snd] in *.
      - destruct L as [L Mh]. split; [apply A1; exact L|lia].
      - destruct L as (c & k & before & after & Ec & Ek & Es & Ei & Sz & Mh). destruct (A4 j k Ek) as (k' & more & Ek' & Es' & M').
        exists c, k', before, (after ++ more). split; [exact Ec|]. split; [exact Ek'|]. split; [rewrite Es', Es, <- app_assoc; reflexivity|]. split; [exact Ei|]. split; [exact Sz|lia].
    Qed.
    Lemma crepr_grows : forall f k b b' n e, cgrows f b b' -> crepr k b n e -> crepr k b' n e.
    Proof.
      intros f. induction k as [|k IH]; intros b b' n e G R; [exact (leaf_at_grows f b b' _ _ G R)|].
      destruct R as (Z & P & row & E & L & C). split; [exact Z|]. split; [exact P|]. exists row. split; [apply (proj1 (proj2 G)); [lia|exact E]|]. split; [exact L|].
      intros p oc Ep. specialize (C p oc Ep). destruct oc; [apply (IH b); assumption|exact C].
    Qed.
    Lemma croot_repr_grows : forall b b' t i, cgrows false b b' -> croot_repr b t i -> croot_repr b' t i.
    Proof.
      intros b b' t i G (P & row & E & L & C). split; [exact P|]. exists row. split; [apply (proj1 (proj2 G)); [discriminate|exact E]|]. split; [exact L|].
      intros p oc Ep. specialize (C p oc Ep). destruct oc; [exact (crepr_grows false _ b b' _ _ G C)|exact C].
    Qed.
    Lemma crepr_depth : forall k j b n i, wf k n -> wf j n -> crepr k b n i -> crepr j b n i.
    Proof.
      induction k as [|k IH]; intros [|j] b n i Wk Wj R.
      - exact R.
      - apply wf_leaf in Wk. apply wf_leaf in Wj. rewrite Wk in Wj. discriminate.
      - apply wf_leaf in Wk. apply wf_leaf in Wj. rewrite Wk in Wj. discriminate.
      - destruct R as (Z & G & row & E & L & C). split; [exact Z|]. split; [exact G|]. exists row. split; [exact E|]. split; [exact L|].
        intros p oc Ep. specialize (C p oc Ep). destruct oc as [c|]; [|exact C]. apply (IH j b c (nth p row ni0)); [exact (proj2 (proj2 Wk) p c Ep)|exact (proj2 (proj2 Wj) p c Ep)|exact C].
    Qed.

    Definition cstored (first : bool) (b : cbuilder) (n : node) (i : N) : Prop :=
      (exists k, wf (S k) n /\ crepr (S k) b n (0%nat, i)) \/ (first = false /\ wf_root n /\ croot_repr b n i).
    Lemma cstored_grows : forall f b b' n i, cgrows f b b' -> cstored f b n i -> cstored f b' n i.
    Proof.
      intros f b b' n i G [(k & W & R)|(-> & W & R)]; [left; exists k; split; [exact W|exact (crepr_grows f _ b b' _ _ G R)]|right; split; [reflexivity|split; [exact W|exact (croot_repr_grows b b' _ _ G R)]]].
    Qed.

    (** An entry of a row is within the range of its compaction, or of the index. *)
    Definition ent_ok (b : cbuilder) (e : nodeIndex) : Prop :=
      match fst e with
      | O => snd e <= c_max b \/ snd e <= N.of_nat (length (c_index b) - 3)
      | S j => exists k, nth_error (c_more b) j = Some k /\ snd e <= k_max k
      end.
    Lemma ent_ok_grows : forall f b b' e, cgrows f b b' -> ent_ok b e -> ent_ok b' e.
    Proof.
      intros f b b' [[|j] i] (_ & _ & A3 & A4) L; unfold ent_ok in *; cbn [fst snd] in *; [lia|].
      destruct L as (k & Ek & Mx). destruct (A4 j k Ek) as (k' & more & Ek' & _ & M'). exists k'. split; [exact Ek'|lia].
    Qed.
    Lemma ents_grow : forall f b b' l, cgrows f b b' -> Forall (Forall (ent_ok b)) l -> Forall (Forall (ent_ok b')) l.
    Proof. intros f b b' l G F. apply Forall_impl with (2 := F). intros r Fr. apply Forall_impl with (2 := Fr). intros e. exact (ent_ok_grows f b b' e G). Qed.
    Lemma crepr_ent : forall k b n e, crepr k b n e -> ent_ok b e.
    Proof.
      intros [|k] b n [[|j] i] R; unfold ent_ok; cbn [crepr leaf_at fst snd] in *.
      - left. exact (proj2 R).
      - destruct R as (c & ka & before & after & _ & Ek & _ & _ & _ & Mx). exists ka. split; assumption.
      - right. destruct R as (_ & _ & row & E & _). assert (L : (N.to_nat i + 2 < length (c_index b))%nat) by (apply nth_error_Some; rewrite E; discriminate). lia.
      - destruct R as (Q & _). discriminate Q.
    Qed.
    Lemma row_ent : forall b (row : list nodeIndex) (l : list (option node)) (d : nat -> nat), length row = length l ->
      (forall p oc, nth_error l p = Some oc -> match oc with None => nth p row ni0 = ni0 | Some c => crepr (d p) b c (nth p row ni0) end) -> Forall (ent_ok b) row.
    Proof.
      intros b row l d L C. apply Forall_forall. intros e He. apply (In_nth _ _ ni0) in He as (p & Hp & <-).
      assert (Hp2 : (p < length l)%nat) by (rewrite <- L; exact Hp). destruct (nth_error l p) as [oc|] eqn:E; [|apply nth_error_None in E; lia]. specialize (C p oc E). destruct oc as [c|]; [exact (crepr_ent _ _ _ _ C)|]. exact (eq_ind_r (ent_ok b) (or_introl (N.le_0_l _) : ent_ok b ni0) C).
    Qed.

    Definition le64 {A : Type} (r : list A) : Prop := (length r <= 64)%nat.
    Record cinv (first : bool) (b : cbuilder) : Prop := {
      ci_low : forall j, (j < 3)%nat -> nth_error (c_index b) j = Some [];
      ci_len : (4 <= length (c_index b))%nat;
      ci_zero : nth_error (c_values b) 2 = Some (repeat 0 blockSize);
      ci_i : forall h i, find h (c_iidx b) = Some i -> h <> 0 -> exists n, T n /\ is_leaf n = false /\ nhash n = h /\ cstored first b n i;
      ci_v : forall h e, cfind h (c_vidx b) = Some e -> h <> 0 -> exists n, T n /\ is_leaf n = true /\ nhash n = h /\ leaf_at b e (values n);
      ci_k : length (c_more b) = length cs;
      ci_max : forall j c k, nth_error cs j = Some c -> nth_error (c_more b) j = Some k -> k_max k = largest c [] (k_stored k);
      ci_top : c_max b <= N.of_nat (length (c_values b) - 3);
      ci_ent : Forall (Forall (ent_ok b)) (c_index b);
      ci_vals : Forall (Forall (fun x => x <= M)) (c_values b);
      ci_said : forall j c k, nth_error cs j = Some c -> nth_error (c_more b) j = Some k -> k_total k = said c [] (k_stored k) /\ saved plain c [] (k_stored k);
      ci_rows : Forall le64 (c_index b) /\ Forall le64 (c_values b)
    }.
    Lemma ci_vlen : forall f b, cinv f b -> (3 <= length (c_values b))%nat.
    Proof. intros f b I. apply nth_error_Some. rewrite (ci_zero f b I). discriminate. Qed.
    Definition ccount (b : cbuilder) : N := N.of_nat (length (c_index b) + length (c_values b)).

    Lemma ci_grows_i : forall f b b', cinv f b -> cgrows f b b' -> forall h i, find h (c_iidx b) = Some i -> h <> 0 -> exists n, T n /\ is_leaf n = false /\ nhash n = h /\ cstored f b' n i.
    Proof. intros f b b' I G h i F Z. destruct (ci_i f b I h i F Z) as (n & A & B & C & D). exists n. repeat (split; [assumption|]). exact (cstored_grows f b b' n i G D). Qed.
    Lemma ci_grows_v : forall f b b', cinv f b -> cgrows f b b' -> forall h e, cfind h (c_vidx b) = Some e -> h <> 0 -> exists n, T n /\ is_leaf n = true /\ nhash n = h /\ leaf_at b' e (values n).
    Proof. intros f b b' I G h i F Z. destruct (ci_v f b I h i F Z) as (n & A & B & C & D). exists n. repeat (split; [assumption|]). exact (leaf_at_grows f b b' _ _ G D). Qed.

    Lemma store_leaf_ok : forall f b vs h, cinv f b -> T (Node [] vs) -> length vs = 64%nat -> nhash (Node [] vs) = h ->
      let '(e, b') := store_leaf cs vsize h vs b in cgrows f b b' /\ leaf_at b' e vs /\ cinv f b' /\ ccount b' <= ccount b + 1.
    Proof.
      intros f b vs h I Tn Lv Hh. unfold store_leaf. destruct (choose _ 1 cs (c_more b) vs) as [bi s] eqn:Ech. pose proof (ci_vlen f b I) as VL. pose proof (ci_top f b I) as Top.
      destruct bi as [|j].
      - set (v := N.of_nat (length (c_values b) - blockOffset)). set (b' := {| c_index := c_index b |}).
        assert (X : cgrows f b b').
        { split; [intros j x E; apply nth_error_snoc_old; exact E|]. split; [intros j x _ E; exact E|]. split; [cbn [b' c_max c_index]; rewrite ?app_length; lia|apply kgrows_refl]. }
        assert (R : leaf_at b' (0%nat, v) vs).
        { cbn [leaf_at fst snd b' c_values c_max]. split; [|lia]. unfold v, blockOffset. rewrite Nnat.Nat2N.id. replace (length (c_values b) - 2 + 2)%nat with (length (c_values b)) by lia. apply nth_error_snoc. }
        split; [exact X|]. split; [exact R|]. split.
        + constructor; cbn [b' c_index c_values c_iidx c_vidx c_more c_max].
          * exact (ci_low f b I).
          * exact (ci_len f b I).
          * apply nth_error_snoc_old. exact (ci_zero f b I).
          * intros h' i Fh Zh. exact (ci_grows_i f b b' I X h' i Fh Zh).
          * intros h' e Fh Zh. cbn [cfind] in Fh. destruct (N.eqb_spec h h') as [<-|_]; [|exact (ci_grows_v f b b' I X h' e Fh Zh)].
            injection Fh as <-. exists (Node [] vs). split; [exact Tn|]. split; [reflexivity|]. split; [exact Hh|exact R].
          * exact (ci_k f b I).
          * exact (ci_max f b I).
          * rewrite app_length. cbn [length]. unfold v, blockOffset. lia.
          * exact (ents_grow f b b' _ X (ci_ent f b I)).
          * apply Forall_snoc; [exact (ci_vals f b I)|exact (T_max _ Tn)].
          * exact (ci_said f b I).
          * split; [exact (proj1 (ci_rows f b I))|]. apply Forall_snoc; [exact (proj2 (ci_rows f b I))|unfold le64; lia].
        + unfold ccount. cbn [b' c_index c_values]. rewrite app_length. cbn [length]. lia.
      - destruct (choose_spec _ _ _ _ _ _ _ Ech) as [Q|(j' & c & k & Ej & Ec & Ek & Es & Lt)]; [discriminate Q|]. cbn [snd] in Lt. injection Ej as <-.
        destruct (store_in_spec s vs cs (c_more b) j c k Ec Ek) as (ks' & Est & Lk & En & Eo). rewrite Est. set (v := c_store c (k_stored k) vs) in *. set (b' := {| c_index := c_index b |}).
        assert (X : cgrows f b b').
        { split; [intros j' x E; exact E|]. split; [intros j' x _ E; exact E|]. split; [cbn [b' c_max c_index]; rewrite ?app_length; lia|]. cbn [b' c_more]. intros j' k' E. destruct (Nat.eq_dec j' j) as [->|Hj].
          - rewrite Ek in E. injection E as <-. eexists _, [vs]. split; [exact En|]. split; [reflexivity|]. cbn [k_max]. lia.
          - exists k', []. rewrite (Eo j' Hj), app_nil_r. repeat split; [exact E|lia]. }
        assert (R : leaf_at b' (S j, v) vs).
        { cbn [leaf_at fst snd b' c_more]. exists c. eexists. exists (k_stored k), []. split; [exact Ec|]. split; [exact En|]. split; [reflexivity|]. split; [reflexivity|]. split; [rewrite Es; discriminate|]. cbn [k_max]. lia. }
        split; [exact X|]. split; [exact R|]. split; [|unfold ccount; cbn [b' c_index c_values]; lia].
        constructor; cbn [b' c_index c_values c_iidx c_vidx c_more c_max].
        + exact (ci_low f b I).
        + exact (ci_len f b I).
        + exact (ci_zero f b I).
        + intros h' i Fh Zh. exact (ci_grows_i f b b' I X h' i Fh Zh).
        + intros h' e Fh Zh. cbn [cfind] in Fh. destruct (N.eqb_spec h h') as [<-|_]; [|exact (ci_grows_v f b b' I X h' e Fh Zh)].
          injection Fh as <-. exists (Node [] vs). split; [exact Tn|]. split; [reflexivity|]. split; [exact Hh|exact R].
        + rewrite Lk. exact (ci_k f b I).
        + intros j' c' k' Ec' Ek'. destruct (Nat.eq_dec j' j) as [->|Hj].
          * rewrite En in Ek'. injection Ek' as <-. rewrite Ec in Ec'. injection Ec' as <-. cbn [k_max k_stored]. rewrite largest_snoc. cbn [app]. rewrite <- (ci_max f b I j c k Ec Ek). reflexivity.
          * rewrite (Eo j' Hj) in Ek'. exact (ci_max f b I j' c' k' Ec' Ek').
        + exact Top.
        + exact (ents_grow f b b' _ X (ci_ent f b I)).
        + exact (ci_vals f b I).
        + intros j' c' k' Ec' Ek'. destruct (Nat.eq_dec j' j) as [->|Hj].
          * rewrite En in Ek'. injection Ek' as <-. rewrite Ec in Ec'. injection Ec' as <-. cbn [k_total k_stored]. destruct (ci_said f b I j c k Ec Ek) as [S1 S2]. rewrite said_snoc. cbn [app]. rewrite Es, <- S1. split; [reflexivity|].
            exact (saved_snoc _ c (k_stored k) [] vs s S2 Es Lt).
          * rewrite (Eo j' Hj) in Ek'. exact (ci_said f b I j' c' k' Ec' Ek').
        + exact (ci_rows f b I).
    Qed.

    Lemma cnot_first : forall f b, cinv f b -> Nat.eqb (length (c_index b)) rootBlockOffset = false.
    Proof. intros f b I. apply Nat.eqb_neq. pose proof (ci_len f b I). unfold rootBlockOffset. lia. Qed.

    Definition cpost (f : bool) (k : nat) (n : node) (b : cbuilder) (r : N * nodeIndex * cbuilder) : Prop :=
      let '(h, e, b') := r in h = nhash n /\ cinv f b' /\ cgrows f b b' /\ crepr k b' n e /\ ccount b' <= ccount b + sz k.

    Lemma coffs_ok : forall f m l d, (forall p n b, wf (d p) n -> T n -> cinv f b -> cpost f (d p) n b (compute n b)) -> (forall p, sz (d p) <= m) ->
      forall b, (forall p c, nth_error l p = Some (Some c) -> T c /\ wf (d p) c) -> cinv f b ->
      let '(hs, row, b') := coffs l b in hs = hashes l /\ cinv f b' /\ cgrows f b b' /\ length row = length l /\ ccount b' <= ccount b + N.of_nat (length l) * m /\
        forall p oc, nth_error l p = Some oc -> match oc with None => nth p row ni0 = ni0 | Some c => crepr (d p) b' c (nth p row ni0) end.
    Proof.
      intros f m. induction l as [|[c|] l IHl]; intros d IH Hm b HT I; cbn [coffs].
      - split; [reflexivity|]. split; [exact I|]. split; [apply cgrows_refl|]. split; [reflexivity|]. split; [cbn [length]; lia|]. intros [|p] oc E; discriminate E.
      - destruct (HT 0%nat c eq_refl) as [Tc Wc]. pose proof (IH 0%nat c b Wc Tc I) as Pc. destruct (compute c b) as [[h i] b1]. destruct Pc as (-> & I1 & X1 & R1 & C1).
        specialize (IHl (fun p => d (S p)) (fun p => IH (S p)) (fun p => Hm (S p)) b1 (fun p c0 Hc => HT (S p) c0 Hc) I1). destruct (coffs l b1) as [[hs row] b2]. destruct IHl as (-> & I2 & X2 & L2 & N2 & C2).
        split; [reflexivity|]. split; [exact I2|]. split; [apply (cgrows_trans f _ b1); assumption|]. split; [cbn [length]; lia|].
        split; [cbn [length]; rewrite Nnat.Nat2N.inj_succ, N.mul_succ_l; specialize (Hm 0%nat); lia|].
        intros [|p] oc E; cbn [nth_error nth] in *; [injection E as <-; apply (crepr_grows f (d 0%nat) b1); assumption|apply C2; exact E].
      - specialize (IHl (fun p => d (S p)) (fun p => IH (S p)) (fun p => Hm (S p)) b (fun p c0 Hc => HT (S p) c0 Hc) I). destruct (coffs l b) as [[hs row] b2]. destruct IHl as (-> & I2 & X2 & L2 & N2 & C2).
        split; [reflexivity|]. split; [exact I2|]. split; [exact X2|]. split; [cbn [length]; lia|]. split; [cbn [length]; rewrite Nnat.Nat2N.inj_succ, N.mul_succ_l; lia|].
        intros [|p] oc E; cbn [nth_error nth] in *; [injection E as <-; reflexivity|apply C2; exact E].
    Qed.

    (** Adding a row for a node that the index does not have. *)
    Lemma cadd_row : forall f b n row h, cinv f b -> T n -> is_leaf n = false -> nhash n = h -> (length row <= 64)%nat -> Forall (ent_ok b) row ->
      let v := N.of_nat (length (c_index b) - blockOffset) in
      let b' := {| c_index := c_index b ++ [row]; c_values := c_values b; c_iidx := (h, v) :: c_iidx b; c_vidx := c_vidx b; c_max := c_max b; c_more := c_more b |} in
      cgrows f b b' /\ (cstored f b' n v -> cinv f b') /\ 2 <= v /\ nth_error (c_index b') (N.to_nat v + 2) = Some row /\ ccount b' = ccount b + 1.
    Proof.
      intros f b n row h I Tn Lf Hh Lr Er v b'. pose proof (ci_len f b I) as Len.
      assert (X : cgrows f b b') by (split; [intros j x E; exact E|split; [intros j x _ E; apply nth_error_snoc_old; exact E|split; [cbn [b' c_max c_index]; rewrite ?app_length; lia|apply kgrows_refl]]]).
      split; [exact X|]. split; [|split; [|split]].
      - intros St. constructor; cbn [b' c_index c_values c_iidx c_vidx c_more c_max].
        + intros j Hj. apply nth_error_snoc_old. exact (ci_low f b I j Hj).
        + rewrite app_length. lia.
        + exact (ci_zero f b I).
        + intros h' i Fh Zh. cbn [find] in Fh. destruct (N.eqb_spec h h') as [<-|_]; [|exact (ci_grows_i f b b' I X h' i Fh Zh)].
          injection Fh as <-. exists n. repeat split; assumption.
        + intros h' i Fh Zh. exact (ci_grows_v f b b' I X h' i Fh Zh).
        + exact (ci_k f b I).
        + exact (ci_max f b I).
        + exact (ci_top f b I).
        + apply (ents_grow f b b' _ X). apply Forall_snoc; [exact (ci_ent f b I)|exact Er].
        + exact (ci_vals f b I).
        + exact (ci_said f b I).
        + split; [|exact (proj2 (ci_rows f b I))]. apply Forall_snoc; [exact (proj1 (ci_rows f b I))|exact Lr].
      - unfold v, blockOffset. lia.
      - cbn [b' c_index]. unfold v, blockOffset. rewrite Nnat.Nat2N.id. replace (length (c_index b) - 2 + 2)%nat with (length (c_index b)) by lia. apply nth_error_snoc.
      - unfold ccount. cbn [b' c_index c_values]. rewrite app_length. cbn [length]. lia.
    Qed.

    Lemma ccompute_ok : forall f k n b, wf k n -> T n -> cinv f b -> cpost f k n b (compute n b).
    Proof.
      intros f. induction k as [|k IH]; intros [ch vs] b W Tn I; rewrite compute_eq; cbv zeta; rewrite (cnot_first f b I).
      - destruct W as [Wc Wv]. cbn [children values] in Wc, Wv. subst ch. cbn [coffs]. cbn [is_nil negb].
        assert (Hv : is_nil vs = false) by (destruct vs; [discriminate Wv|reflexivity]). rewrite Hv. cbn [andb app].
        assert (Hh : nhash (Node [] vs) = H vs) by (rewrite nhash_eq, Hv; reflexivity).
        pose proof (T_zero _ Tn) as Z. rewrite Hh in Z.
        destruct (cfind (H vs) (c_vidx b)) as [i|] eqn:Fd.
        + destruct (ci_v f b I _ _ Fd Z) as (n' & Tn' & Lf & Hn' & R). assert (n' = Node [] vs) by (apply T_inj; [assumption|assumption|rewrite Lf; reflexivity|congruence]). subst n'.
          split; [symmetry; exact Hh|]. split; [exact I|]. split; [apply cgrows_refl|]. split; [exact R|lia].
        + pose proof (store_leaf_ok f b vs (H vs) I Tn Wv Hh) as P. destruct (store_leaf cs vsize (H vs) vs b) as [e b']. destruct P as (X & R & I' & C).
          split; [symmetry; exact Hh|]. split; [exact I'|]. split; [exact X|]. split; [exact R|exact C].
      - destruct W as (Wv & Wl & Wc) eqn:EW. clear EW. cbn [children values] in Wv, Wl, Wc. subst vs.
        assert (HT : forall p c, nth_error ch p = Some (Some c) -> T c /\ wf k c).
        { intros p c Hp. split; [exact (T_child _ _ _ Tn (nth_error_In _ _ Hp))|]. exact (Wc p c Hp). }
        pose proof (coffs_ok f (sz k) ch (fun _ => k) (fun _ => IH) (fun _ => N.le_refl _) b HT I) as P. destruct (coffs ch b) as [[hs row] b1]. destruct P as (-> & I1 & X1 & L1 & N1 & C1).
        rewrite Wl in N1. change (N.of_nat 64) with 64 in N1.
        assert (Hc : is_nil ch = false) by (destruct ch; [discriminate Wl|reflexivity]). rewrite Hc. cbn [andb negb].
        assert (Hh : nhash (Node ch []) = H (hashes ch ++ [])) by (rewrite nhash_eq, Hc; reflexivity). rewrite <- Hh. set (h := nhash (Node ch [])) in *.
        pose proof (T_zero _ Tn) as Z. fold h in Z.
        assert (Wn : wf (S k) (Node ch [])) by (split; [reflexivity|split; assumption]).
        assert (Lf : is_leaf (Node ch []) = false) by (unfold is_leaf; cbn [children]; exact Hc).
        destruct (find h (c_iidx b1)) as [i|] eqn:Fd.
        + destruct (ci_i f b1 I1 _ _ Fd Z) as (n' & Tn' & Lf' & Hn' & St). assert (n' = Node ch []) by (apply T_inj; [assumption|assumption|congruence|exact Hn']). subst n'.
          split; [reflexivity|]. split; [exact I1|]. split; [exact X1|]. split; [|cbn [sz]; lia]. destruct St as [(k' & W' & R)|(_ & W' & _)]; [|destruct (wf_not_root _ _ Wn W')]. exact (crepr_depth (S k') (S k) b1 _ _ W' Wn R).
        + destruct (cadd_row f b1 (Node ch []) row h I1 Tn Lf eq_refl ltac:(lia) (row_ent b1 row ch (fun _ => k) L1 C1)) as (X & Si & G2 & En & Cn). cbv zeta in X, Si, G2, En, Cn |- *.
          set (v := N.of_nat (length (c_index b1) - blockOffset)) in *. set (b' := {| c_index := c_index b1 ++ [row] |}) in *.
          assert (R : crepr (S k) b' (Node ch []) (0%nat, v)).
          { cbn [crepr fst snd]. split; [reflexivity|]. split; [exact G2|]. exists row. split; [exact En|]. split; [exact L1|]. cbn [children]. intros p oc E. specialize (C1 p oc E). destruct oc; [apply (crepr_grows f k b1); assumption|exact C1]. }
          split; [reflexivity|]. split; [apply Si; left; exists k; split; assumption|]. split; [apply (cgrows_trans f _ b1); assumption|]. split; [exact R|]. cbn [sz]. lia.
    Qed.

    Lemma sz_depth : forall p, sz (depth p) <= 4161.
    Proof. intros p. apply sz_le. unfold depth. destruct (_ <? _)%nat; [lia|destruct (_ <? _)%nat; lia]. Qed.

    (** A root that is not the first. *)
    Lemma croot_ok : forall t b, wf_root t -> T t -> cinv false b ->
      let '(h, e, b') := compute t b in h = nhash t /\ cinv false b' /\ cgrows false b b' /\ fst e = 0%nat /\ croot_repr b' t (snd e) /\ ccount b' <= ccount b + 266305.
    Proof.
      intros [ch vs] b W Tn I. rewrite compute_eq. cbv zeta. rewrite (cnot_first false b I).
      pose proof W as (Wv & Wl & Wc). cbn [children values] in Wv, Wl, Wc.
      assert (HT : forall p c, nth_error ch p = Some (Some c) -> T c /\ wf (depth p) c).
      { intros p c Hp. split; [exact (T_child _ _ _ Tn (nth_error_In _ _ Hp))|]. exact (Wc p c Hp). }
      pose proof (coffs_ok false 4161 ch depth (fun p n b => ccompute_ok false (depth p) n b) sz_depth b HT I) as P. destruct (coffs ch b) as [[hs row] b1]. destruct P as (-> & I1 & X1 & L1 & N1 & C1).
      rewrite Wl in N1. change (N.of_nat 64) with 64 in N1.
      assert (Hc : is_nil ch = false) by (destruct ch; [discriminate Wl|reflexivity]). rewrite Hc. cbn [andb negb].
      assert (Hh : nhash (Node ch vs) = H (hashes ch ++ vs)) by (rewrite nhash_eq, Hc; reflexivity). rewrite <- Hh. set (h := nhash (Node ch vs)) in *.
      pose proof (T_zero _ Tn) as Z. fold h in Z.
      assert (Lf : is_leaf (Node ch vs) = false) by (unfold is_leaf; cbn [children]; exact Hc).
      destruct (find h (c_iidx b1)) as [i|] eqn:Fd.
      - destruct (ci_i false b1 I1 _ _ Fd Z) as (n' & Tn' & Lf' & Hn' & St). assert (n' = Node ch vs) by (apply T_inj; [assumption|assumption|congruence|exact Hn']). subst n'.
        split; [reflexivity|]. split; [exact I1|]. split; [exact X1|]. split; [reflexivity|]. split; [|lia]. destruct St as [(k' & W' & R)|(_ & _ & R)]; [destruct (wf_not_root _ _ W' W)|exact R].
      - destruct (cadd_row false b1 (Node ch vs) row h I1 Tn Lf eq_refl ltac:(lia) (row_ent b1 row ch depth L1 C1)) as (X & Si & G2 & En & Cn). cbv zeta in X, Si, G2, En, Cn |- *.
        set (v := N.of_nat (length (c_index b1) - blockOffset)) in *. set (b' := {| c_index := c_index b1 ++ [row] |}) in *.
        assert (R : croot_repr b' (Node ch vs) v).
        { split; [lia|]. exists row. split; [exact En|]. split; [lia|]. cbn [children]. intros p oc E. specialize (C1 p oc E). destruct oc; [apply (crepr_grows false (depth p) b1); assumption|exact C1]. }
        split; [reflexivity|]. split; [apply Si; right; split; [reflexivity|split; [exact W|exact R]]|]. split; [apply (cgrows_trans false _ b1); assumption|]. split; [reflexivity|]. split; [exact R|lia].
    Qed.

    (** The first root. *)
    Lemma cfirst_ok : forall t b, wf_root t -> T t -> c_index b = [[]; []; []] -> nth_error (c_values b) 2 = Some (repeat 0 blockSize) -> c_iidx b = [(0, 0)] -> c_vidx b = [(0, ni0)] ->
      c_max b = 0 -> length (c_more b) = length cs -> (forall j k, nth_error (c_more b) j = Some k -> k_stored k = [] /\ k_max k = 0 /\ k_total k = 0) -> Forall le64 (c_values b) -> Forall (Forall (fun x => x <= M)) (c_values b) ->
      let '(h, e, b') := compute t b in h = nhash t /\ cinv false b' /\ cgrows false b b' /\ e = (0%nat, 1) /\ croot_repr b' t 1 /\ ccount b' <= ccount b + 266305.
    Proof.
      intros [ch vs] b W Tn Bi Bv Mi Mv Mx Lk Ek Fv Fm. rewrite compute_eq. cbv zeta. rewrite Bi. cbn [length Nat.eqb rootBlockOffset app].
      set (b0 := {| c_index := [[]; []; []; []] |}).
      assert (I0 : cinv true b0).
      { constructor; cbn [b0 c_index c_values c_iidx c_vidx c_more c_max length].
        - intros j Hj. destruct j as [|[|[|j]]]; try reflexivity. lia.
        - lia.
        - exact Bv.
        - rewrite Mi. intros h i F Z. cbn [find] in F. destruct (N.eqb_spec 0 h); [congruence|discriminate F].
        - rewrite Mv. intros h i F Z. cbn [cfind] in F. destruct (N.eqb_spec 0 h); [congruence|discriminate F].
        - exact Lk.
        - intros j c k _ E. destruct (Ek j k E) as (-> & -> & _). reflexivity.
        - rewrite Mx. apply N.le_0_l.
        - repeat constructor.
        - exact Fm.
        - intros j c k _ E. destruct (Ek j k E) as (-> & _ & ->). split; [reflexivity|exact Logic.I].
        - split; [repeat constructor; unfold le64; cbn; lia|exact Fv]. }
      pose proof W as (Wv & Wl & Wc). cbn [children values] in Wv, Wl, Wc.
      assert (HT : forall p c, nth_error ch p = Some (Some c) -> T c /\ wf (depth p) c).
      { intros p c Hp. split; [exact (T_child _ _ _ Tn (nth_error_In _ _ Hp))|]. exact (Wc p c Hp). }
      pose proof (coffs_ok true 4161 ch depth (fun p n b => ccompute_ok true (depth p) n b) sz_depth b0 HT I0) as P.
      destruct (coffs ch b0) as [[hs row] b1]. destruct P as (-> & I1 & X1 & L1 & N1 & C1). rewrite Wl in N1. change (N.of_nat 64) with 64 in N1.
      assert (C0 : ccount b0 = ccount b + 1) by (unfold ccount; cbn [b0 c_index c_values length]; rewrite Bi; cbn [length]; lia).
      assert (Hc : is_nil ch = false) by (destruct ch; [discriminate Wl|reflexivity]). rewrite Hc. cbn [andb negb].
      cbn [find c_iidx]. rewrite N.eqb_refl.
      assert (Hh : nhash (Node ch vs) = H (hashes ch ++ vs)) by (rewrite nhash_eq, Hc; reflexivity). rewrite <- Hh. set (h := nhash (Node ch vs)) in *.
      assert (Lf : is_leaf (Node ch vs) = false) by (unfold is_leaf; cbn [children]; exact Hc).
      pose proof (ci_len true b1 I1) as L4.
      change (firstn rootBlockOffset (c_index b1)) with (firstn 3 (c_index b1)). change (skipn (S rootBlockOffset) (c_index b1)) with (skipn 4 (c_index b1)).
      assert (L3 : length (firstn 3 (c_index b1)) = 3%nat) by (rewrite firstn_length; lia).
      set (b2 := {| c_index := firstn 3 (c_index b1) ++ row :: skipn 4 (c_index b1) |}).
      assert (L2 : length (c_index b2) = length (c_index b1)).
      { cbn [b2 c_index]. rewrite app_length, L3. cbn [length]. rewrite skipn_length. lia. }
      assert (X2 : cgrows true b1 b2).
      { split; [intros j x E; exact E|]. split; [|split; [cbn [b2 c_max]; rewrite L2; lia|apply kgrows_refl]]. intros j x Hj' E. specialize (Hj' eq_refl). rename Hj' into Hj. cbn [b2 c_index]. destruct (Nat.lt_ge_cases j 3) as [Lj|Lj].
        - rewrite nth_error_app1 by lia. rewrite <- E. clear - Lj L4. destruct (c_index b1) as [|x0 [|x1 [|x2 r]]]; cbn [length] in L4; try lia. destruct j as [|[|[|j]]]; try reflexivity; lia.
        - rewrite nth_error_app2 by lia. rewrite L3. destruct (j - 3)%nat as [|m] eqn:Em; [lia|]. cbn [nth_error]. rewrite <- E. clear - Em L4. replace j with (m + 4)%nat by lia.
          destruct (c_index b1) as [|x0 [|x1 [|x2 [|x3 r]]]]; cbn [length] in L4; try lia. rewrite Nat.add_comm. reflexivity. }
      assert (Low : forall j, (j < 3)%nat -> nth_error (c_index b2) j = Some []).
      { intros j Hj. apply (proj1 (proj2 X2)); [lia|]. exact (ci_low true b1 I1 j Hj). }
      assert (R : croot_repr b2 (Node ch vs) 1).
      { split; [discriminate|]. exists row. split; [change (N.to_nat 1 + 2)%nat with 3%nat; cbn [b2 c_index]; rewrite nth_error_app2 by lia; rewrite L3; reflexivity|].
        split; [lia|]. cbn [children]. intros p oc E. specialize (C1 p oc E). destruct oc as [c|]; [exact (crepr_grows true (depth p) b1 b2 c _ X2 C1)|exact C1]. }
      split; [reflexivity|]. split; [|split; [|split; [reflexivity|split; [exact R|]]]].
      - constructor.
        + exact Low.
        + lia.
        + exact (ci_zero true b1 I1).
        + intros h' i Fh Zh. cbn [b2 c_iidx find] in Fh. destruct (N.eqb_spec h h') as [<-|_].
          * injection Fh as <-. exists (Node ch vs). split; [exact Tn|]. split; [exact Lf|]. split; [reflexivity|]. right. split; [reflexivity|]. split; [exact W|exact R].
          * destruct (ci_i true b1 I1 h' i Fh Zh) as (n & A & B & C & D). exists n. repeat (split; [assumption|]). destruct D as [(k & Wk & Rk)|(Q & _)]; [|discriminate Q].
            left. exists k. split; [exact Wk|exact (crepr_grows true _ b1 b2 _ _ X2 Rk)].
        + intros h' e Fh Zh. exact (ci_grows_v true b1 b2 I1 X2 h' e Fh Zh).
        + exact (ci_k true b1 I1).
        + exact (ci_max true b1 I1).
        + exact (ci_top true b1 I1).
        + pose proof (ents_grow true b1 b2 _ X2 (ci_ent true b1 I1)) as Re. cbn [b2 c_index].
          rewrite <- (firstn_skipn 3 (c_index b1)) in Re. apply Forall_app in Re as [Se1 Se2]. apply Forall_app. split; [exact Se1|].
          constructor; [exact (row_ent b2 row ch depth L1 (fun p oc E => match oc as o return (nth_error ch p = Some o -> match o with None => nth p row ni0 = ni0 | Some c => crepr (depth p) b2 c (nth p row ni0) end) with Some c => fun E' => crepr_grows true (depth p) b1 b2 c _ X2 (C1 p (Some c) E') | None => fun E' => C1 p None E' end E))|].
          assert (E : skipn 4 (c_index b1) = skipn 1 (skipn 3 (c_index b1))) by (rewrite skipn_skipn; reflexivity). rewrite E.
          destruct (skipn 3 (c_index b1)); [constructor|]. inversion Se2; assumption.
        + exact (ci_vals true b1 I1).
        + exact (ci_said true b1 I1).
        + destruct (ci_rows true b1 I1) as [Rb Rv]. split; [|exact Rv]. cbn [b2 c_index].
          rewrite <- (firstn_skipn 3 (c_index b1)) in Rb. apply Forall_app in Rb as [Sb1 Sb2]. apply Forall_app. split; [exact Sb1|]. constructor; [unfold le64; lia|].
          assert (E : skipn 4 (c_index b1) = skipn 1 (skipn 3 (c_index b1))) by (rewrite skipn_skipn; reflexivity). rewrite E.
          destruct (skipn 3 (c_index b1)); [constructor|]. inversion Sb2; assumption.
      - destruct X1 as (A1 & _ & A3 & A4). split; [exact A1|]. split; [|split; [split; [exact (proj1 A3)|rewrite Bi, L2; cbn [length]; lia]|exact A4]]. rewrite Bi. intros j x _ E.
        destruct j as [|[|[|j]]]; [rewrite Low by lia; exact E..|destruct j; discriminate E].
      - unfold ccount in *. cbn [b2 c_values]. rewrite L2. lia.
    Qed.
  End Inside.
End Hash.
