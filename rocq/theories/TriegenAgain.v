(** Facts about the generator with several tries: a trie that comes again adds nothing. *)
From Verif Require Import Base Trie SpecUtf8 ListFacts Triegen TriegenMany SpecTrieHash TriegenFacts TriegenBuild TriegenSize.
Local Open Scope N_scope.

Section Hash.
  Variable H : list N -> N.
  Notation nhash := (nhash H).
  Notation hashes := (hashes H).

  Definition place (b : builder) (n : node) : option N := find (nhash n) (if is_leaf n then b_vidx b else b_iidx b).
  Definition knows (b : builder) (n : node) : Prop := forall m, below m n -> place b m <> None.
  Definition keeps (b b' : builder) : Prop :=
    (length (b_index b) <= length (b_index b'))%nat /\
    (forall h i, find h (b_iidx b) = Some i -> find h (b_iidx b') = Some i) /\ (forall h i, find h (b_vidx b) = Some i -> find h (b_vidx b') = Some i).
  Lemma keeps_refl : forall b, keeps b b. Proof. intros b. split; [lia|]. split; auto. Qed.
  Lemma keeps_trans : forall a b c, keeps a b -> keeps b c -> keeps a c.
  Proof. intros a b c (A0 & A1 & A2) (B0 & B1 & B2). split; [lia|]. split; auto. Qed.
  Lemma place_keeps : forall b b' n i, keeps b b' -> place b n = Some i -> place b' n = Some i.
  Proof. intros b b' n i (_ & A & B) E. unfold place in *. destruct (is_leaf n); [exact (B _ _ E)|exact (A _ _ E)]. Qed.
  Lemma knows_keeps : forall b b' n, keeps b b' -> knows b n -> knows b' n.
  Proof. intros b b' n K N m B. specialize (N m B). destruct (place b m) as [i|] eqn:E; [|contradiction N; reflexivity]. rewrite (place_keeps b b' m i K E). discriminate. Qed.

  Definition after (n : node) (b : builder) (r : N * N * builder) : Prop :=
    let '(h, i, b') := r in h = nhash n /\ keeps b b' /\ knows b' n /\ place b' n = Some i.
  Definition again (n : node) (b : builder) (r : N * N * builder) : Prop := exists i, place b n = Some i /\ r = (nhash n, i, b).

  Lemma below_inv : forall m ch vs, below m (Node ch vs) -> m = Node ch vs \/ exists c, In (Some c) ch /\ below m c.
  Proof. intros m ch vs B. inversion B; [left; reflexivity|right; eauto]. Qed.

  Lemma offs_after : forall l, (forall c b, In (Some c) l -> (4 <= length (b_index b))%nat -> after c b (computeOffsets H c b)) ->
    forall b, (4 <= length (b_index b))%nat -> let '(hs, row, b') := offs H l b in hs = hashes l /\ keeps b b' /\ forall c, In (Some c) l -> knows b' c.
  Proof.
    induction l as [|[c|] l IH]; intros HC b L; cbn [offs].
    - split; [reflexivity|]. split; [apply keeps_refl|]. intros c [].
    - pose proof (HC c b (or_introl eq_refl) L) as P. destruct (computeOffsets H c b) as [[h i] b1]. destruct P as (-> & K1 & N1 & _).
      specialize (IH (fun c0 b0 Hc => HC c0 b0 (or_intror Hc)) b1 ltac:(destruct K1; lia)). destruct (offs H l b1) as [[hs row] b2]. destruct IH as (-> & K2 & N2).
      split; [reflexivity|]. split; [exact (keeps_trans _ _ _ K1 K2)|]. intros c' [E|I]; [injection E as <-; exact (knows_keeps _ _ _ K2 N1)|exact (N2 c' I)].
    - specialize (IH (fun c0 b0 Hc => HC c0 b0 (or_intror Hc)) b L). destruct (offs H l b) as [[hs row] b2]. destruct IH as (-> & K2 & N2).
      split; [reflexivity|]. split; [exact K2|]. intros c' [E|I]; [discriminate E|exact (N2 c' I)].
  Qed.
  Lemma offs_again : forall l b, (forall c, In (Some c) l -> again c b (computeOffsets H c b)) -> exists row, offs H l b = (hashes l, row, b).
  Proof.
    induction l as [|[c|] l IH]; intros b HC; cbn [offs].
    - exists []. reflexivity.
    - destruct (HC c (or_introl eq_refl)) as (i & _ & ->). destruct (IH b (fun c0 Hc => HC c0 (or_intror Hc))) as (row & ->). eexists. reflexivity.
    - destruct (IH b (fun c0 Hc => HC c0 (or_intror Hc))) as (row & ->). eexists. reflexivity.
  Qed.

  (** One node, when its children are done. *)
  Lemma node_after : forall ch vs b, (4 <= length (b_index b))%nat -> (forall c b, In (Some c) ch -> (4 <= length (b_index b))%nat -> after c b (computeOffsets H c b)) ->
    after (Node ch vs) b (computeOffsets H (Node ch vs) b).
  Proof.
    intros ch vs b L HC. rewrite computeOffsets_eq. cbv zeta.
    assert (F : Nat.eqb (length (b_index b)) rootBlockOffset = false) by (apply Nat.eqb_neq; unfold rootBlockOffset; lia). rewrite F.
    pose proof (offs_after ch HC b L) as P. destruct (offs H ch b) as [[hs row] b1]. destruct P as (-> & K & N).
    change (if is_nil ch && is_nil vs then 0 else H (hashes ch ++ vs)) with (nhash (Node ch vs)).
    assert (Q : forall b2 i, keeps b1 b2 -> place b2 (Node ch vs) = Some i -> after (Node ch vs) b (nhash (Node ch vs), i, b2)).
    { intros b2 i K2 E. split; [reflexivity|]. split; [exact (keeps_trans _ _ _ K K2)|]. split; [|exact E]. intros m B. apply below_inv in B as [->|(c & I & B)]; [rewrite E; discriminate|]. exact (knows_keeps _ _ _ K2 (N c I) m B). }
    destruct (is_nil ch) eqn:Hc; cbn [negb].
    - destruct (find (nhash (Node ch vs)) (b_vidx b1)) as [i|] eqn:E.
      + apply Q; [apply keeps_refl|]. unfold place, is_leaf. cbn [children]. rewrite Hc. exact E.
      + apply Q; [|unfold place, is_leaf; cbn [children]; rewrite Hc; cbn [b_vidx find]; rewrite N.eqb_refl; reflexivity].
        split; [cbn [b_index]; lia|]. cbn [b_iidx b_vidx]. split; [auto|]. intros h i Fh. cbn [find]. destruct (N.eqb_spec (nhash (Node ch vs)) h) as [<-|_]; [congruence|exact Fh].
    - destruct (find (nhash (Node ch vs)) (b_iidx b1)) as [i|] eqn:E.
      + apply Q; [apply keeps_refl|]. unfold place, is_leaf. cbn [children]. rewrite Hc. exact E.
      + apply Q; [|unfold place, is_leaf; cbn [children]; rewrite Hc; cbn [b_iidx find]; rewrite N.eqb_refl; reflexivity].
        split; [cbn [b_index]; rewrite app_length; lia|]. cbn [b_iidx b_vidx]. split; [|auto]. intros h i Fh. cbn [find]. destruct (N.eqb_spec (nhash (Node ch vs)) h) as [<-|_]; [congruence|exact Fh].
  Qed.
  Lemma node_again : forall ch vs b, (4 <= length (b_index b))%nat -> knows b (Node ch vs) -> (forall c, In (Some c) ch -> again c b (computeOffsets H c b)) ->
    again (Node ch vs) b (computeOffsets H (Node ch vs) b).
  Proof.
    intros ch vs b L N HC. rewrite computeOffsets_eq. cbv zeta.
    assert (F : Nat.eqb (length (b_index b)) rootBlockOffset = false) by (apply Nat.eqb_neq; unfold rootBlockOffset; lia). rewrite F.
    destruct (offs_again ch b HC) as (row & ->). change (if is_nil ch && is_nil vs then 0 else H (hashes ch ++ vs)) with (nhash (Node ch vs)).
    specialize (N _ (below_refl _)). destruct (place b (Node ch vs)) as [i|] eqn:E; [|contradiction N; reflexivity]. exists i. split; [exact E|]. unfold place, is_leaf in E. cbn [children] in E.
    destruct (is_nil ch); cbn [negb]; rewrite E; reflexivity.
  Qed.

  Lemma compute_after : forall k n b, wf k n -> (4 <= length (b_index b))%nat -> after n b (computeOffsets H n b).
  Proof.
    induction k as [|k IH]; intros [ch vs] b W L; apply node_after; try exact L.
    - destruct W as [Wc _]. cbn [children] in Wc. subst ch. intros c b' [].
    - destruct W as (_ & _ & Wc). intros c b' I L'. apply In_nth_error in I as [p Hp]. exact (IH c b' (Wc p c Hp) L').
  Qed.
  Lemma compute_again : forall k n b, wf k n -> (4 <= length (b_index b))%nat -> knows b n -> again n b (computeOffsets H n b).
  Proof.
    induction k as [|k IH]; intros [ch vs] b W L N; apply node_again; try assumption.
    - destruct W as [Wc _]. cbn [children] in Wc. subst ch. intros c [].
    - destruct W as (_ & _ & Wc). intros c I. pose proof I as I'. apply In_nth_error in I as [p Hp]. apply (IH c b (Wc p c Hp) L). intros m B. apply N. exact (below_child m ch vs c I' B).
  Qed.
  Lemma root_after : forall t b, wf_root t -> (4 <= length (b_index b))%nat -> after t b (computeOffsets H t b).
  Proof.
    intros [ch vs] b (_ & _ & Wc) L. apply node_after; [exact L|]. intros c b' I L'. apply In_nth_error in I as [p Hp]. exact (compute_after (depth p) c b' (Wc p c Hp) L').
  Qed.
  Lemma root_again : forall t b, wf_root t -> (4 <= length (b_index b))%nat -> knows b t -> again t b (computeOffsets H t b).
  Proof.
    intros [ch vs] b (_ & _ & Wc) L N. apply node_again; [exact L|exact N|]. intros c I. pose proof I as I'. apply In_nth_error in I as [p Hp]. apply (compute_again (depth p) c b (Wc p c Hp) L). intros m B. apply N. exact (below_child m ch vs c I' B).
  Qed.
  (** The first root: its entry may replace one of the same hash. *)
  Lemma root_first : forall t b, wf_root t -> length (b_index b) = 3%nat -> let '(h, i, b') := computeOffsets H t b in
    h = nhash t /\ (4 <= length (b_index b'))%nat /\ knows b' t /\ place b' t = Some i.
  Proof.
    intros [ch vs] b (_ & Wl & Wc) L. cbn [children] in Wl, Wc. rewrite computeOffsets_eq. cbv zeta. rewrite L. cbn [Nat.eqb rootBlockOffset].
    set (b0 := {| b_index := b_index b ++ [[]] |}).
    assert (L0 : (4 <= length (b_index b0))%nat) by (cbn [b0 b_index]; rewrite app_length; cbn [length]; lia).
    assert (HC : forall c b, In (Some c) ch -> (4 <= length (b_index b))%nat -> after c b (computeOffsets H c b)).
    { intros c b' I L'. apply In_nth_error in I as [p Hp]. exact (compute_after (depth p) c b' (Wc p c Hp) L'). }
    pose proof (offs_after ch HC b0 L0) as P. destruct (offs H ch b0) as [[hs row] b1]. destruct P as (-> & K & N).
    change (if is_nil ch && is_nil vs then 0 else H (hashes ch ++ vs)) with (nhash (Node ch vs)).
    assert (Hc : is_nil ch = false) by (destruct ch; [discriminate Wl|reflexivity]). rewrite Hc. cbn [negb b_iidx find]. rewrite N.eqb_refl.
    split; [reflexivity|]. cbn [b_index]. split; [rewrite app_length, firstn_length; cbn [length]; unfold rootBlockOffset; destruct K as [K _]; lia|].
    assert (E : forall b2 v, b_iidx b2 = (nhash (Node ch vs), v) :: b_iidx b1 -> place b2 (Node ch vs) = Some v).
    { intros b2 v Eb. unfold place, is_leaf. cbn [children]. rewrite Hc, Eb. cbn [find]. rewrite N.eqb_refl. reflexivity. }
    split; [|apply E; reflexivity]. intros m B. apply below_inv in B as [->|(c & I & B)]; [erewrite E by reflexivity; discriminate|].
    specialize (N c I m B). unfold place in *. cbn [b_vidx b_iidx]. destruct (is_leaf m); [exact N|]. cbn [find]. destruct (_ =? _); [discriminate|exact N].
  Qed.

  (** * Tries *)
  Definition done (t : node) (h : handle) (s : shared) : Prop :=
    (4 <= length (b_index (s_builder s)))%nat /\ knows (s_builder s) t /\ place (s_builder s) t <> None /\
    find (H (values t)) (s_ascii s) = Some (h_ascii h) /\ (forall i, place (s_builder s) t = Some i -> h_starter h = i - 1) /\ h_checksum h = nhash t.
  Definition keeps_all (s s' : shared) : Prop := keeps (s_builder s) (s_builder s') /\ forall h v, find h (s_ascii s) = Some v -> find h (s_ascii s') = Some v.

  Lemma done_keeps : forall t h s s', keeps_all s s' -> done t h s -> done t h s'.
  Proof.
    intros t h s s' [K A] (L & N & P & F & I & C). split; [destruct K as [K _]; lia|]. split; [exact (knows_keeps _ _ _ K N)|].
    destruct (place (s_builder s) t) as [i|] eqn:E; [|contradiction P; reflexivity]. rewrite (place_keeps _ _ t i K E). split; [discriminate|]. split; [exact (A _ _ F)|]. split; [|exact C]. exact I.
  Qed.

  Lemma place_done : forall t s, let '(v, s1) := place_ascii H t s in find (H (values t)) (s_ascii s1) = Some v /\ keeps_all s s1 /\ b_index (s_builder s1) = b_index (s_builder s).
  Proof.
    intros t s. unfold place_ascii. destruct (find (H (values t)) (s_ascii s)) as [v|] eqn:E.
    - split; [exact E|]. split; [split; [apply keeps_refl|auto]|reflexivity].
    - cbv zeta. cbn [s_ascii s_builder b_index find]. rewrite N.eqb_refl. split; [reflexivity|]. split; [|reflexivity]. split; [split; [cbn [s_builder b_index]; lia|split; auto]|].
      intros h v F. cbn [s_ascii find]. destruct (N.eqb_spec (H (values t)) h) as [<-|_]; [congruence|exact F].
  Qed.

  Definition started (s : shared) : Prop := (4 <= length (b_index (s_builder s)))%nat \/ length (b_index (s_builder s)) = 3%nat.
  Lemma buildTrie_done : forall t s, wf_root t -> started s -> let '(h, s') := buildTrie_shared H t s in
    done t h s' /\ ((4 <= length (b_index (s_builder s)))%nat -> keeps_all s s').
  Proof.
    intros t s W St. unfold buildTrie_shared. pose proof (place_done t s) as P. destruct (place_ascii H t s) as [v s1]. destruct P as (F & K & Eb). unfold started in St. rewrite <- Eb in St |- *.
    assert (R : let '(h, i, b) := computeOffsets H t (s_builder s1) in h = nhash t /\ (4 <= length (b_index b))%nat /\ knows b t /\ place b t = Some i /\ ((4 <= length (b_index (s_builder s1)))%nat -> keeps (s_builder s1) b)).
    { destruct St as [L|L].
      - pose proof (root_after t (s_builder s1) W L) as A. destruct (computeOffsets H t (s_builder s1)) as [[h i] b]. destruct A as (A1 & A2 & A3 & A4). split; [exact A1|]. split; [destruct A2; lia|]. split; [exact A3|]. split; [exact A4|]. intros _. exact A2.
      - pose proof (root_first t (s_builder s1) W L) as A. destruct (computeOffsets H t (s_builder s1)) as [[h i] b]. destruct A as (A1 & A2 & A3 & A4). repeat (split; [assumption|]). intros L'. lia. }
    destruct (computeOffsets H t (s_builder s1)) as [[h i] b]. destruct R as (Eh & L & N & P & Kb). split.
    - unfold done. cbn [s_builder s_ascii h_ascii h_starter h_checksum]. split; [exact L|]. split; [exact N|]. split; [rewrite P; discriminate|]. split; [exact F|]. split; [|exact Eh]. intros j E. rewrite P in E. injection E as <-. reflexivity.
    - intros L'. split; [|exact (proj2 K)]. exact (keeps_trans _ _ _ (proj1 K) (Kb L')).
  Qed.
  Lemma buildTrie_again : forall t h s, wf_root t -> done t h s -> buildTrie_shared H t s = (h, s).
  Proof.
    intros t h s W (L & N & P & F & I & C). unfold buildTrie_shared, place_ascii. rewrite F. destruct (root_again t (s_builder s) W L N) as (i & E & ->).
    specialize (I i E). destruct h as [a m c], s as [b al]. cbn [h_ascii h_starter h_checksum s_builder s_ascii] in *. subst. reflexivity.
  Qed.

  Lemma build_tries_done : forall ts s, (forall t, In t ts -> wf_root t) -> started s -> let '(hs, s') := build_tries H ts s in
    started s' /\ Forall2 (fun t h => done t h s') ts hs /\ ((4 <= length (b_index (s_builder s)))%nat -> keeps_all s s').
  Proof.
    induction ts as [|t ts IH]; intros s W St; cbn [build_tries].
    - split; [exact St|]. split; [constructor|]. intros _. split; [apply keeps_refl|auto].
    - pose proof (buildTrie_done t s (W t (or_introl eq_refl)) St) as P. destruct (buildTrie_shared H t s) as [h s1]. destruct P as (Dn & K).
      specialize (IH s1 (fun x Hx => W x (or_intror Hx)) (or_introl (proj1 Dn))). destruct (build_tries H ts s1) as [hs s2]. destruct IH as (St2 & F & K2). specialize (K2 (proj1 Dn)).
      split; [exact St2|]. split; [constructor; [exact (done_keeps _ _ _ _ K2 Dn)|exact F]|]. intros L. specialize (K L). destruct K as [Ka Kb], K2 as [K2a K2b]. split; [exact (keeps_trans _ _ _ Ka K2a)|auto].
  Qed.

  Lemma build_tries_app : forall ts ts' s, build_tries H (ts ++ ts') s = let '(hs, s1) := build_tries H ts s in let '(hs', s2) := build_tries H ts' s1 in (hs ++ hs', s2).
  Proof.
    induction ts as [|t ts IH]; intros ts' s; cbn [app build_tries].
    - destruct (build_tries H ts' s). reflexivity.
    - destruct (buildTrie_shared H t s) as [h s1]. rewrite IH. destruct (build_tries H ts s1) as [hs s2]. destruct (build_tries H ts' s2). reflexivity.
  Qed.

  Lemma repeated : forall ts k t, (forall t, In t ts -> wf_root t) -> nth_error ts k = Some t ->
    let '(hs, s) := build_tries H ts shared0 in exists h, nth_error hs k = Some h /\ build_tries H (ts ++ [t]) shared0 = (hs ++ [h], s).
  Proof.
    intros ts k t W E. rewrite build_tries_app. pose proof (build_tries_done ts shared0 W (or_intror eq_refl)) as P. destruct (build_tries H ts shared0) as [hs s]. destruct P as (_ & F & _).
    assert (G : exists h, nth_error hs k = Some h /\ done t h s).
    { clear W. revert k E. induction F as [|x y l l' Rxy F IH]; intros [|k] E; try discriminate E; [injection E as <-; exists y; split; [reflexivity|exact Rxy]|exact (IH k E)]. }
    destruct G as (h & Eh & Dn). exists h. split; [exact Eh|]. cbn [build_tries]. rewrite (buildTrie_again t h s (W t (nth_error_In _ _ E)) Dn). reflexivity.
  Qed.
End Hash.
