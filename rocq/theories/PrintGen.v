(** The tables of the generator fit the types they are written with. *)
From Verif Require Import Base Trie SpecUtf8 ListFacts SpecTriegen Triegen TriegenFacts TriegenIns TriegenBuild TriegenSize TriegenExt TriegenTables TriegenCheck SpecGenerate GenMain GenFacts.
Local Open Scope N_scope.

(** * The values in a trie *)
Inductive vb (B : N) : node -> Prop :=
  vb_node : forall ch vs, (forall v, In v vs -> v < B) -> (forall c, In (Some c) ch -> vb B c) -> vb B (Node ch vs).
Lemma list_set_in : forall (A : Type) (l : list A) i x l' y, list_set l i x = Ok l' -> In y l' -> y = x \/ In y l.
Proof.
  induction l as [|z l IH]; intros i x l' y E I; [discriminate E|]. destruct i as [|i]; cbn [list_set] in E.
  - injection E as <-. destruct I as [I|I]; [left; symmetry; exact I|right; right; exact I].
  - destruct (list_set l i x) as [r| |] eqn:Er; cbn [bind] in E; try discriminate E. injection E as <-. destruct I as [I|I]; [right; left; exact I|]. destruct (IH _ _ _ _ Er I) as [Q|Q]; [left; exact Q|right; right; exact Q].
Qed.
Lemma insert_vb : forall B s v n n', v < B -> vb B n -> insert_at s v n = Ok n' -> vb B n'.
Proof.
  intros B s. induction s as [|b s IH]; intros v n n' Hv V E; [discriminate E|]. destruct V as [ch vs V1 V2]. destruct s as [|b2 s].
  - cbn [insert_at values children] in E. destruct (negb _); [discriminate E|]. destruct (b <? 0x80); [discriminate E|]. destruct (list_set _ _ _) as [vs'| |] eqn:El; cbn [bind] in E; try discriminate E. injection E as <-.
    constructor; [|exact V2]. intros x I. destruct (list_set_in _ _ _ _ _ _ El I) as [-> |Q]; [exact Hv|]. destruct (is_nil vs); [|exact (V1 x Q)]. apply repeat_spec in Q. subst x. lia.
  - rewrite insert_at_cons in E. cbv zeta in E. cbn [values children] in E. set (ch0 := if is_nil ch then _ else ch) in E.
    assert (V0 : forall c, In (Some c) ch0 -> vb B c) by (intros c I; unfold ch0 in I; destruct (is_nil ch); [apply repeat_spec in I; discriminate I|exact (V2 c I)]). clearbody ch0.
    destruct (nth_error ch0 _) as [oc|] eqn:En; [|discriminate E]. destruct ((2 <? _)%nat && _); [discriminate E|].
    destruct (insert_at (b2 :: s) v _) as [c'| |] eqn:Ei; cbn [bind] in E; try discriminate E. destruct (list_set ch0 _ _) as [ch'| |] eqn:Es; cbn [bind] in E; try discriminate E. injection E as <-.
    assert (Vc : vb B c').
    { refine (IH v _ c' Hv _ Ei). destruct oc as [c|]; [apply V0; exact (nth_error_In _ _ En)|]. constructor; intros ? []. }
    constructor; [exact V1|]. intros c I. destruct (list_set_in _ _ _ _ _ _ Es I) as [Q|Q]; [injection Q as ->; exact Vc|exact (V0 c Q)].
Qed.
Lemma Insert_vb : forall B t r v t', v < B -> vb B t -> Insert t r v = Ok t' -> vb B t'.
Proof.
  intros B t r v t' Hv V E. unfold Insert in E. destruct (v =? 0); [injection E as <-; exact V|]. destruct (negb _); [discriminate E|]. cbv zeta in E. destruct (Nat.eqb _ 1); [|exact (insert_vb _ _ _ _ _ Hv V E)].
  destruct (byte_at _ _) as [b| |]; cbn [bind] in E; try discriminate E. destruct V as [ch vs V1 V2]. cbn [values children] in E. destruct (list_set _ _ _) as [vs'| |] eqn:El; cbn [bind] in E; try discriminate E. injection E as <-.
  constructor; [|exact V2]. intros x I. destruct (list_set_in _ _ _ _ _ _ El I) as [-> |Q]; [exact Hv|exact (V1 x Q)].
Qed.
Lemma inserts_vb : forall B l t t', (forall e, In e l -> snd e < B) -> vb B t -> inserts t l = Ok t' -> vb B t'.
Proof.
  intros B. induction l as [|[r v] l IH]; intros t t' Hl V E; cbn [inserts] in E; [injection E as <-; exact V|]. destruct (Insert t r v) as [t1| |] eqn:E1; cbn [bind] in E; try discriminate E.
  refine (IH t1 t' (fun e I => Hl e (or_intror I)) _ E). exact (Insert_vb B t r v t1 (Hl (r, v) (or_introl eq_refl)) V E1).
Qed.
Lemma new_vb : forall B, 0 < B -> vb B NewTrie.
Proof. intros B Hb. constructor; [intros v I; apply repeat_spec in I; subst v; exact Hb|intros c I; apply repeat_spec in I; discriminate I]. Qed.

(** * What the builder stores *)
Record held (B : N) (b : builder) : Prop := {
  h_len : (4 <= length (b_index b))%nat;
  h_val : forall row v, In row (b_values b) -> In v row -> v < B;
  h_idx : forall row v, In row (b_index b) -> In v row -> v < count b;
  h_i : forall h v, find h (b_iidx b) = Some v -> v < count b;
  h_v : forall h v, find h (b_vidx b) = Some v -> v < count b
}.

(** The nodes below a row of children, by depth. *)
Fixpoint weigh (d : nat -> nat) (l : list (option node)) : N :=
  match l with [] => 0 | None :: r => weigh (fun p => d (S p)) r | Some _ :: r => sz (d 0%nat) + weigh (fun p => d (S p)) r end.
Fixpoint total (d : nat -> nat) (m : nat) : N := match m with O => 0 | S m => sz (d 0%nat) + total (fun p => d (S p)) m end.
Lemma weigh_total : forall l d m, (forall p c, nth_error l p = Some (Some c) -> (p < m)%nat) -> weigh d l <= total d m.
Proof.
  induction l as [|[c|] l IH]; intros d m Hm; cbn [weigh].
  - lia.
  - destruct m as [|m]; [specialize (Hm 0%nat c eq_refl); lia|]. cbn [total]. assert (G : weigh (fun p => d (S p)) l <= total (fun p => d (S p)) m); [|lia]. apply IH. intros p c' E. specialize (Hm (S p) c' E). lia.
  - destruct m as [|m].
    + assert (G : weigh (fun p => d (S p)) l <= total (fun p => d (S p)) 0); [|exact G]. apply IH. intros p c' E. specialize (Hm (S p) c' E). lia.
    + cbn [total]. assert (G : weigh (fun p => d (S p)) l <= total (fun p => d (S p)) m); [|lia]. apply IH. intros p c' E. specialize (Hm (S p) c' E). lia.
Qed.

Section Hash.
  Variable H : list N -> N.

  Lemma offs_held : forall B l d, (forall p n b, wf (d p) n -> vb B n -> held B b -> let '(_, i, b') := computeOffsets H n b in held B b' /\ i < count b' /\ count b <= count b' <= count b + sz (d p)) ->
    forall b, (forall p c, nth_error l p = Some (Some c) -> wf (d p) c /\ vb B c) -> held B b ->
    let '(_, row, b') := offs H l b in held B b' /\ (forall v, In v row -> v < count b') /\ count b <= count b' <= count b + weigh d l.
  Proof.
    intros B. induction l as [|[c|] l IHl]; intros d IH b HT I; cbn [offs weigh].
    - split; [exact I|]. split; [intros v []|lia].
    - destruct (HT 0%nat c eq_refl) as [Wc Vc]. pose proof (IH 0%nat c b Wc Vc I) as Pc. destruct (computeOffsets H c b) as [[h i] b1]. destruct Pc as (I1 & L1 & C1).
      specialize (IHl (fun p => d (S p)) (fun p => IH (S p)) b1 (fun p c0 Hc => HT (S p) c0 Hc) I1). destruct (offs H l b1) as [[hs row] b2]. destruct IHl as (I2 & R2 & C2).
      split; [exact I2|]. split; [|lia]. intros v [<-|Q]; [lia|exact (R2 v Q)].
    - specialize (IHl (fun p => d (S p)) (fun p => IH (S p)) b (fun p c0 Hc => HT (S p) c0 Hc) I). destruct (offs H l b) as [[hs row] b2]. destruct IHl as (I2 & R2 & C2).
      split; [exact I2|]. split; [|lia]. intros v [<-|Q]; [|exact (R2 v Q)]. pose proof (h_len _ _ I2). unfold count. lia.
  Qed.

  Lemma weigh_64 : forall l k, weigh (fun _ => k) l <= N.of_nat (length l) * sz k.
  Proof. induction l as [|[c|] l IH]; intros k; cbn [weigh length]; [lia| |]; specialize (IH k); rewrite Nnat.Nat2N.inj_succ, N.mul_succ_l; lia. Qed.

  Lemma compute_held : forall B k n b, wf k n -> vb B n -> held B b -> let '(_, i, b') := computeOffsets H n b in held B b' /\ i < count b' /\ count b <= count b' <= count b + sz k.
  Proof.
    intros B. induction k as [|k IH]; intros [ch vs] b W V I; rewrite computeOffsets_eq; cbv zeta;
      (assert (F : Nat.eqb (length (b_index b)) rootBlockOffset = false) by (apply Nat.eqb_neq; pose proof (h_len _ _ I); unfold rootBlockOffset; lia)); rewrite F; inversion V as [? ? V1 V2]; subst.
    - destruct W as [Wc Wv]. cbn [children values] in Wc, Wv. subst ch. cbn [offs is_nil negb andb app]. destruct (find _ _) as [i|] eqn:Fd.
      + split; [exact I|]. split; [exact (h_v _ _ I _ _ Fd)|lia].
      + destruct I as [I1 I2 I3 I4 I5]. unfold blockOffset. match goal with |- held B ?b' /\ _ => assert (C : count b' = count b + 1) by (unfold count; cbn [b_index b_values]; rewrite app_length; cbn [length]; lia) end.
        split; [|split; [unfold count; cbn [b_index b_values]; rewrite app_length; cbn [length]; lia|rewrite C; cbn [sz]; lia]].
        constructor; rewrite ?C; cbn [b_index b_values b_iidx b_vidx].
        * exact I1.
        * intros row v Ir Iv. apply in_app_iff in Ir as [Ir|[<-|[]]]; [exact (I2 row v Ir Iv)|exact (V1 v Iv)].
        * intros row v Ir Iv. specialize (I3 row v Ir Iv). lia.
        * intros h v Q. specialize (I4 h v Q). lia.
        * intros h v Q. cbn [find] in Q. destruct (_ =? h); [injection Q as <-; unfold count; lia|]. specialize (I5 h v Q). lia.
    - destruct W as (Wv & Wl & Wc). cbn [children values] in Wv, Wl, Wc. subst vs.
      pose proof (offs_held B ch (fun _ => k) (fun _ => IH) b) as P.
      specialize (P (fun p c Hp => conj (Wc p c Hp) (V2 c (nth_error_In _ _ Hp))) I). pose proof (weigh_64 ch k) as W64. rewrite Wl in W64. change (N.of_nat 64) with 64 in W64.
      destruct (offs H ch b) as [[hs row] b1]. destruct P as (J & R1 & C1).
      assert (Hc : is_nil ch = false) by (destruct ch; [discriminate Wl|reflexivity]). rewrite Hc. cbn [andb negb]. destruct (find _ _) as [i|] eqn:Fd.
      + split; [exact J|]. split; [exact (h_i _ _ J _ _ Fd)|cbn [sz]; lia].
      + destruct J as [I1 I2 I3 I4 I5]. unfold blockOffset. match goal with |- held B ?b' /\ _ => assert (C : count b' = count b1 + 1) by (unfold count; cbn [b_index b_values]; rewrite app_length; cbn [length]; lia) end.
        split; [|split; [unfold count; cbn [b_index b_values]; rewrite app_length; cbn [length]; lia|rewrite C; cbn [sz]; lia]].
        constructor; rewrite ?C; cbn [b_index b_values b_iidx b_vidx].
        * rewrite app_length. lia.
        * exact I2.
        * intros r v Ir Iv. apply in_app_iff in Ir as [Ir|[<-|[]]]; [specialize (I3 r v Ir Iv); lia|specialize (R1 v Iv); lia].
        * intros h v Q. cbn [find] in Q. destruct (_ =? h); [injection Q as <-; unfold count; lia|]. specialize (I4 h v Q). lia.
        * intros h v Q. specialize (I5 h v Q). lia.
  Qed.

  (** All values of the tables, and all entries of the index, are small. *)
  Lemma root_held : forall B t, 0 < B -> full_root t -> vb B t -> let '(_, b) := buildTrie H t in
    (forall row v, In row (b_values b) -> In v row -> v < B) /\ (forall row v, In row (b_index b) -> In v row -> v < 65536).
  Proof.
    intros B [ch vs] HB [(Wv & Wl & Wc) F] V. cbn [children values] in Wv, Wl, Wc, F. inversion V as [? ? V1 V2]; subst. unfold buildTrie. rewrite computeOffsets_eq. cbv zeta.
    cbn [b_index builder0 length Nat.eqb rootBlockOffset app b_values b_iidx b_vidx b_maxHandle values].
    set (b0 := {| b_index := [[]; []; []; []] |}).
    assert (S0 : held B b0).
    { constructor; cbn [b0 b_index b_values b_iidx b_vidx].
      - cbn. lia.
      - intros row v I Iv. cbn [In] in I. destruct I as [<-|[<-|[<-|[]]]].
        + apply V1. rewrite <- (firstn_skipn blockSize vs). apply in_or_app. left. exact Iv.
        + apply V1. rewrite <- (firstn_skipn blockSize vs). apply in_or_app. right. exact Iv.
        + apply repeat_spec in Iv. subst v. exact HB.
      - intros row v I Iv. cbn [In] in I. destruct I as [<-|[<-|[<-|[<-|[]]]]]; destruct Iv.
      - intros h v Q. cbn [find] in Q. destruct (0 =? h); [injection Q as <-; reflexivity|discriminate Q].
      - intros h v Q. cbn [find] in Q. destruct (0 =? h); [injection Q as <-; reflexivity|discriminate Q]. }
    pose proof (offs_held B ch depth (fun p => compute_held B (depth p)) b0 (fun p c Hp => conj (Wc p c Hp) (V2 c (nth_error_In _ _ Hp))) S0) as P.
    assert (T : weigh depth ch <= total depth 56) by (apply weigh_total; intros p c Hp; destruct (F p c Hp); lia). change (total depth 56) with 34360 in T.
    destruct (offs H ch b0) as [[hs row] b1]. destruct P as (J & R1 & C1). change (count b0) with 7 in C1.
    assert (Hc : is_nil ch = false) by (destruct ch; [discriminate Wl|reflexivity]). rewrite Hc. cbn [andb negb find]. rewrite N.eqb_refl. cbn [b_index b_values].
    split; [exact (h_val _ _ J)|]. intros r v Ir Iv. apply in_app_iff in Ir as [Ir|[<-|Ir]].
    - assert (v < count b1); [|lia]. apply (h_idx _ _ J r); [|exact Iv]. rewrite <- (firstn_skipn rootBlockOffset (b_index b1)). apply in_or_app. left. exact Ir.
    - specialize (R1 v Iv). lia.
    - assert (v < count b1); [|lia]. apply (h_idx _ _ J r); [|exact Iv]. rewrite <- (firstn_skipn (S rootBlockOffset) (b_index b1)). apply in_or_app. right. exact Ir.
  Qed.
End Hash.
