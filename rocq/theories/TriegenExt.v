(** A trie is determined by what it holds: the order and repetition of insertions does not matter. *)
From Verif Require Import Base Trie SpecUtf8 ListFacts SpecTriegen Triegen TriegenFacts TriegenIns.
Local Open Scope N_scope.

(** No node is superfluous. *)
Fixpoint full (k : nat) (n : node) : Prop :=
  match k with
  | O => wf 0 n /\ exists i, nth i (values n) 0 <> 0
  | S j => wf (S j) n /\ (exists p c, nth_error (children n) p = Some (Some c)) /\ forall p c, nth_error (children n) p = Some (Some c) -> full j c
  end.

Lemma full_wf : forall k n, full k n -> wf k n.
Proof. intros [|k] n F; exact (proj1 F). Qed.

Lemma cont_of : forall p, (p < 64)%nat -> cont (0x80 + N.of_nat p) /\ N.to_nat ((0x80 + N.of_nat p) mod 64) = p /\ N.to_nat (0x80 + N.of_nat p - 0x80) = p.
Proof.
  intros p Hp. assert (C : cont (0x80 + N.of_nat p)) by (unfold cont; lia). split; [exact C|]. rewrite cont_mod by exact C. split; lia.
Qed.

Lemma get_path_cons : forall b s n, s <> [] -> get_path (b :: s) n = match nth_error (children n) (N.to_nat (b mod 64)) with Some (Some c) => get_path s c | _ => 0 end.
Proof. intros b [|c s] n N; [contradiction N; reflexivity|reflexivity]. Qed.

Lemma full_path : forall k n, full k n -> exists s, length s = S k /\ Forall cont s /\ get_path s n <> 0.
Proof.
  induction k as [|k IH]; intros n F.
  - destruct F as ([_ L] & i & Hi). assert (Li : (i < 64)%nat). { destruct (Nat.lt_ge_cases i 64) as [Q|Q]; [exact Q|]. rewrite nth_overflow in Hi by lia. contradiction Hi. reflexivity. }
    destruct (cont_of i Li) as (C & _ & E). exists [0x80 + N.of_nat i]. split; [reflexivity|]. split; [constructor; [exact C|constructor]|]. cbn [get_path]. rewrite E. exact Hi.
  - destruct F as ((_ & L & _) & (p & c & E) & F). destruct (IH c (F p c E)) as (s & Ls & Cs & G).
    assert (Lp : (p < 64)%nat) by (rewrite <- L; apply nth_error_Some; rewrite E; discriminate). destruct (cont_of p Lp) as (C & M & _).
    exists (0x80 + N.of_nat p :: s). split; [cbn [length]; lia|]. split; [constructor; assumption|]. rewrite get_path_cons by (intros ->; discriminate Ls). rewrite M, E. exact G.
Qed.

Lemma nth_ext_error : forall (A : Type) (l l' : list A), length l = length l' -> (forall p, (p < length l)%nat -> nth_error l p = nth_error l' p) -> l = l'.
Proof.
  intros A. induction l as [|x l IH]; intros [|y l'] L E; try discriminate; [reflexivity|]. f_equal.
  - specialize (E 0%nat ltac:(cbn; lia)). injection E as ->. reflexivity.
  - apply IH; [cbn in L; lia|]. intros p Hp. exact (E (S p) ltac:(cbn; lia)).
Qed.

Lemma full_ext : forall k n n', full k n -> full k n' -> (forall s, length s = S k -> Forall cont s -> get_path s n = get_path s n') -> n = n'.
Proof.
  induction k as [|k IH]; intros [ch vs] [ch' vs'] F F' E.
  - destruct F as ((C & L) & _), F' as ((C' & L') & _). cbn [children values] in *. subst ch ch'. f_equal. apply nth_ext_error; [lia|]. intros p Hp. rewrite L in Hp.
    destruct (cont_of p Hp) as (Cp & _ & M). specialize (E [0x80 + N.of_nat p] eq_refl ltac:(constructor; [exact Cp|constructor])). cbn [get_path values] in E. rewrite M, !nth_of_error in E.
    destruct (nth_error vs p) eqn:E1; [|apply nth_error_None in E1; lia]. destruct (nth_error vs' p) eqn:E2; [|apply nth_error_None in E2; lia]. rewrite E. reflexivity.
  - destruct F as ((V & L & _) & _ & F), F' as ((V' & L' & _) & _ & F'). cbn [children values] in *. subst vs vs'. f_equal. apply nth_ext_error; [lia|]. intros p Hp. rewrite L in Hp.
    destruct (cont_of p Hp) as (Cp & M & _).
    assert (Ep : forall s, length s = S k -> Forall cont s -> match nth_error ch p with Some (Some c) => get_path s c | _ => 0 end = match nth_error ch' p with Some (Some c) => get_path s c | _ => 0 end).
    { intros s Ls Cs. assert (Q : length (0x80 + N.of_nat p :: s) = S (S k)) by (cbn [length]; lia). specialize (E _ Q ltac:(constructor; assumption)). assert (Ns : s <> []) by (intros ->; discriminate Ls).
      rewrite !get_path_cons in E by exact Ns. rewrite M in E. exact E. }
    destruct (nth_error ch p) as [[c|]|] eqn:E1; [| |apply nth_error_None in E1; lia]; (destruct (nth_error ch' p) as [[c'|]|] eqn:E2; [| |apply nth_error_None in E2; lia]).
    + do 2 f_equal. apply (IH c c'); [exact (F p c E1)|exact (F' p c' E2)|exact Ep].
    + destruct (full_path k c (F p c E1)) as (s & Ls & Cs & G). specialize (Ep s Ls Cs). contradiction.
    + destruct (full_path k c' (F' p c' E2)) as (s & Ls & Cs & G). specialize (Ep s Ls Cs). symmetry in Ep. contradiction.
    + reflexivity.
Qed.

Lemma insert_full : forall k n s v n', v <> 0 -> (full k n \/ n = Node [] []) -> length s = S k -> Forall cont s -> insert_at s v n = Ok n' -> full k n'.
Proof.
  induction k as [|k IH]; intros n s v n' Hv F L C E.
  - assert (W : wf 0 n \/ n = Node [] []) by (destruct F as [F|F]; [left; exact (full_wf 0 n F)|right; exact F]).
    destruct (insert_cont 0 n s v W L C) as (n1 & E1 & W1 & G1). rewrite E in E1. injection E1 as <-. split; [exact W1|].
    destruct s as [|b [|? ?]]; try discriminate. exists (N.to_nat (b - 0x80)). specialize (G1 [b] eq_refl C). rewrite eqb_bytes_refl in G1. cbn [get_path] in G1. rewrite G1. exact Hv.
  - assert (W : wf (S k) n \/ n = Node [] []) by (destruct F as [F|F]; [left; exact (full_wf (S k) n F)|right; exact F]).
    destruct (insert_cont (S k) n s v W L C) as (n1 & E1 & W1 & _). rewrite E in E1. injection E1 as <-.
    destruct s as [|b [|b2 s]]; try discriminate. inversion C as [|? ? Cb Cr]; subst. cbn [length] in L.
    rewrite insert_at_cons in E. cbv zeta in E. set (ch := if is_nil (children n) then repeat None blockSize else children n) in E.
    assert (Fc : forall i c, nth_error ch i = Some (Some c) -> full k c).
    { intros i c Q. unfold ch in Q. destruct F as [F| ->]; [|exfalso; exact (nth_error_repeat_None _ _ _ _ Q)]. destruct F as ((_ & Lc & _) & _ & F). destruct (children n); [discriminate Lc|]. exact (F i c Q). }
    destruct (nth_error ch (N.to_nat (b mod 64))) as [oc|] eqn:En; [|discriminate E].
    destruct ((2 <? _)%nat && _); [discriminate E|].
    destruct (insert_at (b2 :: s) v _) as [c'| |] eqn:Ei; cbn [bind] in E; try discriminate E.
    assert (Fc' : full k c').
    { refine (IH _ (b2 :: s) v c' Hv _ _ Cr Ei); [|cbn [length]; lia]. destruct oc as [c0|]; [left; exact (Fc _ _ En)|right; reflexivity]. }
    destruct (list_set ch (N.to_nat (b mod 64)) (Some c')) as [ch'| |] eqn:Es; cbn [bind] in E; try discriminate E. injection E as <-.
    assert (Lp : (N.to_nat (b mod 64) < length ch)%nat) by (apply nth_error_Some; rewrite En; discriminate).
    destruct (list_set_ok _ ch _ (Some c') Lp) as (ch2 & E2 & _ & G2). rewrite Es in E2. injection E2 as <-. cbn [full children]. split; [exact W1|]. split.
    + exists (N.to_nat (b mod 64)), c'. rewrite G2, Nat.eqb_refl. reflexivity.
    + intros p c Q. rewrite G2 in Q. destruct (Nat.eqb p (N.to_nat (b mod 64))); [injection Q as <-; exact Fc'|exact (Fc p c Q)].
Qed.

Definition full_root (t : node) : Prop := wf_root t /\ forall p c, nth_error (children t) p = Some (Some c) -> full (depth p) c /\ (2 <= p < 56)%nat.

Lemma full_new : full_root NewTrie.
Proof. split; [exact wf_new|]. intros p c H. exfalso. exact (nth_error_repeat_None _ _ _ _ H). Qed.

Lemma Insert_full : forall t r v t', full_root t -> (v <> 0 -> scalar r) -> Insert t r v = Ok t' -> full_root t'.
Proof.
  intros t r v t' [W F] HS E. destruct (Insert_get t r v W HS) as (t1 & E1 & W1 & _). rewrite E in E1. injection E1 as <-. split; [exact W1|].
  unfold Insert in E. destruct (N.eqb_spec v 0) as [->|Hv]; [injection E as <-; exact F|]. specialize (HS Hv). apply valid_rune_scalar in HS as Hr. rewrite Hr in E. cbn [negb] in E.
  pose proof (utf8_shaped r HS) as Sh. destruct (utf8 r) as [|b [|b2 s]] eqn:Eu; [destruct Sh| |]; cbn [length Nat.eqb] in E.
  - unfold byte_at in E. cbn [nth_error bind] in E. destruct (list_set _ _ _); cbn [bind] in E; try discriminate E. injection E as <-. exact F.
  - destruct (shaped_depth b (b2 :: s) Sh ltac:(discriminate)) as (L & P & C & B).
    rewrite insert_at_cons in E. cbv zeta in E. set (p := N.to_nat (b mod 64)) in *.
    assert (Hch : is_nil (children t) = false) by (destruct W as (_ & Lc & _); destruct (children t); [discriminate Lc|reflexivity]). rewrite Hch in E.
    destruct (nth_error (children t) p) as [oc|] eqn:En; [|discriminate E].
    destruct ((2 <? _)%nat && _); [discriminate E|].
    destruct (insert_at (b2 :: s) v _) as [c'| |] eqn:Ei; cbn [bind] in E; try discriminate E.
    assert (Fc' : full (depth p) c').
    { refine (insert_full (depth p) _ (b2 :: s) v c' Hv _ L C Ei). destruct oc as [c0|]; [left; exact (proj1 (F _ _ En))|right; reflexivity]. }
    destruct (list_set (children t) p (Some c')) as [ch'| |] eqn:Es; cbn [bind] in E; try discriminate E. injection E as <-.
    destruct (list_set_ok _ (children t) p (Some c')) as (ch2 & E2 & _ & G2); [apply nth_error_Some; rewrite En; discriminate|]. rewrite Es in E2. injection E2 as <-.
    cbn [children]. intros q c Q. rewrite G2 in Q. destruct (Nat.eqb_spec q p) as [->|]; [injection Q as <-; split; [exact Fc'|]|exact (F q c Q)].
    unfold p. rewrite mod_hi by lia. lia.
Qed.

Lemma inserts_full : forall l t t', full_root t -> assignable l -> inserts t l = Ok t' -> full_root t'.
Proof.
  induction l as [|[r v] l IH]; intros t t' F A E; cbn [inserts] in E; [injection E as <-; exact F|]. inversion A as [|? ? Ar Al]; subst. cbn [fst snd] in Ar.
  destruct (Insert t r v) as [t1| |] eqn:E1; cbn [bind] in E; try discriminate E. exact (IH t1 t' (Insert_full t r v t1 F Ar E1) Al E).
Qed.

Lemma root_ext : forall t t', full_root t -> full_root t' -> (forall s, shaped s -> get t s = get t' s) -> t = t'.
Proof.
  intros [ch vs] [ch' vs'] [(Lv & Lc & _) F] [(Lv' & Lc' & _) F'] E. cbn [children values] in *. f_equal.
  - apply nth_ext_error; [lia|]. intros p Hp. rewrite Lc in Hp.
    assert (Ep : (2 <= p < 56)%nat -> forall s, length s = S (depth p) -> Forall cont s -> match nth_error ch p with Some (Some c) => get_path s c | _ => 0 end = match nth_error ch' p with Some (Some c) => get_path s c | _ => 0 end).
    { intros Bp s Ls Cs. assert (Ns : s <> []) by (intros ->; discriminate Ls). set (b := 0xC0 + N.of_nat p).
      assert (Sh : shaped (b :: s)).
      { destruct s as [|c s]; [contradiction Ns; reflexivity|]. split; [unfold b; lia|]. split; [exact Cs|]. cbn [length] in *. unfold announced, depth in *.
        destruct (N.ltb_spec b 0xC2); [unfold b in *; lia|]. destruct (Nat.ltb_spec p 32); destruct (N.ltb_spec b 0xE0); try (unfold b in *; lia).
        destruct (Nat.ltb_spec p 48); destruct (N.ltb_spec b 0xF0); try (unfold b in *; lia). destruct (N.ltb_spec b 0xF8); unfold b in *; lia. }
      specialize (E _ Sh). assert (M : N.to_nat (b mod 64) = p) by (rewrite mod_hi by (unfold b; lia); unfold b; lia).
      destruct s as [|c s]; [contradiction Ns; reflexivity|]. cbn [get] in E. rewrite !get_path_cons in E by exact Ns. rewrite M in E. exact E. }
    destruct (nth_error ch p) as [[c|]|] eqn:E1; [| |apply nth_error_None in E1; lia]; (destruct (nth_error ch' p) as [[c'|]|] eqn:E2; [| |apply nth_error_None in E2; lia]).
    + do 2 f_equal. destruct (F p c E1) as [Fc Bp]. apply (full_ext (depth p) c c' Fc (proj1 (F' p c' E2)) (Ep Bp)).
    + destruct (F p c E1) as [Fc Bp]. destruct (full_path _ c Fc) as (s & Ls & Cs & G). specialize (Ep Bp s Ls Cs). contradiction.
    + destruct (F' p c' E2) as [Fc Bp]. destruct (full_path _ c' Fc) as (s & Ls & Cs & G). specialize (Ep Bp s Ls Cs). symmetry in Ep. contradiction.
    + reflexivity.
  - apply nth_ext_error; [lia|]. intros p Hp. rewrite Lv in Hp. specialize (E [N.of_nat p] ltac:(cbn [shaped]; lia)). cbn [get values] in E. rewrite Nnat.Nat2N.id, !nth_of_error in E.
    destruct (nth_error vs p) eqn:E1; [|apply nth_error_None in E1; lia]. destruct (nth_error vs' p) eqn:E2; [|apply nth_error_None in E2; lia]. rewrite E. reflexivity.
Qed.

(** Two sequences of insertions that assign the same values give the same trie. *)
Lemma inserts_ext : forall l l', assignable l -> assignable l' -> (forall cp, scalar cp -> assigned l cp = assigned l' cp) -> inserts NewTrie l = inserts NewTrie l'.
Proof.
  intros l l' A A' E. destruct (inserts_get l NewTrie wf_new A) as (t & Et & W & G & O). destruct (inserts_get l' NewTrie wf_new A') as (t' & Et' & W' & G' & O').
  rewrite Et, Et'. f_equal. apply root_ext; [exact (inserts_full l _ _ full_new A Et)|exact (inserts_full l' _ _ full_new A' Et')|].
  assert (GE : forall cp, scalar cp -> get t (utf8 cp) = get t' (utf8 cp)) by (intros cp S; rewrite (G cp S), (G' cp S), (E cp S), get_new; reflexivity).
  intros s Sh. destruct (N.eq_dec (get t s) 0) as [Z|Z].
  - destruct (N.eq_dec (get t' s) 0) as [Z'|Z']; [congruence|]. destruct (O' s Sh Z') as [(cp & S & ->)|Q]; [exact (GE cp S)|]. contradiction Q. apply get_new.
  - destruct (O s Sh Z) as [(cp & S & ->)|Q]; [exact (GE cp S)|]. contradiction Q. apply get_new.
Qed.
