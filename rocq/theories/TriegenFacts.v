(** Facts about Insert: what a path of a trie holds afterwards. *)
From Verif Require Import Base Trie SpecUtf8 ListFacts LookupOnly SpecTriegen Triegen.
Local Open Scope N_scope.

(** What a path of continuation bytes leads to from a node. *)
Fixpoint get_path (s : bytes) (n : node) : N :=
  match s with
  | [] => 0
  | [b] => nth (N.to_nat (b - 0x80)) (values n) 0
  | b :: rest => match nth_error (children n) (N.to_nat (b mod 64)) with Some (Some c) => get_path rest c | _ => 0 end
  end.

Definition cont (b : N) : Prop := 0x80 <= b <= 0xBF.

Fixpoint wf (k : nat) (n : node) : Prop :=
  match k with
  | O => children n = [] /\ length (values n) = 64%nat
  | S j => values n = [] /\ length (children n) = 64%nat /\ forall p c, nth_error (children n) p = Some (Some c) -> wf j c
  end.

Lemma list_set_ok : forall A (l : list A) i x, (i < length l)%nat ->
  exists l', list_set l i x = Ok l' /\ length l' = length l /\ forall j, nth_error l' j = if Nat.eqb j i then Some x else nth_error l j.
Proof.
  induction l as [|y r IH]; intros i x Hi; [cbn in Hi; lia|]. destruct i as [|i].
  - exists (x :: r). split; [reflexivity|]. split; [reflexivity|]. intros [|j]; reflexivity.
  - cbn [length] in Hi. destruct (IH i x ltac:(lia)) as (l' & E & L & G). exists (y :: l'). cbn [list_set]. rewrite E. split; [reflexivity|]. split; [cbn [length]; lia|].
    intros [|j]; [reflexivity|]. cbn [nth_error Nat.eqb]. apply G.
Qed.

Lemma nth_of_error : forall (l : list N) i, nth i l 0 = match nth_error l i with Some x => x | None => 0 end.
Proof. induction l as [|y r IH]; intros [|i]; try reflexivity. cbn. apply IH. Qed.

Lemma nth_repeat_0 : forall n i, nth i (repeat 0 n) 0 = 0.
Proof. induction n as [|n IH]; intros [|i]; try reflexivity. cbn. apply IH. Qed.
Lemma nth_error_repeat_None : forall (A : Type) n i (c : A), nth_error (repeat None n) i <> Some (Some c).
Proof. induction n as [|n IH]; intros [|i] c; cbn; try discriminate. apply IH. Qed.

Lemma cont_sub : forall b, cont b -> (N.to_nat (b - 0x80) < 64)%nat.
Proof. unfold cont. intros b H. lia. Qed.
Lemma cont_mod : forall b, cont b -> b mod 64 = b - 0x80.
Proof. unfold cont. intros b H. replace b with (b - 0x80 + 2 * 64) at 1 by lia. rewrite N.mod_add by discriminate. apply N.mod_small. lia. Qed.

Lemma get_path_empty : forall s, get_path s (Node [] []) = 0.
Proof. intros [|b [|c r]]; cbn [get_path values children]; try reflexivity; destruct (N.to_nat _); reflexivity. Qed.

Lemma insert_at_cons : forall b b2 r v n, insert_at (b :: b2 :: r) v n =
  let ch := if is_nil (children n) then repeat None blockSize else children n in
  match nth_error ch (N.to_nat (b mod 64)) with
  | None => Panic
  | Some oc =>
    let c := match oc with None => Node [] [] | Some c => c end in
    if (2 <? length (b :: b2 :: r))%nat && negb (is_nil (values c)) then Panic
    else c' <- insert_at (b2 :: r) v c ;; ch' <- list_set ch (N.to_nat (b mod 64)) (Some c') ;; Ok (Node ch' (values n))
  end.
Proof. reflexivity. Qed.

Definition eqb_bytes (x y : bytes) : bool := if list_eq_dec N.eq_dec x y then true else false.

Lemma insert_cont : forall k n s v, (wf k n \/ n = Node [] []) -> length s = S k -> Forall cont s ->
  exists n', insert_at s v n = Ok n' /\ wf k n' /\
    forall s', length s' = S k -> Forall cont s' -> get_path s' n' = if eqb_bytes s' s then v else get_path s' n.
Proof.
  induction k as [|k IH]; intros n s v W L C.
  - destruct s as [|b [|? ?]]; try discriminate. inversion C as [|? ? Cb _]; subst.
    assert (Hc : children n = []) by (destruct W as [[W _]| ->]; [exact W|reflexivity]).
    set (vs := if is_nil (values n) then repeat 0 blockSize else values n).
    assert (Lv : length vs = 64%nat).
    { unfold vs. destruct W as [[_ W]| ->]; [|reflexivity]. destruct (values n); [discriminate|exact W]. }
    assert (Gv : forall i, nth i vs 0 = nth i (values n) 0).
    { intros i. unfold vs. destruct (values n) eqn:E; cbn [is_nil]; [|reflexivity]. unfold blockSize. rewrite nth_repeat_0. destruct i; reflexivity. }
    destruct (list_set_ok _ vs (N.to_nat (b - 0x80)) v) as (vs' & E & L' & G); [rewrite Lv; apply cont_sub; exact Cb|].
    exists (Node (children n) vs'). cbn [insert_at]. fold vs. rewrite Hc. cbn [is_nil negb].
    assert (Hb : b <? 0x80 = false) by (apply N.ltb_ge; destruct Cb; assumption). rewrite Hb, E. cbn [bind].
    split; [reflexivity|]. split; [split; [reflexivity|cbn [values]; lia]|].
    intros s' Ls Cs. destruct s' as [|b' [|? ?]]; try discriminate. inversion Cs as [|? ? Cb' _]; subst.
    cbn [get_path values]. rewrite nth_of_error, G. unfold eqb_bytes.
    destruct (Nat.eqb_spec (N.to_nat (b' - 0x80)) (N.to_nat (b - 0x80))) as [Q|Q].
    + assert (b' = b) by (unfold cont in *; lia). subst b'. destruct (list_eq_dec N.eq_dec [b] [b]) as [_|Hn]; [reflexivity|contradiction Hn; reflexivity].
    + destruct (list_eq_dec N.eq_dec [b'] [b]) as [Q'|_]; [injection Q' as ->; contradiction Q; reflexivity|].
      rewrite <- nth_of_error. apply Gv.
  - destruct s as [|b [|b2 s]]; try discriminate. inversion C as [|? ? Cb Cr]; subst.
    assert (Hv : values n = []) by (destruct W as [[W _]| ->]; [exact W|reflexivity]).
    rewrite insert_at_cons. cbv zeta. set (ch := if is_nil (children n) then repeat None blockSize else children n).
    assert (Lc : length ch = 64%nat).
    { unfold ch. destruct W as [[_ [W _]]| ->]; [|reflexivity]. destruct (children n); [discriminate|exact W]. }
    assert (Gc : forall i c, nth_error ch i = Some (Some c) <-> nth_error (children n) i = Some (Some c)).
    { intros i c. unfold ch. destruct (children n) eqn:E; cbn [is_nil]; [|reflexivity]. split; intros Q; [|destruct i; discriminate Q]. exfalso. exact (nth_error_repeat_None _ _ _ _ Q). }
    assert (Wc : forall i c, nth_error ch i = Some (Some c) -> wf k c).
    { intros i c Q. apply Gc in Q. destruct W as [[_ [_ W]]| ->]; [exact (W _ _ Q)|destruct i; discriminate Q]. }
    assert (Hp : (N.to_nat (b mod 64) < length ch)%nat) by (rewrite Lc, (cont_mod _ Cb); apply cont_sub; exact Cb).
    destruct (nth_error ch (N.to_nat (b mod 64))) as [oc|] eqn:En; [|apply nth_error_None in En; lia].
    set (c := match oc with None => Node [] [] | Some c => c end).
    assert (Wcc : wf k c \/ c = Node [] []) by (unfold c; destruct oc as [c0|]; [left; exact (Wc _ _ En)|right; reflexivity]).
    cbn [length] in L. assert (L2 : length (b2 :: s) = S k) by (cbn [length]; lia).
    assert (Hval : ((2 <? length (b :: b2 :: s))%nat && negb (is_nil (values c)) = false)).
    { destruct s as [|b3 s]; [reflexivity|]. destruct k as [|k]; [cbn [length] in L; lia|]. destruct Wcc as [[Wv _]| ->]; [rewrite Wv|cbn [values]]; apply andb_false_r. }
    fold c. rewrite Hval. destruct (IH c (b2 :: s) v Wcc L2 Cr) as (c' & E' & W' & G'). rewrite E'. cbn [bind].
    destruct (list_set_ok _ ch (N.to_nat (b mod 64)) (Some c') Hp) as (ch' & E & L' & G). rewrite E. cbn [bind].
    exists (Node ch' (values n)). split; [reflexivity|]. split.
    { split; [exact Hv|]. split; [cbn [children]; lia|]. cbn [children]. intros p c1 Q. rewrite G in Q. destruct (Nat.eqb_spec p (N.to_nat (b mod 64))); [injection Q as <-; exact W'|exact (Wc _ _ Q)]. }
    intros s' Ls Cs. destruct s' as [|d [|d2 s']]; try discriminate. inversion Cs as [|? ? Cd Cr']; subst.
    change (get_path (d :: d2 :: s') (Node ch' (values n))) with (match nth_error ch' (N.to_nat (d mod 64)) with Some (Some c) => get_path (d2 :: s') c | _ => 0 end).
    change (get_path (d :: d2 :: s') n) with (match nth_error (children n) (N.to_nat (d mod 64)) with Some (Some c) => get_path (d2 :: s') c | _ => 0 end).
    cbn [length] in Ls. rewrite G. destruct (Nat.eqb_spec (N.to_nat (d mod 64)) (N.to_nat (b mod 64))) as [Q|Q].
    + assert (d = b). { rewrite (cont_mod _ Cb), (cont_mod _ Cd) in Q. unfold cont in *. lia. } subst d.
      rewrite G' by (cbn [length]; try lia; assumption). unfold eqb_bytes.
      destruct (list_eq_dec N.eq_dec (d2 :: s') (b2 :: s)) as [Q1|Q1]; destruct (list_eq_dec N.eq_dec (b :: d2 :: s') (b :: b2 :: s)) as [Q2|Q2]; try reflexivity.
      * contradiction Q2. rewrite Q1. reflexivity.
      * contradiction Q1. injection Q2 as -> ->. reflexivity.
      * unfold c. destruct oc as [c0|]; [apply Gc in En; rewrite En; reflexivity|]. rewrite get_path_empty.
        destruct (nth_error (children n) (N.to_nat (b mod 64))) as [[c1|]|] eqn:E1; try reflexivity. apply Gc in E1. rewrite En in E1. discriminate.
    + unfold eqb_bytes. destruct (list_eq_dec N.eq_dec (d :: d2 :: s') (b :: b2 :: s)) as [Q2|_]; [injection Q2 as -> _ _; contradiction Q; reflexivity|].
      destruct (nth_error ch (N.to_nat (d mod 64))) as [[c1|]|] eqn:E1.
      * apply Gc in E1. rewrite E1. reflexivity.
      * destruct (nth_error (children n) (N.to_nat (d mod 64))) as [[c1|]|] eqn:E2; try reflexivity. apply Gc in E2. rewrite E1 in E2. discriminate.
      * destruct (nth_error (children n) (N.to_nat (d mod 64))) as [[c1|]|] eqn:E2; try reflexivity. apply Gc in E2. rewrite E1 in E2. discriminate.
Qed.

(** The depth below the root of the nodes for a lead byte. *)
Definition depth (p : nat) : nat := if (p <? 32)%nat then 0 else if (p <? 48)%nat then 1 else 2.

Definition wf_root (t : node) : Prop :=
  length (values t) = 128%nat /\ length (children t) = 64%nat /\ forall p c, nth_error (children t) p = Some (Some c) -> wf (depth p) c.

(** Sequences of bytes of the shape the lookup follows. *)
Definition shaped (s : bytes) : Prop :=
  match s with
  | [] => False
  | [b] => b < 0x80
  | b :: r => 0xC2 <= b < 0xF8 /\ Forall cont r /\ length s = announced b
  end.

(** What the trie holds for such a sequence. *)
Definition get (t : node) (s : bytes) : N :=
  match s with [b] => nth (N.to_nat b) (values t) 0 | _ => get_path s t end.

Lemma mod_hi : forall b, 0xC0 <= b < 0x100 -> b mod 64 = b - 0xC0.
Proof. intros b H. replace b with (b - 0xC0 + 3 * 64) at 1 by lia. rewrite N.mod_add by discriminate. apply N.mod_small. lia. Qed.

Lemma shaped_depth : forall b r, shaped (b :: r) -> r <> [] ->
  length r = S (depth (N.to_nat (b mod 64))) /\ (N.to_nat (b mod 64) < 64)%nat /\ Forall cont r /\ 0xC2 <= b < 0xF8.
Proof.
  intros b [|c r] S N; [contradiction N; reflexivity|]. destruct S as (B & C & A). rewrite mod_hi by lia.
  unfold announced in A. unfold depth.
  assert (b <? 0xC2 = false) by (apply N.ltb_ge; lia). rewrite H in A. cbn [length] in *.
  destruct (N.ltb_spec b 0xE0).
  { destruct (Nat.ltb_spec (N.to_nat (b - 0xC0)) 32); [|lia]. repeat split; [lia|lia|exact C|lia|lia]. }
  destruct (N.ltb_spec b 0xF0).
  { destruct (Nat.ltb_spec (N.to_nat (b - 0xC0)) 32); [lia|]. destruct (Nat.ltb_spec (N.to_nat (b - 0xC0)) 48); [|lia]. repeat split; [lia|lia|exact C|lia|lia]. }
  destruct (N.ltb_spec b 0xF8); [|lia].
  destruct (Nat.ltb_spec (N.to_nat (b - 0xC0)) 32); [lia|]. destruct (Nat.ltb_spec (N.to_nat (b - 0xC0)) 48); [lia|]. repeat split; [lia|lia|exact C|lia|lia].
Qed.

Lemma wf_new : wf_root NewTrie.
Proof.
  split; [reflexivity|]. split; [reflexivity|]. intros p c H. exfalso. exact (nth_error_repeat_None _ _ _ _ H).
Qed.
Lemma get_new : forall s, get NewTrie s = 0.
Proof.
  intros [|b [|c r]]; cbn [get get_path NewTrie values]; try reflexivity; [apply nth_repeat_0|].
  destruct (nth_error _ _) as [[c0|]|] eqn:E; try reflexivity. exfalso. exact (nth_error_repeat_None _ _ _ _ E).
Qed.

Lemma valid_rune_scalar : forall r, valid_rune r = true <-> scalar r.
Proof.
  intros r. unfold valid_rune, scalar. rewrite orb_true_iff, andb_true_iff, !N.ltb_lt, N.leb_le. reflexivity.
Qed.

Lemma mod_small40 : forall x, x mod 0x40 < 0x40.
Proof. intros x. apply N.mod_lt. discriminate. Qed.

Lemma utf8_shaped : forall cp, scalar cp -> shaped (utf8 cp).
Proof.
  intros cp S. assert (B : cp < 0x110000) by (unfold scalar in S; lia). unfold utf8.
  pose proof (mod_small40 cp) as M0. pose proof (mod_small40 (cp / 0x40)) as M1. pose proof (mod_small40 (cp / 0x1000)) as M2.
  destruct (N.ltb_spec cp 0x80) as [H|H]; [exact H|].
  destruct (N.ltb_spec cp 0x800) as [H1|H1].
  { assert (D : 2 <= cp / 0x40 < 0x20) by (split; [apply N.div_le_lower_bound; lia|apply N.div_lt_upper_bound; lia]).
    generalize dependent (cp / 0x40). generalize dependent (cp mod 0x40). intros m Hm q _ Hq. cbn [shaped]. split; [lia|]. split; [repeat constructor; unfold cont; lia|].
    unfold announced. destruct (N.ltb_spec (0xC0 + q) 0xC2); [lia|]. destruct (N.ltb_spec (0xC0 + q) 0xE0); [reflexivity|lia]. }
  destruct (N.ltb_spec cp 0x10000) as [H2|H2].
  { assert (D : cp / 0x1000 < 0x10) by (apply N.div_lt_upper_bound; lia).
    clear M2. generalize dependent (cp / 0x1000). generalize dependent ((cp / 0x40) mod 0x40). generalize dependent (cp mod 0x40). intros m Hm m1 Hm1 q Hq. cbn [shaped]. split; [lia|]. split; [repeat constructor; unfold cont; lia|].
    unfold announced. destruct (N.ltb_spec (0xE0 + q) 0xC2); [lia|]. destruct (N.ltb_spec (0xE0 + q) 0xE0); [lia|]. destruct (N.ltb_spec (0xE0 + q) 0xF0); [reflexivity|lia]. }
  assert (D : cp / 0x40000 < 0x5) by (apply N.div_lt_upper_bound; lia).
  generalize dependent (cp / 0x40000). generalize dependent ((cp / 0x1000) mod 0x40). generalize dependent ((cp / 0x40) mod 0x40). generalize dependent (cp mod 0x40). intros m Hm m1 Hm1 m2 Hm2 q Hq. cbn [shaped]. split; [lia|]. split; [repeat constructor; unfold cont; lia|].
  unfold announced. destruct (N.ltb_spec (0xF0 + q) 0xC2); [lia|]. destruct (N.ltb_spec (0xF0 + q) 0xE0); [lia|]. destruct (N.ltb_spec (0xF0 + q) 0xF0); [lia|]. destruct (N.ltb_spec (0xF0 + q) 0xF8); [reflexivity|lia].
Qed.

Lemma eqb_bytes_refl : forall s, eqb_bytes s s = true.
Proof. intros s. unfold eqb_bytes. destruct (list_eq_dec N.eq_dec s s) as [_|H]; [reflexivity|contradiction H; reflexivity]. Qed.
Lemma eqb_bytes_spec : forall x y, eqb_bytes x y = true <-> x = y.
Proof. intros x y. unfold eqb_bytes. destruct (list_eq_dec N.eq_dec x y); split; congruence. Qed.

(** One insertion below the root. *)
Lemma insert_root : forall t b r v, wf_root t -> shaped (b :: r) -> r <> [] ->
  exists t', insert_at (b :: r) v t = Ok t' /\ wf_root t' /\
    forall s, shaped s -> get t' s = if eqb_bytes s (b :: r) then v else get t s.
Proof.
  intros t b r v (Lv & Lc & W) S N. destruct (shaped_depth b r S N) as (L & P & C & B).
  destruct r as [|b2 r]; [contradiction N; reflexivity|]. rewrite insert_at_cons. cbv zeta.
  assert (Hch : is_nil (children t) = false) by (destruct (children t); [discriminate Lc|reflexivity]). rewrite Hch.
  set (p := N.to_nat (b mod 64)) in *.
  destruct (nth_error (children t) p) as [oc|] eqn:En; [|apply nth_error_None in En; lia].
  set (c := match oc with None => Node [] [] | Some c => c end).
  assert (Wcc : wf (depth p) c \/ c = Node [] []) by (unfold c; destruct oc as [c0|]; [left; exact (W _ _ En)|right; reflexivity]).
  assert (Hval : ((2 <? length (b :: b2 :: r))%nat && negb (is_nil (values c)) = false)).
  { destruct r as [|b3 r]; [reflexivity|]. destruct (depth p) as [|k]; [cbn [length] in L; lia|]. destruct Wcc as [[Wv _]| ->]; [rewrite Wv|cbn [values]]; apply andb_false_r. }
  fold c. rewrite Hval. destruct (insert_cont (depth p) c (b2 :: r) v Wcc L C) as (c' & E' & W' & G'). rewrite E'. cbn [bind].
  destruct (list_set_ok _ (children t) p (Some c')) as (ch' & E & L' & G); [lia|]. rewrite E. cbn [bind].
  exists (Node ch' (values t)). split; [reflexivity|]. split.
  { split; [exact Lv|]. split; [cbn [children]; lia|]. cbn [children]. intros q c1 Q. rewrite G in Q. destruct (Nat.eqb_spec q p) as [->|]; [injection Q as <-; exact W'|exact (W _ _ Q)]. }
  intros s Ss. destruct s as [|d [|d2 s]]; [destruct Ss|unfold eqb_bytes; destruct (list_eq_dec N.eq_dec [d] (b :: b2 :: r)) as [H|_]; [discriminate H|reflexivity]|]. destruct (shaped_depth d (d2 :: s) Ss ltac:(discriminate)) as (Ld & Pd & Cd & Bd).
  change (get (Node ch' (values t)) (d :: d2 :: s)) with (match nth_error ch' (N.to_nat (d mod 64)) with Some (Some c) => get_path (d2 :: s) c | _ => 0 end).
  change (get t (d :: d2 :: s)) with (match nth_error (children t) (N.to_nat (d mod 64)) with Some (Some c) => get_path (d2 :: s) c | _ => 0 end).
  rewrite G. destruct (Nat.eqb_spec (N.to_nat (d mod 64)) p) as [Q|Q].
  - assert (d = b). { unfold p in Q. rewrite !mod_hi in Q by lia. lia. } subst d. fold p. rewrite G'; [|exact Ld|exact Cd]. unfold eqb_bytes.
    destruct (list_eq_dec N.eq_dec (d2 :: s) (b2 :: r)) as [Q1|Q1]; destruct (list_eq_dec N.eq_dec (b :: d2 :: s) (b :: b2 :: r)) as [Q2|Q2]; try reflexivity.
    + contradiction Q2. rewrite Q1. reflexivity.
    + contradiction Q1. injection Q2 as -> ->. reflexivity.
    + rewrite En. unfold c. destruct oc as [c0|]; [reflexivity|]. apply get_path_empty.
  - unfold eqb_bytes. destruct (list_eq_dec N.eq_dec (d :: d2 :: s) (b :: b2 :: r)) as [Q2|_]; [injection Q2 as -> _ _; contradiction Q; reflexivity|]. reflexivity.
Qed.

Lemma Insert_get : forall t r v, wf_root t -> (v <> 0 -> scalar r) ->
  exists t', Insert t r v = Ok t' /\ wf_root t' /\
    forall s, shaped s -> get t' s = if negb (v =? 0) && eqb_bytes s (utf8 r) then v else get t s.
Proof.
  intros t r v W HS. unfold Insert. destruct (N.eqb_spec v 0) as [->|Hv]; [exists t; split; [reflexivity|]; split; [exact W|reflexivity]|].
  specialize (HS Hv). apply valid_rune_scalar in HS as Hvr. rewrite Hvr. cbn [negb andb].
  pose proof (utf8_shaped r HS) as Sh. destruct (utf8 r) as [|b [|b2 s]] eqn:Eu; [destruct Sh| |].
  - cbn [length Nat.eqb byte_at nth_error bind]. destruct W as (Lv & Lc & W).
    destruct (list_set_ok _ (values t) (N.to_nat b) v) as (vs' & E & L' & G); [cbn [shaped] in Sh; lia|]. unfold byte_at. cbn [nth_error bind]. rewrite E. cbn [bind].
    exists (Node (children t) vs'). split; [reflexivity|]. split; [split; [cbn [values]; lia|split; assumption]|].
    intros s Ss. destruct s as [|d [|d2 s]]; [destruct Ss| |].
    + cbn [get values]. rewrite nth_of_error, G. unfold eqb_bytes. destruct (Nat.eqb_spec (N.to_nat d) (N.to_nat b)) as [Q|Q].
      * assert (d = b) by lia. subst d. destruct (list_eq_dec N.eq_dec [b] [b]) as [_|H]; [reflexivity|contradiction H; reflexivity].
      * destruct (list_eq_dec N.eq_dec [d] [b]) as [H|_]; [injection H as ->; contradiction Q; reflexivity|]. rewrite <- nth_of_error. reflexivity.
    + unfold eqb_bytes. destruct (list_eq_dec N.eq_dec (d :: d2 :: s) [b]) as [H|_]; [discriminate|]. reflexivity.
  - cbn [length Nat.eqb]. apply insert_root; [exact W|exact Sh|discriminate].
Qed.
