(** Look-ahead over ignored characters, and what it costs over a whole text. *)
From Verif Require Import Base ListFacts Trie Engine Lk Cost.
Local Open Scope nat_scope.


Section Scan.
  Variable lk : bytes -> res (N * nat).
  Variable ign : N -> bool.

  (** the number of ignored characters at the front *)
  Fixpoint igk (k : nat) (d : bytes) : nat :=
    match k with
    | O => 0
    | S k' => match d with [] => 0 | _ => match lk d with Ok (v, S w) => if ign v then S (igk k' (skipn (S w) d)) else 0 | _ => 0 end end
    end.
  Definition ig (d : bytes) : nat := igk (length d) d.
  (** what looking ahead once from every character that is not ignored costs *)
  Fixpoint wtk (k : nat) (d : bytes) : nat :=
    match k with
    | O => 0
    | S k' => match d with [] => 0 | _ => match lk d with Ok (v, S w) => (if ign v then 0 else 1 + ig (skipn (S w) d)) + wtk k' (skipn (S w) d) | _ => 0 end end
    end.
  Definition wt (d : bytes) : nat := wtk (length d) d.
  (** the first character's part of it *)
  Definition hd_ (d : bytes) : nat := match d with [] => 0 | _ => match lk d with Ok (v, S w) => if ign v then 0 else 1 + ig (skipn (S w) d) | _ => 0 end end.
  (** the rest *)
  Definition tl_ (d : bytes) : nat := match d with [] => 0 | _ => match lk d with Ok (v, S w) => wt (skipn (S w) d) | _ => 0 end end.

  Lemma igk_irr : forall k k' d, length d <= k -> length d <= k' -> igk k d = igk k' d.
  Proof.
    induction k as [|k IH]; intros k' d H H'. { destruct d; [destruct k'; reflexivity|cbn in H; lia]. }
    destruct k' as [|k']. { destruct d; [reflexivity|cbn in H'; lia]. }
    destruct d as [|b d]; [reflexivity|]. cbn [igk]. destruct (lk (b :: d)) as [[v [|w]]| |]; try reflexivity. destruct (ign v); [|reflexivity]. f_equal.
    apply IH; rewrite skipn_length; cbn [length] in *; lia.
  Qed.
  Lemma ig_eq : forall d v w, d <> [] -> lk d = Ok (v, w) -> w <> 0 -> ig d = if ign v then S (ig (skipn w d)) else 0.
  Proof.
    intros d v w Hd Hl Hw. unfold ig. destruct d as [|b d]; [congruence|]. cbn [length igk]. rewrite Hl. destruct w as [|w]; [congruence|]. destruct (ign v); [|reflexivity]. f_equal.
    apply igk_irr; rewrite ?skipn_length; cbn [length]; lia.
  Qed.
  Lemma wtk_irr : forall k k' d, length d <= k -> length d <= k' -> wtk k d = wtk k' d.
  Proof.
    induction k as [|k IH]; intros k' d H H'. { destruct d; [destruct k'; reflexivity|cbn in H; lia]. }
    destruct k' as [|k']. { destruct d; [reflexivity|cbn in H'; lia]. }
    destruct d as [|b d]; [reflexivity|]. cbn [wtk]. destruct (lk (b :: d)) as [[v [|w]]| |]; try reflexivity. f_equal.
    apply IH; rewrite skipn_length; cbn [length] in *; lia.
  Qed.
  Lemma wt_split : forall d, wt d = hd_ d + tl_ d.
  Proof.
    intros d. unfold wt, hd_, tl_. destruct d as [|b d]; [reflexivity|]. cbn [length wtk]. destruct (lk (b :: d)) as [[v [|w]]| |]; try reflexivity. f_equal.
    apply wtk_irr; rewrite ?skipn_length; cbn [length]; lia.
  Qed.
  Lemma hd_eq : forall d v w, d <> [] -> lk d = Ok (v, w) -> w <> 0 -> hd_ d = if ign v then 0 else 1 + ig (skipn w d).
  Proof. intros d v w Hd Hl Hw. unfold hd_. destruct d as [|b d]; [congruence|]. rewrite Hl. destruct w; [congruence|reflexivity]. Qed.
  Lemma tl_eq : forall d v w, d <> [] -> lk d = Ok (v, w) -> w <> 0 -> tl_ d = wt (skipn w d).
  Proof. intros d v w Hd Hl Hw. unfold tl_. destruct d as [|b d]; [congruence|]. rewrite Hl. destruct w; [congruence|reflexivity]. Qed.
  (** every ignored character is looked at from one place only *)
  Lemma wt_bound : forall d, wt d + ig d <= 2 * length d.
  Proof.
    intros d. remember (length d) as k eqn:E. assert (H : length d <= k) by lia. clear E. revert d H. induction k as [|k IH]; intros d H. { destruct d; [cbn; lia|cbn in H; lia]. }
    destruct d as [|b d]; [cbn; lia|]. destruct (lk (b :: d)) as [[v [|w]]| |] eqn:EL; try (unfold wt, ig; cbn [length wtk igk]; rewrite EL; lia).
    assert (Hne : b :: d <> []) by discriminate. assert (W : S w <> 0) by discriminate. pose proof (IH (skipn (S w) (b :: d))) as HI. rewrite skipn_length in HI. cbn [length] in HI, H. specialize (HI ltac:(lia)).
    rewrite wt_split, (hd_eq _ _ _ Hne EL W), (tl_eq _ _ _ Hne EL W), (ig_eq _ _ _ Hne EL W). destruct (ign v); lia.
  Qed.

  (** seek.go in all four packages, over the lookup of the package *)
  Fixpoint g_sub (fuel : nat) (properties : N) (data : bytes) (atEOF : bool) (i : nat) : T (option nat * bool) :=
    match fuel with
    | O => free OutOfFuel
    | S fuel' =>
      if (i <? length data)%nat then
        d <~ free (slice_from data i) ;;
        ' (v, w) <~ steps 1 (lk d) ;;
        if Nat.eqb w 0 then
          if atEOF then free (Ok (None, false)) else free (Ok (None, true))
        else if ign v then g_sub fuel' properties data atEOF (i + w)
        else if is v properties then free (Ok (Some i, false))
        else free (Ok (None, false))
      else
        if atEOF then free (Ok (None, false)) else free (Ok (None, true))
    end.
  Lemma c_sub : forall fuel props data e i r, i <= length data -> result (g_sub fuel props data e i) = Ok r ->
    cost (g_sub fuel props data e i) <= 1 + ig (skipn i data) /\ (forall a, fst r = Some a -> i <= a /\ wt (skipn a data) = wt (skipn i data)).
  Proof.
    induction fuel as [|fuel IH]; intros props data e i r Hi H; [discriminate|]. cbn [g_sub] in *. destruct (Nat.ltb_spec i (length data)) as [L|L].
    2:{ destruct e; injection H as <-; rewrite cost_free; (split; [lia|discriminate]). }
    unfold slice_from in *. replace (length data <? i) with false in * by (symmetry; apply Nat.ltb_ge; lia). rewrite result_bind, result_free in H. cbn [bind] in H.
    rewrite (cost_bind _ _ _ _ (skipn i data)) by reflexivity. rewrite cost_free. rewrite result_bind, result_steps in H. apply bind_Ok in H. destruct H as ([v w] & Hl & H).
    rewrite (cost_bind _ _ _ _ (v, w)) by exact Hl. rewrite cost_steps. destruct (Nat.eqb_spec w 0) as [W|W].
    { destruct e; injection H as <-; rewrite cost_free; (split; [lia|discriminate]). }
    assert (Hne : skipn i data <> []). { intros E. apply (f_equal (@length N)) in E. rewrite skipn_length in E. cbn in E. lia. }
    assert (EI : ig (skipn i data) = if ign v then S (ig (skipn (i + w) data)) else 0) by (rewrite (ig_eq _ _ _ Hne Hl W), skipn_skipn, (Nat.add_comm w i); reflexivity).
    rewrite EI. destruct (ign v) eqn:EV.
    - destruct (Nat.le_gt_cases (i + w) (length data)) as [L2|L2].
      + apply IH in H; [|exact L2]. destruct H as (H1 & H2). split; [lia|]. intros a Ha. destruct (H2 a Ha) as (Ha1 & Ha2). split; [lia|]. rewrite Ha2.
        rewrite (wt_split (skipn i data)), (hd_eq _ _ _ Hne Hl W), (tl_eq _ _ _ Hne Hl W), EV, skipn_skipn, (Nat.add_comm w i). reflexivity.
      + (* the width would reach beyond the data: the loop ends *)
        destruct fuel as [|fuel]; [discriminate|]. cbn [g_sub] in *. replace (i + w <? length data) with false in * by (symmetry; apply Nat.ltb_ge; lia).
        destruct e; injection H as <-; rewrite cost_free; (split; [lia|discriminate]).
    - destruct (is v props); injection H as <-; rewrite cost_free; (split; [lia|]); [|discriminate]. intros a [= <-]. auto.
  Qed.
End Scan.
