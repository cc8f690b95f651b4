(** The counting functions of CountGraphemes.v for data that a Scanner may hand over. *)
From Verif Require Import Base ListFacts Trie TableGraphemes Ansi Cost Graphemes CountGraphemes Lk SpecIter SpecApi CostGraphemes.
Local Open Scope nat_scope.

Lemma c_loop : forall fuel data e s r, result (t_g_loop fuel data e s) = Ok r -> let n := match r with Some n => n | None => length data end in g_pos s <= n /\ cost (t_g_loop fuel data e s) <= n - g_pos s + 1.
Proof.
  induction fuel as [|fuel IH]; intros data e s r H; [discriminate|]. cbn [t_g_loop] in *. destruct (Nat.eqb_spec (g_pos s) (length data)) as [E|E].
  { destruct e; cbn [negb] in *; injection H as <-; rewrite cost_free; lia. }
  cbv zeta in *. rewrite result_bind, result_free in H. unfold slice_from in *. destruct (length data <? g_pos s) eqn:El; [discriminate|]. apply Nat.ltb_ge in El. cbn [bind] in H.
  rewrite (cost_bind _ _ _ _ (skipn (g_pos s) data)) by reflexivity. rewrite cost_free. rewrite result_bind, result_steps in H.
  destruct (graphemes_lookup (skipn (g_pos s) data)) as [[v w]| |] eqn:EL; [|discriminate|discriminate]. cbn [bind] in H.
  rewrite (cost_bind _ _ _ _ (v, w)) by reflexivity. rewrite cost_steps. destruct (Nat.eqb_spec w 0) as [W|W].
  { destruct e; injection H as <-; rewrite cost_free; lia. }
  destruct (g_rules _ _ _ _ _); [|injection H as <-; rewrite cost_free; lia]. apply IH in H. cbn [g_pos] in H. lia.
Qed.
Lemma c_split : forall d e o, d <> [] -> result (t_splitFunc d e) = Ok o -> (forall n, 0 < n -> so_advance o = Z.of_nat n -> cost (t_splitFunc d e) <= n + 1) /\ cost (t_splitFunc d e) <= length d + 1.
Proof.
  intros d e o Hd H. unfold t_splitFunc in *. destruct d as [|b s]; [congruence|]. set (d := b :: s) in *. change (is_nil d) with false in *. cbv iota in *.
  rewrite result_bind, result_free in H. change (slice_from d 0) with (Ok d) in *. cbn [bind] in H. rewrite (cost_bind _ _ _ _ d) by reflexivity. rewrite cost_free.
  rewrite result_bind, result_steps in H. destruct (graphemes_lookup d) as [[v w]| |] eqn:EL; [|discriminate|discriminate]. cbn [bind] in H.
  rewrite (cost_bind _ _ _ _ (v, w)) by reflexivity. rewrite cost_steps. destruct (Nat.eqb_spec w 0) as [W|W].
  { destruct e; cbn [negb] in *; [|injection H as <-; rewrite cost_free; split; intros; lia].
    rewrite result_bind, result_free in H. apply bind_Ok in H. destruct H as (t & Ht & H). injection H as <-. rewrite (cost_bind _ _ _ _ t) by exact Ht. rewrite !cost_free. split; intros; lia. }
  rewrite result_bind in H. apply bind_Ok in H. destruct H as (r & Hr & H). rewrite (cost_bind _ _ _ _ r Hr). apply c_loop in Hr. cbn [g_pos] in Hr. cbv zeta in Hr. destruct r as [n|].
  - rewrite result_bind, result_free in H. apply bind_Ok in H. destruct H as (t & Ht & H). injection H as <-. rewrite (cost_bind _ _ _ _ t) by exact Ht. rewrite !cost_free.
    assert (Hnd : n <= length d). { unfold slice_to in Ht. destruct (Nat.ltb_spec (length d) n); [discriminate|assumption]. }
    split; [|lia]. intros m Hm E. assert (EL' : Z.of_nat n = Z.of_nat m) by exact E. lia.
  - injection H as <-. rewrite cost_free. split; [|lia]. intros m Hm E. cbn in E. lia.
Qed.
