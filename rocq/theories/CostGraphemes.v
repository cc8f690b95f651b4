(** The counting functions of CountGraphemes.v: same results, and bounds on the steps. *)
From Verif Require Import Base ListFacts Trie TableGraphemes Ansi Cost Graphemes CountGraphemes Lk SpecIter SpecApi ApiInst.

Lemma r_csi : forall d i s, result (t_csiBodyLoop d i s) = Ok (csiBodyLoop d i s).
Proof.
  induction d as [|b d IH]; intros i s; [reflexivity|]. cbn [t_csiBodyLoop csiBodyLoop]. rewrite result_bind, result_steps. cbn [bind].
  destruct (inRange 0x30 0x3F b). { destruct s; [reflexivity|apply IH]. } destruct (inRange 0x20 0x2F b); [apply IH|]. destruct (inRange 0x40 0x7E b); reflexivity.
Qed.
Lemma r_osc : forall d i, result (t_oscLoop d i) = Ok (oscLoop d i).
Proof.
  induction d as [|b d IH]; intros i; [reflexivity|]. cbn [t_oscLoop oscLoop]. rewrite result_bind, result_steps. cbn [bind].
  destruct (b =? bel)%N; [reflexivity|]. destruct ((b =? can) || (b =? sub))%N; [reflexivity|]. destruct ((b =? esc)%N && _); [reflexivity|apply IH].
Qed.
Lemma r_st : forall d i, result (t_stLoop d i) = Ok (stLoop d i).
Proof.
  induction d as [|b d IH]; intros i; [reflexivity|]. cbn [t_stLoop stLoop]. rewrite result_bind, result_steps. cbn [bind].
  destruct ((b =? can) || (b =? sub))%N; [reflexivity|]. destruct ((b =? esc)%N && _); [reflexivity|apply IH].
Qed.
Lemma r_nF : forall d i, result (t_nFLoop d i) = Ok (nFLoop d i).
Proof.
  induction d as [|b d IH]; intros i; [reflexivity|]. cbn [t_nFLoop nFLoop]. rewrite result_bind, result_steps. cbn [bind].
  destruct (inRange 0x20 0x2F b); [apply IH|]. destruct (inRange 0x30 0x7E b); reflexivity.
Qed.
Lemma r_oscC1 : forall d i, result (t_oscC1Loop d i) = Ok (oscC1Loop d i).
Proof.
  induction d as [|b d IH]; intros i; [reflexivity|]. cbn [t_oscC1Loop oscC1Loop]. rewrite result_bind, result_steps. cbn [bind].
  destruct ((b =? bel) || (b =? st))%N; [reflexivity|]. destruct ((b =? can) || (b =? sub))%N; [reflexivity|apply IH].
Qed.
Lemma r_stC1 : forall d i, result (t_stC1Loop d i) = Ok (stC1Loop d i).
Proof.
  induction d as [|b d IH]; intros i; [reflexivity|]. cbn [t_stC1Loop stC1Loop]. rewrite result_bind, result_steps. cbn [bind].
  destruct ((b =? can) || (b =? sub))%N; [reflexivity|]. destruct (b =? st)%N; [reflexivity|apply IH].
Qed.
Lemma r_ansi7 : forall d, result (t_ansiEscapeLength d) = Ok (ansiEscapeLength d).
Proof.
  intros [|b0 [|b1 d]]; try reflexivity. cbn [t_ansiEscapeLength ansiEscapeLength]. destruct (negb (b0 =? esc)%N); [reflexivity|].
  destruct (b1 =? 0x5B)%N. { rewrite result_bind, r_csi. reflexivity. }
  destruct (b1 =? 0x5D)%N. { rewrite result_bind, r_osc. reflexivity. }
  destruct (((b1 =? 0x50) || (b1 =? 0x58) || (b1 =? 0x5E) || (b1 =? 0x5F))%N). { rewrite result_bind, r_st. reflexivity. }
  destruct (inRange 0x40 0x7E b1); [reflexivity|]. destruct (inRange 0x30 0x3F b1); [reflexivity|]. destruct (inRange 0x20 0x2F b1); [apply r_nF|reflexivity].
Qed.
Lemma r_ansi8 : forall d, result (t_ansiEscapeLength8Bit d) = Ok (ansiEscapeLength8Bit d).
Proof.
  intros [|b0 d]; try reflexivity. cbn [t_ansiEscapeLength8Bit ansiEscapeLength8Bit].
  destruct (b0 =? 0x9B)%N. { rewrite result_bind, r_csi. reflexivity. }
  destruct (b0 =? 0x9D)%N. { rewrite result_bind, r_oscC1. reflexivity. }
  destruct (((b0 =? 0x90) || (b0 =? 0x98) || (b0 =? 0x9E) || (b0 =? 0x9F))%N). { rewrite result_bind, r_stC1. reflexivity. }
  destruct (inRange 0x80 0x9F b0); reflexivity.
Qed.
Lemma r_loop : forall fuel data e s, result (t_g_loop fuel data e s) = g_loop fuel data e s.
Proof.
  induction fuel as [|fuel IH]; intros data e s; [reflexivity|]. cbn [t_g_loop g_loop]. destruct (Nat.eqb (g_pos s) (length data)). { destruct e; reflexivity. }
  cbv zeta. rewrite result_bind. apply bind_ext; [reflexivity|]. intros d. rewrite result_bind. apply bind_ext; [reflexivity|]. intros [v w].
  destruct (Nat.eqb w 0). { destruct e; reflexivity. } destruct (g_rules _ _ _ _ _); [apply IH|reflexivity].
Qed.
Lemma r_split : forall d e, result (t_splitFunc d e) = splitFunc d e.
Proof.
  intros d e. unfold t_splitFunc, splitFunc. destruct (is_nil d); [reflexivity|]. rewrite result_bind. apply bind_ext; [reflexivity|]. intros d'. rewrite result_bind. apply bind_ext; [reflexivity|]. intros [v w].
  destruct (Nat.eqb w 0). { destruct e; [|reflexivity]. cbn [negb]. rewrite result_bind. reflexivity. }
  rewrite result_bind. apply bind_ext; [apply r_loop|]. intros [n|]; [rewrite result_bind|]; reflexivity.
Qed.
Lemma r_next_split : forall it, result (t_next_split it) = next_split it.
Proof.
  intros it. unfold t_next_split, next_split. rewrite result_bind. apply bind_ext; [reflexivity|]. intros d. rewrite result_bind. apply bind_ext; [apply r_split|]. intros o.
  destruct (so_err o); [reflexivity|]. destruct (so_advance o <=? 0)%Z; [reflexivity|]. cbv zeta. destruct (_ <? _); reflexivity.
Qed.
Lemma r_ascii : forall it b, result (t_next_ascii it b) = next_ascii it b.
Proof.
  intros it b. unfold t_next_ascii, next_ascii. destruct ((b <? 0x80) && _)%N; [|apply r_next_split]. destruct (_ <=? _); [reflexivity|].
  rewrite result_bind. apply bind_ext; [reflexivity|]. intros b'. destruct (b' <? 0x80)%N; [reflexivity|apply r_next_split].
Qed.
Lemma r_next8 : forall it b, result (t_next_ansi8 it b) = next_ansi8 it b.
Proof.
  intros it b. unfold t_next_ansi8, next_ansi8. destruct (it_ansi8 it && _); [|apply r_ascii]. rewrite result_bind. apply bind_ext; [reflexivity|]. intros d.
  rewrite result_bind, r_ansi8. cbn [bind]. cbv zeta. destruct (_ <? _); [reflexivity|apply r_ascii].
Qed.
Lemma r_Next : forall it, result (t_Next it) = Next it.
Proof.
  intros it. unfold t_Next, Next. destruct (_ <=? _); [reflexivity|]. cbv zeta. rewrite result_bind. apply bind_ext; [reflexivity|]. intros b.
  destruct (_ && _); [|apply r_next8]. rewrite result_bind. apply bind_ext; [reflexivity|]. intros d. rewrite result_bind, r_ansi7. cbn [bind]. destruct (_ <? _); [reflexivity|apply r_next8].
Qed.

(** ** Bounds *)

Lemma c_loop : forall fuel data s n, result (t_g_loop fuel data true s) = Ok (Some n) -> g_pos s <= n /\ cost (t_g_loop fuel data true s) <= n - g_pos s + 1.
Proof.
  induction fuel as [|fuel IH]; intros data s n H; [discriminate|]. cbn [t_g_loop] in *. destruct (Nat.eqb_spec (g_pos s) (length data)) as [E|E].
  { cbn [negb] in *. injection H as <-. rewrite cost_free. lia. }
  cbv zeta in *. rewrite result_bind, result_free in H. unfold slice_from in *. destruct (length data <? g_pos s) eqn:El; [discriminate|]. apply Nat.ltb_ge in El. cbn [bind] in H.
  rewrite (cost_bind _ _ _ _ (skipn (g_pos s) data)) by reflexivity. rewrite cost_free. rewrite result_bind, result_steps in H.
  destruct (graphemes_lookup (skipn (g_pos s) data)) as [[v w]| |] eqn:EL; [|discriminate|discriminate]. cbn [bind] in H.
  rewrite (cost_bind _ _ _ _ (v, w)) by reflexivity. rewrite cost_steps. destruct (Nat.eqb_spec w 0) as [W|W].
  { injection H as <-. rewrite cost_free. lia. }
  destruct (g_rules _ _ _ _ _); [|injection H as <-; rewrite cost_free; lia]. apply IH in H. cbn [g_pos] in H. lia.
Qed.
Lemma c_split : forall d o, result (t_splitFunc d true) = Ok o -> (cost (t_splitFunc d true) <= Z.to_nat (so_advance o) + 1)%nat.
Proof.
  intros d o H. unfold t_splitFunc in *. destruct (is_nil d). { injection H as <-. cbn. lia. }
  rewrite result_bind, result_free in H. change (slice_from d 0) with (Ok d) in *. cbn [bind] in H. rewrite (cost_bind _ _ _ _ d) by reflexivity. rewrite cost_free.
  rewrite result_bind, result_steps in H. destruct (graphemes_lookup d) as [[v w]| |] eqn:EL; [|discriminate|discriminate]. cbn [bind] in H.
  rewrite (cost_bind _ _ _ _ (v, w)) by reflexivity. rewrite cost_steps. destruct (Nat.eqb_spec w 0) as [W|W].
  { cbn [negb] in *. rewrite result_bind, result_free in H. apply bind_Ok in H. destruct H as (t & Ht & H). injection H as <-. rewrite (cost_bind _ _ _ _ t) by exact Ht. rewrite !cost_free. cbn. lia. }
  rewrite result_bind in H. apply bind_Ok in H. destruct H as (r & Hr & H). rewrite (cost_bind _ _ _ _ r Hr). destruct r as [n|].
  - apply c_loop in Hr. cbn [g_pos] in Hr. rewrite result_bind, result_free in H. apply bind_Ok in H. destruct H as (t & Ht & H). injection H as <-.
    rewrite (cost_bind _ _ _ _ t) by exact Ht. rewrite !cost_free. cbn [done so_advance]. rewrite Nat2Z.id. lia.
  - exfalso. clear - Hr. revert Hr. generalize (S (length d)). intros fuel. remember {| g_pos := w; g_current := v; g_lastEx := 0; g_lastLastEx := 0; g_ri := 0; g_incb := incbNone |} as s. clear Heqs. revert s.
    induction fuel as [|fuel IH]; intros s Hr; [discriminate|]. cbn [t_g_loop] in Hr. destruct (Nat.eqb _ _); [discriminate|]. cbv zeta in Hr. rewrite result_bind in Hr. apply bind_Ok in Hr. destruct Hr as (d' & _ & Hr).
    rewrite result_bind in Hr. apply bind_Ok in Hr. destruct Hr as ([v' w'] & _ & Hr). destruct (Nat.eqb w' 0); [discriminate|]. destruct (g_rules _ _ _ _ _); [apply IH in Hr; exact Hr|discriminate].
Qed.
Lemma c_next_split : forall it it', result (t_next_split it) = Ok (true, it') ->
  it_data it' = it_data it /\ it_ansi7 it' = it_ansi7 it /\ it_ansi8 it' = it_ansi8 it /\ it_pos it < it_pos it' <= length (it_data it) /\ cost (t_next_split it) <= it_pos it' - it_pos it + 1.
Proof.
  intros it it' H. unfold t_next_split in *. rewrite result_bind, result_free in H. apply bind_Ok in H. destruct H as (d & Hd & H). rewrite (cost_bind _ _ _ _ d) by exact Hd. rewrite cost_free.
  rewrite result_bind in H. apply bind_Ok in H. destruct H as (o & Ho & H). rewrite (cost_bind _ _ _ _ o Ho). apply c_split in Ho. destruct (so_err o); [discriminate|].
  destruct (so_advance o <=? 0)%Z eqn:Ez; [discriminate|]. apply Z.leb_gt in Ez. cbv zeta in *. destruct (_ <? _) eqn:El; [discriminate|]. apply Nat.ltb_ge in El. injection H as <-.
  rewrite cost_free. cbn [with_pos it_data it_pos it_start it_ansi7 it_ansi8]. repeat split; lia.
Qed.
Lemma c_ascii : forall it b it', result (t_next_ascii it b) = Ok (true, it') -> it_pos it < length (it_data it) ->
  it_data it' = it_data it /\ it_ansi7 it' = it_ansi7 it /\ it_ansi8 it' = it_ansi8 it /\ it_pos it < it_pos it' <= length (it_data it) /\ cost (t_next_ascii it b) <= it_pos it' - it_pos it + 2.
Proof.
  intros it b it' H Hp. unfold t_next_ascii in *. destruct ((b <? 0x80) && _)%N.
  2:{ apply c_next_split in H. intuition lia. }
  destruct (Nat.leb_spec (length (it_data it)) (it_pos it + 1)). { injection H as <-. rewrite cost_free. cbn [with_pos it_data it_pos it_start it_ansi7 it_ansi8]. repeat split; lia. }
  rewrite result_bind, result_steps in H. apply bind_Ok in H. destruct H as (b' & Hb & H). rewrite (cost_bind _ _ _ _ b') by exact Hb. rewrite cost_steps.
  destruct (b' <? 0x80)%N. { injection H as <-. rewrite cost_free. cbn [with_pos it_data it_pos it_start it_ansi7 it_ansi8]. repeat split; lia. }
  apply c_next_split in H. intuition lia.
Qed.
(** options off: linear *)
Lemma c_Next_off : forall it it', it_ansi7 it = false -> it_ansi8 it = false -> result (t_Next it) = Ok (true, it') ->
  (it_ansi7 it' = false /\ it_ansi8 it' = false) /\ cost (t_Next it) + 1 + 5 * (length (it_data it') - it_pos it') <= 5 * (length (it_data it) - it_pos it).
Proof.
  intros it it' H7 H8 H. unfold t_Next in *. destruct (Nat.leb_spec (length (it_data it)) (it_pos it)); [discriminate|]. cbv zeta in *.
  rewrite result_bind, result_steps in H. apply bind_Ok in H. destruct H as (b & Hb & H). rewrite (cost_bind _ _ _ _ b) by exact Hb. rewrite cost_steps.
  unfold t_next_ansi8 in *. cbn [with_pos it_ansi7 it_ansi8 it_pos it_data it_start] in *. rewrite H7, H8 in *. cbn [andb] in *.
  apply c_ascii in H; cbn [with_pos it_ansi7 it_ansi8 it_pos it_data it_start] in *; [|lia]. destruct H as (E1 & E2 & E3 & E4 & E5). rewrite E1, E2, E3. split; [auto|]. lia.
Qed.
Lemma c_false : forall it it', result (t_Next it) = Ok (false, it') -> cost (t_Next it) = 0.
Proof.
  intros it it' HN. unfold t_Next in *. destruct (_ <=? _); [rewrite cost_free; lia|]. exfalso. cbv zeta in HN. rewrite result_bind, result_steps in HN. apply bind_Ok in HN. destruct HN as (b & _ & HN).
  assert (S : forall x, result (t_next_split x) <> Ok (false, it')).
  { intros x Hx. unfold t_next_split in Hx. rewrite result_bind in Hx. apply bind_Ok in Hx. destruct Hx as (? & _ & Hx). rewrite result_bind in Hx. apply bind_Ok in Hx. destruct Hx as (o & _ & Hx).
    destruct (so_err o); [discriminate|]. destruct (so_advance o <=? 0)%Z; [discriminate|]. cbv zeta in Hx. destruct (_ <? _); discriminate. }
  assert (S1 : forall x, result (t_next_ascii x b) <> Ok (false, it')).
  { intros x Hx. unfold t_next_ascii in Hx. destruct ((b <? 0x80) && _)%N; [|exact (S _ Hx)]. destruct (_ <=? _); [discriminate|]. rewrite result_bind in Hx. apply bind_Ok in Hx. destruct Hx as (b' & _ & Hx).
    destruct (b' <? 0x80)%N; [discriminate|exact (S _ Hx)]. }
  assert (S2 : forall x, result (t_next_ansi8 x b) <> Ok (false, it')).
  { intros x Hx. unfold t_next_ansi8 in Hx. destruct (it_ansi8 x && _); [|exact (S1 _ Hx)]. rewrite result_bind in Hx. apply bind_Ok in Hx. destruct Hx as (? & _ & Hx). rewrite result_bind in Hx. apply bind_Ok in Hx. destruct Hx as (? & _ & Hx).
    destruct (_ <? _); [discriminate|exact (S1 _ Hx)]. }
  destruct (_ && _); [|exact (S2 _ HN)]. rewrite result_bind in HN. apply bind_Ok in HN. destruct HN as (? & _ & HN). rewrite result_bind in HN. apply bind_Ok in HN. destruct HN as (? & _ & HN).
    destruct (_ <? _); [discriminate|exact (S2 _ HN)].
Qed.
Lemma g_linear : forall d fuel l, result (tcollect t_Next Value fuel (FromBytes d)) = Ok l -> cost (tcollect t_Next Value fuel (FromBytes d)) <= 5 * length d + 1.
Proof.
  intros d fuel l H. pose proof (tcollect_cost _ _ t_Next Value (fun it => it_ansi7 it = false /\ it_ansi8 it = false) (fun it => 5 * (length (it_data it) - it_pos it)) 0) as HC.
  replace (5 * length d + 1) with (5 * (length (it_data (FromBytes d)) - it_pos (FromBytes d)) + 0 + 1) by (cbn [FromBytes it_data it_pos]; lia). eapply HC; [| | |exact H].
  - intros it it' (H7 & H8) HN. apply c_Next_off; assumption.
  - intros it it' _ HN. rewrite (c_false _ _ HN). lia.
  - split; reflexivity.
Qed.

(** any options: at most quadratic *)
Ltac one_step := rewrite (cost_bind _ _ _ _ tt) by reflexivity; rewrite cost_steps.
Lemma c_csi : forall d i s, cost (t_csiBodyLoop d i s) <= length d.
Proof.
  induction d as [|b d IH]; intros i s; [cbn; lia|]. cbn [t_csiBodyLoop length]. one_step. pose proof (IH (S i) s). pose proof (IH (S i) true).
  destruct (inRange 0x30 0x3F b). { destruct s; [rewrite cost_free; lia|lia]. } destruct (inRange 0x20 0x2F b); [lia|]. destruct (inRange 0x40 0x7E b); rewrite cost_free; lia.
Qed.
Lemma c_osc : forall d i, cost (t_oscLoop d i) <= length d.
Proof.
  induction d as [|b d IH]; intros i; [cbn; lia|]. cbn [t_oscLoop length]. one_step. pose proof (IH (S i)).
  destruct (b =? bel)%N; [rewrite cost_free; lia|]. destruct ((b =? can) || (b =? sub))%N; [rewrite cost_free; lia|]. destruct ((b =? esc)%N && _); [rewrite cost_free; lia|lia].
Qed.
Lemma c_st : forall d i, cost (t_stLoop d i) <= length d.
Proof.
  induction d as [|b d IH]; intros i; [cbn; lia|]. cbn [t_stLoop length]. one_step. pose proof (IH (S i)).
  destruct ((b =? can) || (b =? sub))%N; [rewrite cost_free; lia|]. destruct ((b =? esc)%N && _); [rewrite cost_free; lia|lia].
Qed.
Lemma c_nF : forall d i, cost (t_nFLoop d i) <= length d.
Proof.
  induction d as [|b d IH]; intros i; [cbn; lia|]. cbn [t_nFLoop length]. one_step. pose proof (IH (S i)).
  destruct (inRange 0x20 0x2F b); [lia|]. destruct (inRange 0x30 0x7E b); rewrite cost_free; lia.
Qed.
Lemma c_oscC1 : forall d i, cost (t_oscC1Loop d i) <= length d.
Proof.
  induction d as [|b d IH]; intros i; [cbn; lia|]. cbn [t_oscC1Loop length]. one_step. pose proof (IH (S i)).
  destruct ((b =? bel) || (b =? st))%N; [rewrite cost_free; lia|]. destruct ((b =? can) || (b =? sub))%N; [rewrite cost_free; lia|lia].
Qed.
Lemma c_stC1 : forall d i, cost (t_stC1Loop d i) <= length d.
Proof.
  induction d as [|b d IH]; intros i; [cbn; lia|]. cbn [t_stC1Loop length]. one_step. pose proof (IH (S i)).
  destruct ((b =? can) || (b =? sub))%N; [rewrite cost_free; lia|]. destruct (b =? st)%N; [rewrite cost_free; lia|lia].
Qed.
Lemma c_ansi7 : forall d, cost (t_ansiEscapeLength d) <= length d.
Proof.
  intros [|b0 [|b1 d]]; try (cbn; lia). cbn [t_ansiEscapeLength length]. destruct (negb (b0 =? esc)%N); [rewrite cost_free; lia|].
  destruct (b1 =? 0x5B)%N. { rewrite (cost_bind _ _ _ _ _ (r_csi _ _ _)), cost_free. pose proof (c_csi d 0 false). lia. }
  destruct (b1 =? 0x5D)%N. { rewrite (cost_bind _ _ _ _ _ (r_osc _ _)), cost_free. pose proof (c_osc d 0). lia. }
  destruct (((b1 =? 0x50) || (b1 =? 0x58) || (b1 =? 0x5E) || (b1 =? 0x5F))%N). { rewrite (cost_bind _ _ _ _ _ (r_st _ _)), cost_free. pose proof (c_st d 0). lia. }
  destruct (inRange 0x40 0x7E b1); [rewrite cost_free; lia|]. destruct (inRange 0x30 0x3F b1); [rewrite cost_free; lia|]. destruct (inRange 0x20 0x2F b1); [|rewrite cost_free; lia].
  pose proof (c_nF d 2). lia.
Qed.
Lemma c_ansi8 : forall d, cost (t_ansiEscapeLength8Bit d) <= length d.
Proof.
  intros [|b0 d]; try (cbn; lia). cbn [t_ansiEscapeLength8Bit length].
  destruct (b0 =? 0x9B)%N. { rewrite (cost_bind _ _ _ _ _ (r_csi _ _ _)), cost_free. pose proof (c_csi d 0 false). lia. }
  destruct (b0 =? 0x9D)%N. { rewrite (cost_bind _ _ _ _ _ (r_oscC1 _ _)), cost_free. pose proof (c_oscC1 d 0). lia. }
  destruct (((b0 =? 0x90) || (b0 =? 0x98) || (b0 =? 0x9E) || (b0 =? 0x9F))%N). { rewrite (cost_bind _ _ _ _ _ (r_stC1 _ _)), cost_free. pose proof (c_stC1 d 0). lia. }
  destruct (inRange 0x80 0x9F b0); rewrite cost_free; lia.
Qed.
Lemma c_next8 : forall it b it', result (t_next_ansi8 it b) = Ok (true, it') -> it_pos it < length (it_data it) ->
  it_data it' = it_data it /\ it_pos it < it_pos it' /\ cost (t_next_ansi8 it b) <= 2 + 2 * (length (it_data it) - it_pos it).
Proof.
  intros it b it' H Hp. unfold t_next_ansi8 in *. destruct (it_ansi8 it && _). 2:{ apply c_ascii in H; [|exact Hp]. destruct H as (? & _ & _ & ? & ?). repeat split; auto; lia. }
  rewrite result_bind, result_free in H. unfold slice_from in *. destruct (Nat.ltb_spec (length (it_data it)) (it_pos it)); [discriminate|]. cbn [bind] in H.
  rewrite (cost_bind _ _ _ _ (skipn (it_pos it) (it_data it))) by reflexivity. rewrite cost_free. rewrite result_bind, r_ansi8 in H. cbn [bind] in H. rewrite (cost_bind _ _ _ _ _ (r_ansi8 _)).
  pose proof (c_ansi8 (skipn (it_pos it) (it_data it))) as HC. rewrite skipn_length in HC. destruct (Nat.ltb_spec 0 (ansiEscapeLength8Bit (skipn (it_pos it) (it_data it)))).
  - injection H as <-. rewrite cost_free. cbn [with_pos it_data it_pos it_start]. repeat split; lia.
  - apply c_ascii in H; [|exact Hp]. destruct H as (? & _ & _ & ? & ?). repeat split; auto; lia.
Qed.
Lemma c_Next : forall it it', result (t_Next it) = Ok (true, it') ->
  it_data it' = it_data it /\ it_pos it < length (it_data it) /\ it_pos it < it_pos it' /\ cost (t_Next it) <= 3 + 3 * (length (it_data it) - it_pos it).
Proof.
  intros it it' H. unfold t_Next in *. destruct (Nat.leb_spec (length (it_data it)) (it_pos it)); [discriminate|]. cbv zeta in *.
  rewrite result_bind, result_steps in H. apply bind_Ok in H. destruct H as (b & Hb & H). rewrite (cost_bind _ _ _ _ b) by exact Hb. rewrite cost_steps.
  cbn [with_pos it_ansi7 it_pos it_data it_start] in *. destruct (it_ansi7 it && _).
  2:{ apply c_next8 in H; cbn [with_pos it_pos it_data] in *; [|lia]. destruct H as (? & ? & ?). repeat split; auto; lia. }
  rewrite result_bind, result_free in H. unfold slice_from in *. destruct (Nat.ltb_spec (length (it_data it)) (it_pos it)); [discriminate|]. cbn [bind] in H.
  rewrite (cost_bind _ _ _ _ (skipn (it_pos it) (it_data it))) by reflexivity. rewrite cost_free. rewrite result_bind, r_ansi7 in H. cbn [bind] in H. rewrite (cost_bind _ _ _ _ _ (r_ansi7 _)).
  pose proof (c_ansi7 (skipn (it_pos it) (it_data it))) as HC. rewrite skipn_length in HC. destruct (Nat.ltb_spec 0 (ansiEscapeLength (skipn (it_pos it) (it_data it)))).
  - injection H as <-. rewrite cost_free. cbn [with_pos it_data it_pos it_start]. repeat split; lia.
  - apply c_next8 in H; cbn [with_pos it_pos it_data] in *; [|lia]. destruct H as (? & ? & ?). repeat split; auto; lia.
Qed.
Lemma g_quadratic : forall d a7 a8 fuel l, result (tcollect t_Next Value fuel (setAnsi (FromBytes d) a7 a8)) = Ok l ->
  cost (tcollect t_Next Value fuel (setAnsi (FromBytes d) a7 a8)) <= (3 * length d + 4) * length d + 1.
Proof.
  intros d a7 a8 fuel l H. pose proof (tcollect_cost _ _ t_Next Value (fun it => it_data it = d) (fun it => (3 * length d + 4) * (length d - it_pos it)) 0) as HC.
  replace ((3 * length d + 4) * length d + 1) with ((3 * length d + 4) * (length d - it_pos (setAnsi (FromBytes d) a7 a8)) + 0 + 1) by (cbn [setAnsi FromBytes it_data it_pos]; rewrite Nat.sub_0_r; lia).
  eapply HC; [| | |exact H].
  - intros it it' HD HN. apply c_Next in HN. rewrite HD in HN. destruct HN as (E1 & E2 & E3 & E4). split; [exact E1|].
    replace (length d - it_pos it) with (S (length d - it_pos it - 1)) by lia. rewrite Nat.mul_succ_r.
    assert ((3 * length d + 4) * (length d - it_pos it') <= (3 * length d + 4) * (length d - it_pos it - 1)) by (apply Nat.mul_le_mono_l; lia). lia.
  - intros it it' _ HN. rewrite (c_false _ _ HN). lia.
  - reflexivity.
Qed.

(** with the 7-bit option on it is quadratic: ESC ] again and again, never terminated *)
Fixpoint oscs (n : nat) : bytes := match n with O => [] | S n' => 0x1B%N :: 0x5D%N :: oscs n' end.
Lemma oscs_length : forall n, length (oscs n) = 2 * n.
Proof. induction n as [|n IH]; [reflexivity|]. cbn [oscs length]. lia. Qed.
Lemma osc_oscs : forall n i, t_oscLoop (oscs n) i = (2 * n, Ok None).
Proof.
  induction n as [|n IH]; intros i; [reflexivity|]. cbn [oscs]. cbn [t_oscLoop]. change (0x1B =? bel)%N with false. change ((0x1B =? can) || (0x1B =? sub))%N with false. change (0x1B =? esc)%N with true. change (0x5D =? 0x5C)%N with false.
  change (0x5D =? bel)%N with false. change ((0x5D =? can) || (0x5D =? sub))%N with false. change (0x5D =? esc)%N with false. cbn [andb]. rewrite IH. unfold tbind, steps. cbn [fst snd]. f_equal. lia.
Qed.
Lemma nth_error_skip : forall (l : bytes) p i, nth_error (skipn p l) i = nth_error l (p + i).
Proof. induction l as [|x l IH]; intros [|p] i; try reflexivity; [destruct i; reflexivity|]. cbn. apply IH. Qed.
Lemma next_osc : forall it n, it_ansi7 it = true -> it_pos it <= length (it_data it) -> skipn (it_pos it) (it_data it) = oscs (S n) ->
  t_Next it = (2 * n + 2, Ok (true, with_pos it (it_pos it + 1) (it_pos it))).
Proof.
  intros it n H7 Hle HS. assert (HL : length (it_data it) - it_pos it = 2 * S n) by (rewrite <- skipn_length, HS, oscs_length; reflexivity).
  assert (H0 : byte_at (it_data it) (it_pos it) = Ok 0x1B%N). { unfold byte_at. pose proof (nth_error_skip (it_data it) (it_pos it) 0) as E. rewrite HS, Nat.add_0_r in E. rewrite <- E. reflexivity. }
  assert (H1 : byte_at (it_data it) (it_pos it + 1) = Ok 0x5D%N). { unfold byte_at. rewrite <- nth_error_skip, HS. reflexivity. }
  unfold t_Next. replace (length (it_data it) <=? it_pos it) with false by (symmetry; apply Nat.leb_gt; lia). cbv zeta. cbn [with_pos it_data it_pos it_start it_ansi7]. rewrite H0, H7. unfold tbind at 1. cbn [steps fst snd]. change (0x1B =? esc)%N with true. cbn [andb].
  unfold slice_from. replace (length (it_data it) <? it_pos it) with false by (symmetry; apply Nat.ltb_ge; lia). unfold tbind at 1 3. cbn [free fst snd]. rewrite HS. cbn [oscs t_ansiEscapeLength]. change (0x1B =? esc)%N with true. cbn [negb].
  change (0x5D =? 0x5B)%N with false. change (0x5D =? 0x5D)%N with true. cbv iota. rewrite osc_oscs. unfold tbind, free. cbn [fst snd]. change (0 <? 0) with false. cbv iota.
  unfold t_next_ansi8. cbn [with_pos it_data it_pos it_start it_ansi8]. change ((0x80 <=? 0x1B) && (0x1B <=? 0x9F))%N with false. rewrite andb_false_r. unfold t_next_ascii. change ((0x1B <? 0x80) && negb (0x1B =? cr))%N with true. cbv iota.
  cbn [with_pos it_data it_pos it_start]. replace (length (it_data it) <=? it_pos it + 1) with false by (symmetry; apply Nat.leb_gt; lia). rewrite H1. unfold tbind, steps, free. cbn [fst snd]. change (0x5D <? 0x80)%N with true. cbn [fst snd]. f_equal. lia.
Qed.
Lemma next_rbr : forall it n, it_pos it <= length (it_data it) -> skipn (it_pos it) (it_data it) = 0x5D%N :: oscs n -> exists c, t_Next it = (c, Ok (true, with_pos it (it_pos it + 1) (it_pos it))).
Proof.
  intros it n Hle HS. assert (HL : length (it_data it) - it_pos it = S (2 * n)) by (rewrite <- skipn_length, HS; cbn [length]; rewrite oscs_length; reflexivity).
  assert (H0 : byte_at (it_data it) (it_pos it) = Ok 0x5D%N). { unfold byte_at. pose proof (nth_error_skip (it_data it) (it_pos it) 0) as E. rewrite HS, Nat.add_0_r in E. rewrite <- E. reflexivity. }
  unfold t_Next. replace (length (it_data it) <=? it_pos it) with false by (symmetry; apply Nat.leb_gt; lia). cbv zeta. cbn [with_pos it_data it_pos it_start it_ansi7]. rewrite H0. unfold tbind at 1. cbn [steps fst snd]. change (0x5D =? esc)%N with false. rewrite andb_false_r.
  unfold t_next_ansi8. cbn [with_pos it_data it_pos it_start it_ansi8]. change ((0x80 <=? 0x5D) && (0x5D <=? 0x9F))%N with false. rewrite andb_false_r. unfold t_next_ascii. change ((0x5D <? 0x80) && negb (0x5D =? cr))%N with true. cbv iota.
  cbn [with_pos it_data it_pos it_start]. destruct n as [|n].
  - replace (length (it_data it) <=? it_pos it + 1) with true by (symmetry; apply Nat.leb_le; lia). eexists. reflexivity.
  - replace (length (it_data it) <=? it_pos it + 1) with false by (symmetry; apply Nat.leb_gt; lia).
    assert (H1 : byte_at (it_data it) (it_pos it + 1) = Ok 0x1B%N). { unfold byte_at. rewrite <- nth_error_skip, HS. reflexivity. }
    rewrite H1. unfold tbind, steps, free. cbn [fst snd]. change (0x1B <? 0x80)%N with true. eexists. reflexivity.
Qed.
Lemma skipn_S : forall (d : bytes) p x r, skipn p d = x :: r -> skipn (p + 1) d = r.
Proof. induction d as [|y d IH]; intros [|p] x r H; cbn in *; try discriminate; [injection H as <- <-; reflexivity|]. eapply IH. exact H. Qed.
Lemma oscs_cost : forall n fuel it l, it_ansi7 it = true -> it_pos it <= length (it_data it) -> skipn (it_pos it) (it_data it) = oscs n ->
  result (tcollect t_Next Value fuel it) = Ok l -> n * n <= cost (tcollect t_Next Value fuel it).
Proof.
  induction n as [|n IH]; intros fuel it l H7 Hle HS H; [lia|].
  assert (HL : length (it_data it) - it_pos it = 2 * S n) by (rewrite <- skipn_length, HS, oscs_length; reflexivity).
  destruct fuel as [|fuel]; [discriminate|]. destruct (tcollect_next _ _ _ _ _ _ _ _ _ (next_osc it n H7 Hle HS) H) as (l1 & H1 & ->).
  set (it1 := with_pos it (it_pos it + 1) (it_pos it)) in *. assert (HS1 : skipn (it_pos it1) (it_data it1) = 0x5D%N :: oscs n) by exact (skipn_S _ _ _ _ HS).
  destruct (next_rbr it1 n) as (c & E); [cbn; lia|exact HS1|]. destruct fuel as [|fuel]; [discriminate|]. destruct (tcollect_next _ _ _ _ _ _ _ _ _ E H1) as (l2 & H2 & ->).
  set (it2 := with_pos it1 (it_pos it1 + 1) (it_pos it1)) in *. assert (HS2 : skipn (it_pos it2) (it_data it2) = oscs n) by exact (skipn_S _ _ _ _ HS1).
  pose proof (IH fuel it2 l2 H7 ltac:(cbn; lia) HS2 H2). nia.
Qed.
