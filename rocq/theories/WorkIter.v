(** Iterating over sentences takes work in proportion to the text, if the sentences are of bounded length: what is looked at twice lies within the next sentence. *)
From Verif Require Import Base ListFacts Cost Engine Sentences CountSentences SentencesEngine SentencesIter SpecIter SpecApi Drive ApiFacts ApiInst SpecJoiners JoinersFacts AnsiCuts SpecReader PropReader SpecBuffer BufferFacts CostApi WorkSentences.
From Verif Require CostSentences.
Local Open Scope nat_scope.

Lemma next_work : forall w it it' l, it_pos it <= length (it_data it) -> tokens_by splitFunc (skipn (it_pos it) (it_data it)) l -> spans_at_most 2 (N.of_nat w) l -> result (t_Next it) = Ok (true, it') ->
  it_data it' = it_data it /\ it_pos it' <= length (it_data it) /\ it_pos it < it_pos it' /\ cost (t_Next it) + 1 <= (2 * w + 16) * (it_pos it' - it_pos it)
  /\ exists l', tokens_by splitFunc (skipn (it_pos it') (it_data it)) l' /\ spans_at_most 2 (N.of_nat w) l'.
Proof.
  intros w it it' l Hp HT HM H. destruct (CostSentences.c_Next it it' Hp H) as (Hd & Hp' & Hlt & _). split; [exact Hd|]. split; [exact Hp'|]. split; [exact Hlt|].
  destruct (s_next_eq it ltac:(lia)) as (n & Hn & HS & HN). rewrite <- CostSentences.r_Next in HN. rewrite H in HN. assert (Hi : it_pos it' = it_pos it + n) by (injection HN as ->; reflexivity). clear HN.
  set (d := skipn (it_pos it) (it_data it)) in *. assert (Hdl : length d = length (it_data it) - it_pos it) by apply skipn_length.
  assert (HT1 : exists l1, tokens_by splitFunc (skipn n d) l1 /\ l = firstn n d :: l1).
  { inversion HT as [E|d0 m l1 Hm Hml Hr E1 E2]; [exfalso; rewrite <- E in Hdl; cbn in Hdl; lia|]. rewrite HS in Hm. assert (m = n) by (unfold e_done in Hm; injection Hm; lia). subst m. exists l1. split; [exact Hr|reflexivity]. }
  destruct HT1 as (l1 & HT1 & ->). assert (EP : skipn n d = skipn (it_pos it') (it_data it)) by (unfold d; rewrite skipn_skipn, Hi; f_equal; lia).
  split; [|exists l1; split; [rewrite <- EP; exact HT1|exact (span_tail 2 (N.of_nat w) _ _ HM)]].
  pose proof (span_head 2 (N.of_nat w) 0%N _ HM) as HH. cbn [firstn concat] in HH. rewrite app_length in HH. rewrite firstn_length in HH.
  unfold t_Next in *. destruct (Nat.leb_spec (length (it_data it)) (it_pos it)) as [L|L]; [discriminate|]. cbv zeta in *. cbn [with_pos it_data it_pos it_start] in *.
  unfold slice_from in *. destruct (Nat.ltb_spec (length (it_data it)) (it_pos it)) as [L'|_]; [lia|]. rewrite result_bind in H. cbn [result free snd bind] in H. rewrite (cost_bind _ _ _ _ (skipn (it_pos it) (it_data it))) by reflexivity. rewrite cost_free.
  fold d in H |- *. pose proof (run_le d) as HR. set (k := alnum_space_run d) in *. clearbody k.
  rewrite result_bind in H. cbn [result steps snd bind] in H. rewrite (cost_bind _ _ _ _ k) by reflexivity. rewrite cost_steps. cbn [with_pos it_data it_pos it_start] in *.
  destruct (Nat.leb_spec (length (it_data it)) (it_pos it + k)) as [E|E].
  { injection H as <-. cbn [with_pos it_data it_pos] in *. rewrite cost_free. assert (1 <= k) by lia. replace (it_pos it + k - it_pos it) with k by lia. nia. }
  set (q := if it_pos it <? it_pos it + k then it_pos it + k - 1 else it_pos it + k) in *. assert (Hq : it_pos it <= q /\ q < length (it_data it) /\ k <= S (q - it_pos it)) by (unfold q; destruct (Nat.ltb_spec (it_pos it) (it_pos it + k)); lia).
  clearbody q. unfold t_next_split in *. cbn [with_pos it_data it_pos it_start] in *. unfold slice_from in *. destruct (Nat.ltb_spec (length (it_data it)) q) as [L'|_]; [lia|].
  rewrite result_bind in H. cbn [result free snd bind] in H. rewrite (cost_bind _ _ _ _ (skipn q (it_data it))) by reflexivity. rewrite cost_free. rewrite result_bind in H. apply bind_Ok in H. destruct H as (o & Ho & H). rewrite (cost_bind _ _ _ _ o Ho).
  assert (Hne : skipn q (it_data it) <> []). { intros E'. apply (f_equal (@length N)) in E'. rewrite skipn_length in E'. cbn in E'. lia. }
  destruct (so_eof _ s_split_ok (skipn q (it_data it)) Hne) as (m & Hm & Hs). rewrite CostSentences.r_split, Hs in Ho. injection Ho as <-. cbn [e_done so_err so_advance] in H |- *. destruct (Z.leb_spec (Z.of_nat m) 0); [lia|]. rewrite Nat2Z.id in *.
  destruct (Nat.ltb_spec (length (it_data it)) (q + m)) as [L2|L2]; [discriminate|]. injection H as <-. rewrite cost_free. cbn [with_pos it_data it_pos] in *.
  assert (Hl : tokens_by splitFunc (skipn q (it_data it) ++ []) (firstn m (skipn q (it_data it)) :: l1)).
  { rewrite app_nil_r. apply by_cons; [exact Hs|exact Hm|]. rewrite skipn_skipn. rewrite EP in HT1. replace (m + q) with (q + m) by lia. exact HT1. }
  pose proof (c_near _ [] true m _ _ Hne Hs (proj1 Hm) (fun _ => eq_refl) Hl) as HC. cbn [firstn concat] in HC. rewrite app_length, firstn_length in HC.
  match type of HC with context [concat ?X] => set (c1 := length (concat X)) in *; change (length (concat X)) with c1 in HC, HH; clearbody c1 end.
  set (M := q + m - it_pos it). assert (HMm : m <= M /\ k <= M /\ 1 <= M) by (unfold M; lia). clearbody M. set (c := cost _) in *. clearbody c.
  assert (HW : Nat.min m (length (skipn q (it_data it))) + c1 <= w) by lia.
  assert (HQ : 2 * m * (Nat.min m (length (skipn q (it_data it))) + c1 + 6) <= 2 * M * (w + 6)) by (apply Nat.mul_le_mono; lia). assert (HC2 : c <= 2 * M * (w + 6) + 1) by lia. clear - HC2 HMm. nia.
Qed.
Lemma s_near : forall w d fuel l, length d < fuel -> tokens sentences_api fuel (FromBytes d) = Ok l -> spans_at_most 2 (N.of_nat w) l ->
  cost (tcollect t_Next Value fuel (FromBytes d)) <= (2 * w + 16) * length d + 1.
Proof.
  intros w d fuel l Hf HI HM. destruct (s_tokens d fuel Hf) as (l0 & H1 & H2). rewrite HI in H1. injection H1 as <-.
  destruct (tb_ex0 splitFunc (so_eof _ s_split_ok) (S (length d)) d ltac:(lia)) as (l' & HT).
  assert (E : iterating sentences_api fuel d = Ok l') by (apply s_agree; [exact Hf|]; apply (tb_chop _ _ _ HT); lia). change (iterating sentences_api fuel d) with (tokens sentences_api fuel (FromBytes d)) in E. rewrite HI in E. injection E as <-.
  pose proof (tcollect_cost _ _ t_Next Value (fun it => it_data it = d /\ it_pos it <= length d /\ exists l, tokens_by splitFunc (skipn (it_pos it) d) l /\ spans_at_most 2 (N.of_nat w) l) (fun it => (2 * w + 16) * (length d - it_pos it)) 0) as TC. cbv beta in TC.
  eapply TC in H2; [cbn in H2; rewrite Nat.sub_0_r in H2; lia| | |split; [reflexivity|split; [cbn; lia|exists l; split; [exact HT|exact HM]]]].
  - intros it it' (Hi & Hp & lx & HTx & HMx) HN. rewrite <- Hi in *. destruct (next_work w it it' lx Hp HTx HMx HN) as (H3 & H4 & H5 & H6 & H7). split; [split; [exact H3|split; [exact H4|exact H7]]|].
    replace (length (it_data it) - it_pos it) with ((it_pos it' - it_pos it) + (length (it_data it) - it_pos it')) by lia. rewrite Nat.mul_add_distr_l. lia.
  - intros it it' _ HN. rewrite (CostSentences.c_false _ _ HN). lia.
Qed.
