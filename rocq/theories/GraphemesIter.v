(** graphemes.Iterator: one Next cuts off what the split function (or an enabled escape-sequence parser) says. *)
From Verif Require Import Base ListFacts Trie Engine Lk Ansi AnsiFacts TableGraphemes SpecIter Drive GraphemesEngine LookupFacts.
From Verif Require Graphemes.
Import Graphemes.
Local Open Scope N_scope.

(** The split function that describes Next, options included. *)
Definition g_isplit (a7 a8 : bool) : splitfun := fun d atEOF =>
  let n7 := if a7 && (match d with b :: _ => b =? esc | [] => false end) then ansiEscapeLength d else 0%nat in
  let n8 := if a8 && (match d with b :: _ => (0x80 <=? b) && (b <=? 0x9F) | [] => false end)
            then ansiEscapeLength8Bit d else 0%nat in
  if (0 <? n7)%nat then Ok (e_done n7 (firstn n7 d))
  else if (0 <? n8)%nat then Ok (e_done n8 (firstn n8 d))
  else splitFunc d atEOF.

Lemma g_isplit_off : forall d b, g_isplit false false d b = splitFunc d b.
Proof. reflexivity. Qed.

(** The hot path: an ASCII byte other than CR, followed by an ASCII byte or the end, is a token. *)
Definition ascii_pair_ok (b b' : N) : bool :=
  match graphemes_lookup [b; b'], graphemes_lookup [b'] with
  | Ok (v, 1%nat), Ok (v', 1%nat) =>
    match g_erules (e_init GE v) v' [b'] 1 true with Ok EBreak => true | _ => false end
  | _, _ => false
  end.

Lemma ascii_pairs : forallb (fun b => forallb (fun b' => (b =? cr) || ascii_pair_ok b b') (upto 0 128)) (upto 0 128) = true.
Proof. vm_compute. reflexivity. Qed.

Lemma ascii_lookup : forall b s, b < 0x80 -> exists v, graphemes_lookup (b :: s) = Ok (v, 1%nat) /\ forall t, graphemes_lookup (b :: t) = Ok (v, 1%nat).
Proof.
  intros b s H. unfold graphemes_lookup, lookup, byte_at. cbn [nth_error bind].
  destruct (lookup_spec _ _ _ TableFacts.g_tables_ok b s) as (v & w & Hl & _).
  unfold lookup, byte_at in Hl. cbn [nth_error bind] in Hl. apply N.ltb_lt in H. rewrite H in Hl |- *.
  destruct (arr_get graphemesValues b) as [x| |]; try discriminate. cbn [bind] in *. injection Hl as -> ->.
  exists v. split; auto.
Qed.

Lemma hot_ascii : forall b b' s, b < 0x80 -> b <> cr -> b' < 0x80 ->
  splitFunc (b :: b' :: s) true = Ok (e_done 1 [b]).
Proof.
  intros b b' s Hb Hc Hb'. rewrite <- g_split_engine. unfold esplit. cbn [is_nil].
  change (e_lk0 GE) with graphemes_lookup.
  pose proof ascii_pairs as A. rewrite forallb_forall in A.
  specialize (A b (in_upto 0 128 b ltac:(simpl; lia))). rewrite forallb_forall in A.
  specialize (A b' (in_upto 0 128 b' ltac:(simpl; lia))).
  apply orb_prop in A. destruct A as [A|A]; [apply N.eqb_eq in A; congruence|].
  unfold ascii_pair_ok in A.
  destruct (ascii_lookup b (b' :: s) Hb) as (v & Hl & Hall). rewrite Hl. cbn [bind Nat.eqb].
  rewrite Hall in A.
  destruct (ascii_lookup b' s Hb') as (v' & Hl' & Hall'). rewrite Hall' in A.
  destruct (g_erules (e_init GE v) v' [b'] 1 true) as [[| | |]| |] eqn:Er; try discriminate.
  rewrite slice_from_ok by (simpl; lia). cbn [skipn bind].
  unfold g_fuel. cbn [length eloop is_nil]. change (e_lk GE) with graphemes_lookup. rewrite Hl'. cbn [bind Nat.eqb].
  change (e_rules GE) with g_erules.
  assert (Hx : g_erules (e_init GE v) v' (b' :: s) 1 true = g_erules (e_init GE v) v' [b'] 1 true) by reflexivity.
  rewrite Hx, Er. cbn [bind]. rewrite slice_to_ok by (simpl; lia). reflexivity.
Qed.

Lemma hot_single : forall b, b < 0x80 -> splitFunc [b] true = Ok (e_done 1 [b]).
Proof.
  intros b Hb. destruct (so_eof _ g_split_ok [b] ltac:(discriminate)) as (n & Hn & Hs). rewrite Hs.
  simpl in Hn. replace n with 1%nat by lia. reflexivity.
Qed.

(** The plain call of splitFunc. *)
Lemma next_split_spec : forall it, (it_pos it < length (it_data it))%nat -> exists n,
  (0 < n <= length (it_data it) - it_pos it)%nat
  /\ splitFunc (skipn (it_pos it) (it_data it)) true = Ok (e_done n (firstn n (skipn (it_pos it) (it_data it))))
  /\ next_split it = Ok (true, with_pos it (it_pos it + n) (it_start it)).
Proof.
  intros it H. destruct (so_eof _ g_split_ok _ (skipn_nonnil _ _ H)) as (n & Hn & Hs). rewrite skipn_length in Hn.
  exists n. split; [exact Hn|]. split; [exact Hs|]. unfold next_split. rewrite slice_from_ok by lia. cbn [bind].
  rewrite Hs. cbn [bind e_done so_err so_advance].
  replace (Z.of_nat n <=? 0)%Z with false by (symmetry; apply Z.leb_gt; lia). rewrite Nat2Z.id.
  replace (length (it_data it) <? it_pos it + n)%nat with false by (symmetry; apply Nat.ltb_ge; lia). reflexivity.
Qed.

Lemma nth_skipn : forall (d : bytes) k b, nth_error d k = Some b -> exists s, skipn k d = b :: s.
Proof.
  induction d as [|c d IH]; intros k b H; destruct k; simpl in *; try discriminate.
  - injection H as ->. eauto.
  - apply IH. exact H.
Qed.

Lemma next_ascii_eq : forall it b, nth_error (it_data it) (it_pos it) = Some b ->
  next_ascii it b = next_split it.
Proof.
  intros it b H. assert (Hlt : (it_pos it < length (it_data it))%nat) by (apply nth_error_Some; congruence).
  unfold next_ascii. destruct ((b <? 0x80) && negb (b =? cr)) eqn:E; [|reflexivity].
  apply andb_prop in E. destruct E as [E1 E2]. apply N.ltb_lt in E1. apply negb_true_iff, N.eqb_neq in E2.
  destruct (nth_skipn _ _ _ H) as (s & Hs).
  destruct (next_split_spec it Hlt) as (n & Hn & Hsp & Hnx). rewrite Hs in Hsp.
  destruct (length (it_data it) <=? it_pos it + 1)%nat eqn:EL.
  - apply Nat.leb_le in EL. rewrite Hnx. replace n with 1%nat by lia. reflexivity.
  - apply Nat.leb_gt in EL. unfold byte_at.
    destruct (nth_error (it_data it) (it_pos it + 1)) as [b'|] eqn:En.
    2:{ apply nth_error_None in En. lia. }
    cbn [bind]. destruct (b' <? 0x80) eqn:E3; [|reflexivity]. apply N.ltb_lt in E3.
    assert (Hs' : exists s', s = b' :: s').
    { destruct (nth_skipn _ _ _ En) as (s' & Hs'). exists s'.
      assert (skipn 1 (skipn (it_pos it) (it_data it)) = b' :: s') as Hx.
      { rewrite skipn_skipn. replace (1 + it_pos it)%nat with (it_pos it + 1)%nat by lia. exact Hs'. }
      rewrite Hs in Hx. exact Hx. }
    destruct Hs' as (s' & ->). rewrite (hot_ascii b b' s' E1 E2 E3) in Hsp.
    injection Hsp as Hz _. rewrite Hnx. replace n with 1%nat by lia. reflexivity.
Qed.

Lemma g_next_eq : forall it, (it_pos it < length (it_data it))%nat -> exists n,
  (0 < n <= length (it_data it) - it_pos it)%nat
  /\ g_isplit (it_ansi7 it) (it_ansi8 it) (skipn (it_pos it) (it_data it)) true
     = Ok (e_done n (firstn n (skipn (it_pos it) (it_data it))))
  /\ Next it = Ok (true, with_pos it (it_pos it + n) (it_pos it)).
Proof.
  intros it Hlt.
  destruct (nth_error (it_data it) (it_pos it)) as [b|] eqn:Hb.
  2:{ apply nth_error_None in Hb. lia. }
  destruct (nth_skipn _ _ _ Hb) as (s & Hs).
  unfold Next. replace (length (it_data it) <=? it_pos it)%nat with false by (symmetry; apply Nat.leb_gt; lia).
  set (it1 := with_pos it (it_pos it) (it_pos it)). cbv zeta.
  change (it_data it1) with (it_data it). change (it_pos it1) with (it_pos it).
  change (it_ansi7 it1) with (it_ansi7 it).
  unfold byte_at. rewrite Hb. cbn [bind].
  assert (Hfall : next_ascii it1 b = next_split it1) by (apply next_ascii_eq; exact Hb).
  destruct (next_split_spec it1 Hlt) as (n0 & Hn0 & Hsp0 & Hnx0).
  change (it_data it1) with (it_data it) in *. change (it_pos it1) with (it_pos it) in *.
  change (it_start it1) with (it_pos it) in *.
  change (with_pos it1 (it_pos it + n0) (it_pos it)) with (with_pos it (it_pos it + n0) (it_pos it)) in Hnx0.
  unfold g_isplit.
  rewrite Hs in Hsp0 |- *. cbv iota beta zeta.
  pose proof (ansiEscapeLength_le (b :: s)) as L7. pose proof (ansiEscapeLength8Bit_le (b :: s)) as L8.
  assert (Hlen : (length (b :: s) = length (it_data it) - it_pos it)%nat) by (rewrite <- Hs, skipn_length; reflexivity).
  assert (H8 : exists n, (0 < n <= length (it_data it) - it_pos it)%nat
    /\ (let n8 := if it_ansi8 it && ((0x80 <=? b) && (b <=? 0x9F)) then ansiEscapeLength8Bit (b :: s) else 0%nat in
        if (0 <? n8)%nat then Ok (e_done n8 (firstn n8 (b :: s))) else splitFunc (b :: s) true)
       = Ok (e_done n (firstn n (b :: s)))
    /\ next_ansi8 it1 b = Ok (true, with_pos it (it_pos it + n) (it_pos it))).
  { unfold next_ansi8. change (it_ansi8 it1) with (it_ansi8 it). change (it_data it1) with (it_data it).
    change (it_pos it1) with (it_pos it). change (it_start it1) with (it_pos it).
    destruct (it_ansi8 it && ((0x80 <=? b) && (b <=? 0x9F))).
    - rewrite slice_from_ok by lia. cbn [bind]. rewrite Hs. cbv zeta.
      destruct (0 <? ansiEscapeLength8Bit (b :: s))%nat eqn:E.
      + apply Nat.ltb_lt in E. exists (ansiEscapeLength8Bit (b :: s)). split; [lia|]. split; reflexivity.
      + exists n0. split; [exact Hn0|]. split; [exact Hsp0|]. rewrite Hfall. exact Hnx0.
    - cbv zeta. cbn [Nat.ltb Nat.leb]. exists n0. split; [exact Hn0|]. split; [exact Hsp0|]. rewrite Hfall. exact Hnx0. }
  destruct (it_ansi7 it && (b =? esc)).
  - rewrite slice_from_ok by lia. cbn [bind]. rewrite Hs.
    change (it_start it1) with (it_pos it).
    destruct (0 <? ansiEscapeLength (b :: s))%nat eqn:E.
    + apply Nat.ltb_lt in E. exists (ansiEscapeLength (b :: s)). split; [lia|]. split; reflexivity.
    + exact H8.
  - cbn [Nat.ltb Nat.leb]. exact H8.
Qed.

Lemma g_next_ok : forall a7 a8, next_ok it_data it_pos it_start (g_isplit a7 a8)
  (fun it => it_ansi7 it = a7 /\ it_ansi8 it = a8) Next Value.
Proof.
  intros a7 a8. split.
  - intros it _ H. unfold Next. apply Nat.leb_le in H. rewrite H. reflexivity.
  - intros it [<- <-] H. destruct (g_next_eq it H) as (n & Hn & Hs & Hx).
    exists n, (with_pos it (it_pos it + n) (it_pos it)). repeat split; auto; lia.
  - reflexivity.
Qed.

(** The option-aware split function meets the end-of-data part of the contract as well. *)
Lemma g_isplit_eof : forall a7 a8 d, d <> [] -> exists n, (0 < n <= length d)%nat
  /\ g_isplit a7 a8 d true = Ok (e_done n (firstn n d)).
Proof.
  intros a7 a8 d Hd.
  destruct (g_next_eq {| it_data := d; it_pos := 0; it_start := 0; it_ansi7 := a7; it_ansi8 := a8 |}) as (n & Hn & Hs & _).
  - simpl. destruct d; [congruence|simpl; lia].
  - simpl in Hn, Hs. exists n. split; [lia|exact Hs].
Qed.
