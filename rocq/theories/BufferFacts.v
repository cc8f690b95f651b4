(** The size of the scanner's buffer. *)
From Verif Require Import Base ListFacts Engine SpecIter SpecApi Drive ApiFacts ConformApi Scanner SpecReader ScannerFacts ReaderFacts SpecJoiners AnsiCuts Prompt SpecLong LongFacts SpecBuffer.

Lemma fill_size : forall rd tries s r s' r', (sc_end s <= length (sc_buf s))%nat -> bounds s -> fill rd tries s r = (s', r') -> size s' = size s /\ bounds s' /\ sc_max s' = sc_max s /\ sc_split s' = sc_split s.
Proof.
  intros rd. induction tries as [|tries IH]; intros s r s' r' He HB H; cbn [fill] in H; destruct (rd_read rd r _) as [[bs err] r1];
    (destruct (_ <? length bs)%nat eqn:E; [injection H as <- <-; split; [reflexivity|]; split; [exact HB|split; reflexivity]|]); apply Nat.ltb_ge in E; cbv zeta in H;
    pose proof HB as (HB1 & HB2);
    assert (HP : length (put (sc_buf s) (sc_end s) bs) = length (sc_buf s)) by (apply put_len; lia);
    set (s1 := with_buf s (put (sc_buf s) (sc_end s) bs) (sc_start s) (sc_end s + length bs)) in *;
    assert (S1 : size s1 = size s /\ bounds s1 /\ sc_max s1 = sc_max s /\ sc_split s1 = sc_split s)
      by (unfold size, bounds, s1; cbn [with_buf sc_buf sc_start sc_end sc_max sc_split]; rewrite HP; repeat split; lia).
  - destruct err as [x|]; [injection H as <- <-; exact S1|]. destruct (0 <? length bs)%nat; injection H as <- <-; exact S1.
  - destruct err as [x|]; [injection H as <- <-; exact S1|]. destruct (0 <? length bs)%nat; [injection H as <- <-; exact S1|].
    destruct S1 as (A & Bb & C & Dd). destruct (IH s1 r1 s' r' (proj2 Bb) Bb H) as (A' & B' & C' & D'). rewrite A', C', D'. auto.
Qed.
Lemma grow_size : forall s s', bounds s -> (sc_end s = length (sc_buf s) -> sc_start s = 0) -> grow s = Ok (Some s') ->
  (size s' <= N.max (size s) (sc_max s))%N /\ (size s' <= N.max (size s) (N.max (if size s =? 0 then 4096 else 0) (2 * N.of_nat (length (pending s)))))%N /\ (size s <> 0 -> size s' <> 0)%N.
Proof.
  intros s s' B HF H. pose proof B as (B1 & B2). unfold grow in H. destruct (Nat.eqb (sc_end s) (length (sc_buf s))) eqn:E. 2:{ injection H as <-. split; [lia|]. split; [lia|auto]. }
  apply Nat.eqb_eq in E. specialize (HF E). cbv zeta in H. destruct (_ || _); [discriminate|]. rewrite pending_slice in H by exact B. cbn [bind] in H. injection H as <-.
  pose proof (pending_len s B) as HL. unfold size. cbn [with_buf sc_buf]. set (nz := N.min _ _).
  assert (HQ : length (put (repeat 0%N (N.to_nat nz)) 0 (pending s)) = Nat.max (length (pending s)) (N.to_nat nz)).
  { unfold put. cbn [firstn app Nat.add]. rewrite app_length, skipn_length, repeat_length. lia. }
  rewrite HQ. subst nz. unfold startBufSize. destruct (_ * 2 =? 0)%N eqn:E0; [apply N.eqb_eq in E0|apply N.eqb_neq in E0]; (destruct (_ =? 0)%N eqn:E1; [apply N.eqb_eq in E1|apply N.eqb_neq in E1]); lia.
Qed.

(** One round of Scan. *)
Lemma scan_round : forall rd fuel s r, scan_loop rd (S fuel) s r =
  let has_err := match sc_err s with Some _ => true | None => false end in
  if (sc_start s <? sc_end s)%nat || has_err then
    d <- slice (sc_buf s) (sc_start s) (sc_end s) ;;
    o <- sc_split s d has_err ;;
    match so_err o with
    | Some e => Ok (false, set_err s (SSplit e), r)
    | None =>
      if (so_advance o <? 0)%Z then Ok (false, set_err s ErrNegativeAdvance, r)
      else
        let n := Z.to_nat (so_advance o) in
        if (sc_end s - sc_start s <? n)%nat then Ok (false, set_err s ErrAdvanceTooFar, r)
        else
          let s := with_buf s (sc_buf s) (sc_start s + n) (sc_end s) in
          match so_token o with
          | Some tok =>
            if negb has_err || (0 <? n)%nat then Ok (true, with_token s (Some tok) 0, r)
            else if (maxConsecutiveEmptyReads <? S (sc_empties s))%nat then Panic
            else Ok (true, with_token s (Some tok) (S (sc_empties s)), r)
          | None => more_ rd fuel (with_token s None (sc_empties s)) r
          end
    end
  else more_ rd fuel s r.
Proof. reflexivity. Qed.

(** Whatever the split function and the reader do. *)
Lemma scan_limit : forall rd fuel s r b s' r', bounds s -> scan_loop rd fuel s r = Ok (b, s', r') -> bounds s' /\ sc_max s' = sc_max s /\ (size s' <= N.max (size s) (sc_max s))%N.
Proof.
  intros rd. induction fuel as [|fuel IH]; intros s r b s' r' HB H; [discriminate|]. pose proof HB as (B1 & B2).
  assert (MORE : forall s0, bounds s0 -> sc_max s0 = sc_max s -> size s0 = size s -> more_ rd fuel s0 r = Ok (b, s', r') -> bounds s' /\ sc_max s' = sc_max s /\ (size s' <= N.max (size s) (sc_max s))%N).
  { intros s0 B0 M0 Z0 HM. unfold more_ in HM. generalize dependent maxConsecutiveEmptyReads. intros mc HM. destruct (sc_err s0).
    { injection HM as <- <- <-. split; [unfold bounds; cbn [with_buf sc_start sc_end sc_buf]; lia|]. split; [exact M0|]. unfold size in *; cbn [set_err with_buf with_token sc_buf] in *; lia. }
    destruct (shift_ok s0 B0) as (s1 & HS & Bs1 & P1 & F1 & X1 & M1 & L1 & Z1 & T1). rewrite HS in HM. cbn [bind] in HM.
    assert (Zs1 : size s1 = size s0) by (unfold size; congruence).
    destruct (grow_ok s1 Bs1 Z1) as [(s2 & HG & Bs2 & P2 & F2 & X2 & M2 & R2)|(HG & HLim & HW)].
    2:{ rewrite HG in HM. cbn [bind] in HM. injection HM as <- <- <-. split; [exact Bs1|]. split; [cbn [set_err sc_max]; congruence|]. change (size (set_err s1 ErrTooLong)) with (size s1). lia. }
    destruct (grow_size s1 s2 Bs1 Z1 HG) as (HZ & _). rewrite HG in HM. cbn [bind] in HM.
    destruct (fill rd mc s2 r) as [s3 r3] eqn:EF. destruct (fill_size _ _ _ _ _ _ (proj2 Bs2) Bs2 EF) as (Z3 & Bs3 & M3 & _).
    destruct (IH _ _ _ _ _ Bs3 HM) as (B4 & M4 & Z4). split; [exact B4|]. split; [congruence|]. rewrite M3, M2, M1, M0 in Z4. rewrite M1, M0 in HZ. lia. }
  rewrite scan_round in H. cbv zeta in H. destruct (_ || _).
  2:{ exact (MORE s HB eq_refl eq_refl H). }
  destruct (slice _ _ _) as [d| |]; try discriminate. cbn [bind] in H. destruct (sc_split s d _) as [o| |]; try discriminate. cbn [bind] in H.
  destruct (so_err o). { injection H as <- <- <-. split; [exact HB|]. split; [reflexivity|]. unfold size in *; cbn [set_err with_buf with_token sc_buf] in *; lia. }
  destruct (_ <? 0)%Z. { injection H as <- <- <-. split; [exact HB|]. split; [reflexivity|]. unfold size in *; cbn [set_err with_buf with_token sc_buf] in *; lia. }
  destruct (_ <? Z.to_nat _)%nat eqn:EA. { injection H as <- <- <-. split; [exact HB|]. split; [reflexivity|]. unfold size in *; cbn [set_err with_buf with_token sc_buf] in *; lia. }
  apply Nat.ltb_ge in EA. set (n := Z.to_nat (so_advance o)) in *.
  assert (HB1 : forall t k, bounds (with_token (with_buf s (sc_buf s) (sc_start s + n) (sc_end s)) t k)) by (intros; unfold bounds; cbn [with_token with_buf sc_start sc_end sc_buf]; lia).
  destruct (so_token o) as [tok|].
  - destruct (_ || _). { injection H as <- <- <-. split; [apply HB1|]. split; [reflexivity|]. unfold size in *; cbn [set_err with_buf with_token sc_buf] in *; lia. }
    destruct (_ <? _)%nat; [discriminate|]. injection H as <- <- <-. split; [apply HB1|]. split; [reflexivity|]. unfold size in *; cbn [set_err with_buf with_token sc_buf] in *; lia.
  - exact (MORE (with_token (with_buf s (sc_buf s) (sc_start s + n) (sc_end s)) None (sc_empties s)) (HB1 _ _) eq_refl eq_refl H).
Qed.
Lemma scanning_limit : forall rd s r s' r', bounds s -> scanning rd s r s' r' -> (size s' <= N.max (size s) (sc_max s))%N.
Proof.
  intros rd s r s' r' HB H. induction H as [s r|s r fuel b s1 r1 s2 r2 HS HR IH]; [lia|]. unfold Scan in HS.
  destruct (scan_limit rd fuel (with_called s) r b s1 r1 HB HS) as (B1 & M1 & Z1). specialize (IH B1). rewrite M1 in IH. change (size (with_called s)) with (size s) in Z1. change (sc_max (with_called s)) with (sc_max s) in *. lia.
Qed.

(** After an error the buffer stays as it is. *)
Lemma err_size : forall rd fuel s r x b s' r', sc_err s = Some x -> scan_loop rd (S fuel) s r = Ok (b, s', r') -> size s' = size s.
Proof.
  intros rd fuel s r x b s' r' EX H. rewrite scan_round in H. cbv zeta in H. rewrite EX, orb_true_r in H.
  destruct (slice _ _ _) as [d| |]; try discriminate. cbn [bind] in H. destruct (sc_split s d true) as [o| |]; try discriminate. cbn [bind] in H.
  destruct (so_err o); [injection H as <- <- <-; reflexivity|]. destruct (_ <? 0)%Z; [injection H as <- <- <-; reflexivity|].
  destruct (_ <? Z.to_nat _)%nat; [injection H as <- <- <-; reflexivity|]. destruct (so_token o).
  - destruct (_ || _); [injection H as <- <- <-; reflexivity|]. destruct (_ <? _)%nat; [discriminate|injection H as <- <- <-; reflexivity].
  - unfold more_ in H. cbn [with_token with_buf sc_err] in H. rewrite EX in H. injection H as <- <- <-. reflexivity.
Qed.

Section Span.
  Variable f : splitfun.
  Hypothesis OK : split_ok f.
  Variable k : nat.
  Hypothesis PR : prompt k f.
  Variable rd : reader.
  Variable w : N.
  Variable z : N.
  Let B : N := N.max z (2 * (w + 3)).
  Definition sized (s : scanner) : Prop := (size s <= B /\ (size s <> 0 \/ 4096 <= z))%N.
  Definition calm (s : scanner) (r : rd_St rd) : Prop :=
    sc_split s = f /\ bounds s /\ (sc_err s <> None \/ exists D rest e l, live f rd s r D rest e /\ tokens_by f D l /\ spans_at_most k w l).
  Lemma span_tail : forall x l, spans_at_most k w (x :: l) -> spans_at_most k w l.
  Proof. intros x l H before some after E. apply (H (x :: before) some after). rewrite E. reflexivity. Qed.
  Lemma span_head : forall l, spans_at_most k w l -> (N.of_nat (length (concat (firstn k l))) <= w)%N.
  Proof. intros l H. apply (H [] (firstn k l) (skipn k l)); [symmetry; apply firstn_skipn|]. rewrite firstn_length. lia. Qed.

  Lemma scan_span : forall fuel s r b s' r', calm s r -> sized s -> scan_loop rd fuel s r = Ok (b, s', r') -> calm s' r' /\ sized s'.
  Proof.
    induction fuel as [|fuel IH]; intros s r b s' r' (HF & HB & HC) HZ H; [discriminate|].
    destruct HC as [HX|(D & rest & e & l & HL & HT & HM)].
    { destruct (sc_err s) as [x|] eqn:EX; [|congruence].
      assert (HS : size s' = size s) by exact (err_size _ _ _ _ _ _ _ _ EX H).
      destruct (scan_done f OK rd fuel s r x HF HB EX) as [(HP & s1 & HSc & HX1 & HF1 & HB1 & _)|(n & s1 & Hn & Hf & HSc & _ & HF1 & HB1 & HX1 & _)]; rewrite HSc in H; injection H as <- <- <-;
        (split; [|unfold sized in *; rewrite HS; exact HZ]); (split; [exact HF1|]); (split; [exact HB1|]); left; rewrite HX1; discriminate. }
    pose proof HL as (_ & _ & HX & HD & ED). pose proof HB as (B1 & B2). pose proof (pending_len s HB) as HPL.
    assert (MORE : forall s0, sc_split s0 = f -> bounds s0 -> sc_err s0 = None -> pending s0 = pending s -> size s0 = size s -> f (pending s) false = Ok e_more ->
      more_ rd fuel s0 r = Ok (b, s', r') -> calm s' r' /\ sized s').
    { intros s0 F0 B0 X0 P0 Z0 HMo HM0. unfold more_ in HM0. generalize dependent maxConsecutiveEmptyReads. intros mc HM0. rewrite X0 in HM0.
      destruct (shift_ok s0 B0) as (s1 & HS & Bs1 & P1 & F1 & X1 & M1 & L1 & Z1 & T1). rewrite HS in HM0. cbn [bind] in HM0.
      assert (Zs1 : size s1 = size s0) by (unfold size; congruence).
      destruct (grow_ok s1 Bs1 Z1) as [(s2 & HG & Bs2 & P2 & F2 & X2 & M2 & R2)|(HG & HLim & HW)].
      2:{ rewrite HG in HM0. cbn [bind] in HM0. injection HM0 as <- <- <-. split; [|unfold sized in *; change (size (set_err s1 ErrTooLong)) with (size s1); rewrite Zs1, Z0; exact HZ].
          split; [cbn [set_err sc_split]; congruence|]. split; [exact Bs1|]. left. cbn [set_err sc_err]. rewrite X1, X0. discriminate. }
      destruct (grow_size s1 s2 Bs1 Z1 HG) as (_ & HZ2 & HZ3). rewrite HG in HM0. cbn [bind] in HM0. rewrite P1, P0 in HZ2.
      assert (HPr : (N.of_nat (length (pending s)) <= w + 3)%N).
      { rewrite ED in HT. pose proof (PR _ _ _ HMo HT). pose proof (span_head _ HM). lia. }
      destruct (fill_ok rd mc s2 r rest e Bs2 ltac:(congruence) R2 HD) as (s3 & r3 & EF & F3 & Bs3 & M3 & HC).
      destruct (fill_size _ _ _ _ _ _ (proj2 Bs2) Bs2 EF) as (Z3 & _). rewrite EF in HM0.
      assert (P3 : pending s2 = pending s) by congruence. rewrite P3 in HC.
      apply (IH s3 r3 b s' r'); [| |exact HM0].
      - split; [congruence|]. split; [exact Bs3|]. destruct HC as [(X3 & bs & rest' & Hbs & Er & P4 & HD' & HLV)|[(X3 & P4)|(X3 & P4 & HNL)]]; [|left; congruence|left; congruence].
        right. exists D, rest', e, l. split; [|auto]. split; [congruence|]. split; [exact Bs3|]. split; [exact X3|]. split; [exact HD'|]. rewrite ED, P4, Er, app_assoc. reflexivity.
      - unfold sized in *. subst B. rewrite Zs1, Z0 in HZ2, HZ3. rewrite Z3. destruct (size s =? 0)%N eqn:E0; [apply N.eqb_eq in E0|apply N.eqb_neq in E0; specialize (HZ3 E0)]; lia. }
    rewrite scan_round in H. cbv zeta in H. rewrite HX, orb_false_r in H. destruct (sc_start s <? sc_end s) eqn:ES.
    2:{ apply Nat.ltb_ge in ES. assert (HPe : pending s = []) by (apply length_zero_iff_nil; lia).
        apply (MORE s HF HB HX eq_refl eq_refl); [rewrite HPe; apply (so_nil f OK)|]. exact H. }
    rewrite (pending_slice s HB), HF in H. cbn [bind] in H. destruct (so_stream f OK (pending s)) as [HMo|(n & Hn & Hs & Hst)].
    - rewrite HMo in H. cbn [bind e_more so_err so_advance so_token] in H. cbn [Z.ltb Z.compare Z.to_nat] in H.
      rewrite (proj2 (Nat.ltb_ge _ _)) in H by lia.
      set (s0 := with_token (with_buf s (sc_buf s) (sc_start s + 0) (sc_end s)) None (sc_empties s)) in *.
      assert (P0 : pending s0 = pending s). { unfold pending, s0. cbn [with_token with_buf sc_start sc_end sc_buf]. rewrite Nat.add_0_r. reflexivity. }
      apply (MORE s0); auto.
      unfold bounds, s0. cbn [with_token with_buf sc_start sc_end sc_buf]. lia.
    - rewrite Hs in H. cbn [bind e_done so_err so_advance so_token] in H. rewrite (proj2 (Z.ltb_ge _ _)) in H by lia. rewrite Nat2Z.id in H.
      rewrite (proj2 (Nat.ltb_ge _ _)) in H by lia. cbn [negb orb] in H. injection H as <- <- <-. split; [|exact HZ].
      assert (HPN : forall tok k, pending (with_token (with_buf s (sc_buf s) (sc_start s + n) (sc_end s)) tok k) = skipn n (pending s)).
      { intros. unfold pending. cbn [with_token with_buf sc_start sc_end sc_buf]. rewrite skipn_firstn_comm, skipn_skipn. f_equal; [lia|]. f_equal. lia. }
      assert (HB1 : forall t k, bounds (with_token (with_buf s (sc_buf s) (sc_start s + n) (sc_end s)) t k)) by (intros; unfold bounds; cbn [with_token with_buf sc_start sc_end sc_buf]; lia).
      split; [exact HF|]. split; [apply HB1|]. right. rewrite ED in HT. inversion HT as [HE|d1 n1 l1 Hs1 Hn1 HT1 HE]; subst.
      { symmetry in HE. apply app_eq_nil in HE. destruct HE as (HE & _). rewrite HE in Hn. cbn in Hn. lia. }
      rewrite (Hst rest true) in Hs1. assert (n1 = n) by (unfold e_done in Hs1; injection Hs1; lia). subst n1.
      exists (skipn n (pending s ++ rest)), rest, e, l1. split; [|split; [exact HT1|exact (span_tail _ _ HM)]].
      split; [exact HF|]. split; [apply HB1|]. split; [exact HX|]. split; [exact HD|]. rewrite skipn_app_le by lia. rewrite HPN. reflexivity.
  Qed.
  Lemma scanning_span : forall s r s' r', calm s r -> sized s -> scanning rd s r s' r' -> sized s'.
  Proof.
    intros s r s' r' HC HZ H. induction H as [s r|s r fuel b s1 r1 s2 r2 HS HR IH]; [exact HZ|]. unfold Scan in HS.
    destruct (scan_span fuel (with_called s) r b s1 r1 HC HZ HS) as (C1 & Z1). exact (IH C1 Z1).
  Qed.
End Span.
Lemma reads_in_place_ok : forall k f, split_ok f -> prompt k f -> forall iterate,
  (forall d fuel l, length d < fuel -> chop f (S (length d)) d = Ok l -> iterate fuel d = Ok l) -> reads_in_place k iterate f.
Proof.
  intros k f OK PR iterate AGREE rd r d e s s' r' l w fuel HD HS Hf HI HM HR.
  destruct (tb_ex0 f (so_eof f OK) (S (length d)) d ltac:(lia)) as (l' & Hl').
  assert (iterate fuel d = Ok l') as HI' by (apply AGREE; [lia|]; apply (tb_chop _ _ _ Hl'); lia). rewrite HI in HI'. injection HI' as <-.
  pose proof (fresh_live _ _ _ _ _ _ HS HD) as HL. apply (scanning_span f OK k PR rd w (first_size s) s r s' r'); [|unfold sized, first_size; destruct (size s =? 0)%N eqn:E0; [apply N.eqb_eq in E0|apply N.eqb_neq in E0]; lia|exact HR].
  split; [apply HL|]. split; [apply HL|]. right. exists d, d, e, l. auto.
Qed.
