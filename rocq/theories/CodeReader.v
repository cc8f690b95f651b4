(** bufio.Scanner with the program's split function does what it does with the model's. *)
From Coq Require Import String.
From Verif Require Import SpecIter SpecApi SpecUtf8 SpecRules.
From Verif Require ApiFacts.
From Verif Require Import Base Scanner SpecReader SpecCodeReader.
From Verif Require GoSyntax GoSem SpecCode CodeTokens.

Section Agree.
  Variables f g : splitfun.
  Hypothesis AG : forall d e, (Z.of_nat (length d) < 2 ^ 62)%Z -> f d e = g d e.
  Variable rd : reader.
  Notation F s := (resplit f s).
  Notation G s := (resplit g s).

  Lemma put_len : forall buf pos bs, (pos + length bs <= length buf)%nat -> length (put buf pos bs) = length buf.
  Proof. intros. unfold put. rewrite !app_length, firstn_length, skipn_length. lia. Qed.
  Lemma slice_len : forall d a b x, slice d a b = Ok x -> length x = (b - a)%nat /\ (a <= b <= length d)%nat.
  Proof.
    intros d a b x H. unfold slice in H. destruct ((b <? a)%nat || (length d <? b)%nat) eqn:E; [discriminate|]. apply orb_false_elim in E. destruct E as [E1 E2]. apply Nat.ltb_ge in E1, E2.
    injection H as <-. rewrite firstn_length, skipn_length. lia.
  Qed.
  (** ** Each step changes nothing but the fields, and keeps the scanner small. *)
  Lemma shift_re : forall k s, shift (resplit k s) = (s' <- shift s ;; Ok (resplit k s')).
  Proof. intros. unfold shift. cbn [resplit sc_start sc_end sc_buf]. destruct (_ && _); [|reflexivity]. destruct (slice _ _ _); reflexivity. Qed.
  Lemma shift_small : forall s s', shift s = Ok s' -> small s -> small s'.
  Proof.
    intros s s' H [S1 S2]. unfold shift in H. destruct (_ && _); [|injection H as <-; split; assumption]. destruct (slice _ _ _) as [d| |] eqn:E; try discriminate. injection H as <-.
    apply slice_len in E. split; [|exact S2]. cbn [with_buf sc_buf]. rewrite put_len by lia. exact S1.
  Qed.
  Lemma grow_re : forall k s, grow (resplit k s) = (o <- grow s ;; Ok (match o with Some s' => Some (resplit k s') | None => None end)).
  Proof. intros. unfold grow. cbn [resplit sc_start sc_end sc_buf sc_max]. destruct (_ =? _)%nat; [|reflexivity]. destruct (_ || _); [reflexivity|]. destruct (slice _ _ _); reflexivity. Qed.
  Lemma grow_small : forall s s', grow s = Ok (Some s') -> small s -> small s'.
  Proof.
    intros s s' H [S1 S2]. unfold grow in H. destruct (Nat.eqb_spec (sc_end s) (length (sc_buf s))) as [E0|]; [|injection H as <-; split; assumption].
    destruct (_ || _) eqn:O; [discriminate|]. apply orb_false_elim in O. destruct O as [O1 O2]. apply N.leb_gt in O1.
    destruct (slice _ _ _) as [d| |] eqn:E; try discriminate. injection H as <-. apply slice_len in E. destruct E as [E1 E2].
    split; [|exact S2]. cbn [with_buf sc_buf].
    assert (L : (N.of_nat (length d) <= N.min (if N.of_nat (length (sc_buf s)) * 2 =? 0 then startBufSize else N.of_nat (length (sc_buf s)) * 2) (sc_max s))%N).
    { apply N.min_glb; [|lia]. destruct (N.eqb_spec (N.of_nat (length (sc_buf s)) * 2) 0) as [Z0|Z0]; [unfold startBufSize|]; lia. }
    rewrite put_len by (rewrite repeat_length; lia). rewrite repeat_length.
    pose proof (N.le_min_r (if N.of_nat (length (sc_buf s)) * 2 =? 0 then startBufSize else N.of_nat (length (sc_buf s)) * 2) (sc_max s))%N. lia.
  Qed.
  Lemma set_err_re : forall k s e, set_err (resplit k s) e = resplit k (set_err s e).
  Proof. reflexivity. Qed.
  Lemma fill_re : forall k tries s r, fill rd tries (resplit k s) r = (let (s', r') := fill rd tries s r in (resplit k s', r')).
  Proof.
    induction tries as [|tries IH]; intros s r; cbn [fill resplit sc_buf sc_end]; destruct (rd_read rd r _) as [[bs err] r']; (destruct (_ <? _)%nat; [reflexivity|]); (destruct err; [reflexivity|]);
      (destruct (_ <? _)%nat; [reflexivity|]); [reflexivity|].
    exact (IH (with_buf s (put (sc_buf s) (sc_end s) bs) (sc_start s) (sc_end s + length bs)) r').
  Qed.
  Lemma put_len' : forall buf pos bs, (length bs <= length buf - pos)%nat -> length (put buf pos bs) = length buf.
  Proof. intros. unfold put. rewrite !app_length, firstn_length, skipn_length. lia. Qed.
  Lemma fill_small : forall tries s r s' r', fill rd tries s r = (s', r') -> small s -> small s'.
  Proof.
    induction tries as [|tries IH]; intros s r s' r' H S; cbn [fill] in H; destruct (rd_read rd r _) as [[bs err] r1]; destruct (Nat.ltb_spec (length (sc_buf s) - sc_end s) (length bs)) as [|LE];
      try (injection H as <- _; assumption);
      (assert (S' : small (with_buf s (put (sc_buf s) (sc_end s) bs) (sc_start s) (sc_end s + length bs))) by (split; [cbn [with_buf sc_buf]; rewrite put_len' by lia; apply S|apply S]));
      (destruct err; [injection H as <- _; assumption|]); (destruct (_ <? _)%nat in H; [injection H as <- _; assumption|]); [injection H as <- _; assumption|].
    eapply IH; eassumption.
  Qed.

  (** ** Two runs side by side. *)
  Definition alike (x y : res (bool * scanner * rd_St rd)) : Prop :=
    match x, y with
    | Ok (b, s1, r1), Ok (b', s2, r2) => b = b' /\ r1 = r2 /\ exists s, s1 = F s /\ s2 = G s /\ small s
    | Panic, Panic => True
    | OutOfFuel, OutOfFuel => True
    | _, _ => False
    end.
  Lemma alike_ok : forall b s r, small s -> alike (Ok (b, F s, r)) (Ok (b, G s, r)).
  Proof. intros. cbn. eauto 6. Qed.
  Definition more (k : splitfun) (fuel : nat) (s : scanner) (r : rd_St rd) : res (bool * scanner * rd_St rd) :=
    match sc_err s with
    | Some _ => Ok (false, with_buf s (sc_buf s) 0 0, r)
    | None =>
      s <- shift s ;;
      g <- grow s ;;
      match g with
      | None => Ok (false, set_err s ErrTooLong, r)
      | Some s =>
        let '(s, r') := fill rd maxConsecutiveEmptyReads s r in
        scan_loop rd fuel s r'
      end
    end.
  Lemma more_alike : forall fuel, (forall s r, small s -> alike (scan_loop rd fuel (F s) r) (scan_loop rd fuel (G s) r)) ->
    forall s r, small s -> alike (more f fuel (F s) r) (more g fuel (G s) r).
  Proof.
    intros fuel IH s r S. unfold more. cbn [resplit sc_err]. destruct (sc_err s).
    - exact (alike_ok false (with_buf s (sc_buf s) 0 0) r S).
    - rewrite !shift_re. destruct (shift s) as [s1| |] eqn:E1; cbn [bind]; [|exact I|exact I]. pose proof (shift_small _ _ E1 S) as S1.
      rewrite !grow_re. destruct (grow s1) as [[s2|]| |] eqn:E2; cbn [bind]; [| |exact I|exact I].
      + pose proof (grow_small _ _ E2 S1) as S2. rewrite !fill_re. destruct (fill rd maxConsecutiveEmptyReads s2 r) as [s3 r3] eqn:E3. apply IH. eapply fill_small; eassumption.
      + exact (alike_ok false (set_err s1 ErrTooLong) r S1).
  Qed.
  Lemma loop_alike : forall fuel s r, small s -> alike (scan_loop rd fuel (F s) r) (scan_loop rd fuel (G s) r).
  Proof.
    induction fuel as [|fuel IH]; intros s r S; [exact I|]. cbn [scan_loop]. cbn [resplit sc_start sc_end sc_err sc_buf sc_split].
    pose proof (more_alike fuel IH) as M. unfold more in M.
    set (has := match sc_err s with Some _ => true | None => false end).
    destruct ((sc_start s <? sc_end s)%nat || has) eqn:C; [|exact (M s r S)].
    destruct (slice (sc_buf s) (sc_start s) (sc_end s)) as [d| |] eqn:D; cbn [bind]; [|exact I|exact I]. apply slice_len in D. destruct S as [S1 S2]. assert (S : small s) by (split; assumption).
    rewrite AG by lia. destruct (g d has) as [o| |]; cbn [bind]; [|exact I|exact I]. destruct (so_err o) as [e|].
    { exact (alike_ok false (set_err s (SSplit e)) r S). }
    destruct (so_advance o <? 0)%Z; [exact (alike_ok false (set_err s ErrNegativeAdvance) r S)|].
    destruct (sc_end s - sc_start s <? Z.to_nat (so_advance o))%nat; [exact (alike_ok false (set_err s ErrAdvanceTooFar) r S)|].
    set (s' := with_buf s (sc_buf s) (sc_start s + Z.to_nat (so_advance o)) (sc_end s)). assert (S' : small s') by exact S.
    destruct (so_token o) as [tok|]; [|exact (M (with_token s' None (sc_empties s')) r S')].
    destruct (negb has || (0 <? Z.to_nat (so_advance o))%nat); [exact (alike_ok true (with_token s' (Some tok) 0) r S')|].
    cbn [with_buf sc_empties resplit]. destruct (maxConsecutiveEmptyReads <? Datatypes.S (sc_empties s))%nat; [exact I|].
    exact (alike_ok true (with_token s' (Some tok) (Datatypes.S (sc_empties s'))) r S').
  Qed.
  Lemma scan_alike : forall fuel s r, small s -> alike (Scan rd fuel (F s) r) (Scan rd fuel (G s) r).
  Proof. intros fuel s r S. exact (loop_alike fuel (with_called s) r S). Qed.
  Lemma all_alike : forall fuel s r, small s -> scan_all rd fuel (F s) r = scan_all rd fuel (G s) r.
  Proof.
    induction fuel as [|fuel IH]; intros s r S; [reflexivity|]. cbn [scan_all]. pose proof (scan_alike (Datatypes.S fuel) s r S) as A. unfold alike in A.
    destruct (Scan rd (Datatypes.S fuel) (F s) r) as [[[b s1] r1]| |], (Scan rd (Datatypes.S fuel) (G s) r) as [[[b' s2] r2]| |]; try contradiction; [|reflexivity|reflexivity].
    destruct A as (<- & <- & s' & -> & -> & S'). cbn [bind]. destruct b; [|reflexivity]. rewrite IH by exact S'. reflexivity.
  Qed.
End Agree.
Theorem agree_scans : forall f g, (forall d e, (Z.of_nat (length d) < 2 ^ 62)%Z -> f d e = g d e) -> scans_as f g.
Proof. intros f g AG rd r s fuel S. exact (all_alike f g AG rd fuel s r S). Qed.

(** ** From the model's split function to that of the text. *)
Lemma fresh_resplit : forall f g s, fresh_scanner f s -> s = resplit f s /\ fresh_scanner g (resplit g s).
Proof.
  intros f g s H. destruct H as [|buf max s H]; [split; [reflexivity|exact (fresh_default g)]|]. injection H as <-. split; [reflexivity|]. apply (fresh_buffer g buf max). reflexivity.
Qed.
Section Conform.
  Context {A : api} {K : Type} {data : It A -> bytes} {pos start : It A -> nat} {kof : It A -> K -> Prop} {fk : K -> splitfun} {newK : K} {cfgK : Cfg A -> K -> K}.
  Hypothesis AO : ApiFacts.api_ok A data pos start kof fk newK cfgK.
  Variables (f g : splitfun) (decides : list N -> list N -> SpecRules.op -> Prop).
  Hypothesis AS : scans_as f g.
  Hypothesis RA : reads_all (iterating A) g.
  Hypothesis RS : reads_all_short (iterating A) g.
  Hypothesis CF : forall cps fuel, scalars cps -> length (encode cps) < fuel -> exists segs, tokens A fuel (a_new A (encode cps)) = Ok (map encode segs) /\ segmentation decides cps segs.
  Lemma conform_reader : reader_conforms decides f.
  Proof.
    intros rd r d s fuel D FR SM L. destruct (fresh_resplit f g s FR) as [E FG].
    assert (SC : scan_all rd fuel s r = scan_all rd fuel (resplit g s) r) by (rewrite E at 1; apply AS; exact SM).
    destruct (RA rd r d (resplit g s) fuel D FG L) as (l & err & H1 & H2). exists l, err. split; [congruence|]. split.
    - intros EN. specialize (H2 EN). unfold iterating in H2.
      destruct (ApiFacts.total_lossless AO [] d (a_new A d) eq_refl) as (sp & E1 & _ & E2 & E3 & _). apply CodeTokens.spans_tokens in E1.
      assert (E4 : tokens A fuel (a_new A d) = Ok (texts sp)) by (eapply CodeTokens.collect_more; [exact E1|lia]).
      rewrite E4 in H2. injection H2 as <-. split; [exact E2|]. split; [exact E3|].
      intros cps SC' ->. destruct (CF cps fuel SC') as (segs & G1 & G2); [lia|]. exists segs. split; [congruence|exact G2].
    - intros LV LT. destruct (RS rd r d (resplit g s) fuel D LV FG) as (l' & H3 & _); [|exact L|congruence].
      destruct SM as [_ SM]. cbn [resplit sc_max]. apply N.min_glb_lt; [exact LT|lia].
  Qed.
End Conform.
