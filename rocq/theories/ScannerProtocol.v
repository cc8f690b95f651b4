(** Any number of calls of Scan (C52). *)
From Verif Require Import Base ListFacts Engine SpecIter Drive Scanner SpecReader ScannerFacts ReaderFacts SpecScanner.

(** ** Configuration *)
Lemma fill_called : forall rd tries s r, sc_called (fst (fill rd tries s r)) = sc_called s.
Proof.
  induction tries as [|tries IH]; intros s r; cbn [fill]; destruct (rd_read rd r _) as [[bs err] r']; destruct (_ <? length bs); try reflexivity;
  destruct err; try reflexivity; destruct (0 <? length bs); try reflexivity. rewrite IH. reflexivity.
Qed.
Lemma loop_called : forall rd fuel s r b s' r', scan_loop rd fuel s r = Ok (b, s', r') -> sc_called s' = sc_called s.
Proof.
  induction fuel as [|fuel IH]; intros s r b s' r' H; [discriminate|].
  assert (MORE : forall s0, sc_called s0 = sc_called s -> more_ rd fuel s0 r = Ok (b, s', r') -> sc_called s' = sc_called s).
  { intros s0 E0. unfold more_. destruct (sc_err s0); [intros [= <- <- <-]; exact E0|].
    assert (REST : forall s1, sc_called s1 = sc_called s -> (let '(s3, r3) := fill rd maxConsecutiveEmptyReads s1 r in scan_loop rd fuel s3 r3) = Ok (b, s', r') ->
      sc_called s' = sc_called s).
    { intros s1 E1. pose proof (fill_called rd maxConsecutiveEmptyReads s1 r) as HC. destruct (fill rd maxConsecutiveEmptyReads s1 r) as [s3 r3].
      intros HL. apply IH in HL. rewrite HL. cbn [fst] in HC. congruence. }
    assert (GROW : forall s1, sc_called s1 = sc_called s -> (g <- grow s1 ;; match g with None => Ok (false, set_err s1 ErrTooLong, r)
        | Some s2 => let '(s3, r3) := fill rd maxConsecutiveEmptyReads s2 r in scan_loop rd fuel s3 r3 end) = Ok (b, s', r') -> sc_called s' = sc_called s).
    { intros s1 E1. unfold grow. destruct (Nat.eqb _ _); [|cbn [bind]; apply REST; exact E1]. cbv zeta. destruct (_ || _); [cbn [bind]; intros [= <- <- <-]; exact E1|].
      destruct (slice _ _ _); cbn [bind]; [|discriminate|discriminate]. apply REST. exact E1. }
    unfold shift. destruct (_ && _); [|cbn [bind]; apply GROW; exact E0].
    destruct (slice _ _ _); cbn [bind]; [|discriminate|discriminate]. apply GROW. exact E0. }
  cbn [scan_loop] in H. fold (more_ rd fuel) in H.
  destruct (_ || _); [|apply (MORE s eq_refl); exact H].
  destruct (slice _ _ _); cbn [bind] in H; [|discriminate|discriminate].
  destruct (sc_split s _ _) as [o| |]; cbn [bind] in H; [|discriminate|discriminate].
  destruct (so_err o); [injection H as <- <- <-; reflexivity|].
  destruct (_ <? _)%Z; [injection H as <- <- <-; reflexivity|].
  destruct (_ <? _); [injection H as <- <- <-; reflexivity|].
  destruct (so_token o).
  - destruct (_ || _); [injection H as <- <- <-; reflexivity|]. destruct (_ <? _); [discriminate|injection H as <- <- <-; reflexivity].
  - match type of H with _ = Ok _ => idtac end. revert H. apply MORE. reflexivity.
Qed.
Lemma scan_called : forall rd fuel s r b s' r', Scan rd fuel s r = Ok (b, s', r') -> sc_called s' = true.
Proof. intros rd fuel s r b s' r' H. apply loop_called in H. exact H. Qed.

Lemma configured : forall cs f s, fresh_scanner f s -> exists s', configure s cs = Ok s' /\ fresh_scanner (last_split f cs) s'.
Proof.
  induction cs as [|[buf max|g] cs IH]; intros f s Hs; cbn [configure last_split].
  - exists s. auto.
  - destruct Hs as [|b0 m0 s Hs]; [|injection Hs as <-]; cbn [set_one Buffer FromReader sc_called bind]; apply IH; eapply fresh_buffer; reflexivity.
  - destruct Hs as [|b0 m0 s Hs]; [|injection Hs as <-]; cbn [set_one Split FromReader sc_called bind]; apply IH; [apply fresh_default|eapply fresh_buffer; reflexivity].
Qed.

(** ** Runs *)
Section Runs.
  Variable f : splitfun.
  Hypothesis OK : split_ok f.
  Variable rd : reader.
  Variable e : rerr.

  Inductive state (s : scanner) (r : rd_St rd) (D : bytes) : Prop :=
  | st_live : forall rest, live f rd s r D rest e -> tokened s -> state s r D
  | st_ended : forall x, ended f s D x -> state s r D.
  Definition quiet (s : scanner) (x : serr) : Prop := ended f s [] x.

  Lemma quiet_step : forall s r fuel x, quiet s x -> exists s', Scan rd (S fuel) s r = Ok (false, s', r) /\ quiet s' x /\ sc_token s' = None.
  Proof.
    intros s r fuel x (HF & B & HX & HD). unfold Scan.
    destruct (scan_done f OK rd fuel (with_called s) r x HF B HX) as [(HP & s' & HS & HX' & HF' & B' & HP' & HT)|(n & s' & Hn & _)].
    - exists s'. split; [exact HS|]. split; [|exact HT]. split; [exact HF'|]. split; [exact B'|]. split; [exact HX'|]. symmetry. exact HP'.
    - exfalso. rewrite called_pending, <- HD in Hn. cbn [length] in Hn. lia.
  Qed.

  Definition step_from (s : scanner) (D : bytes) (m : res (bool * scanner * rd_St rd)) : Prop :=
    exists (b : bool) s' r' D' junk, m = Ok (b, s', r') /\ state s' r' D' /\ D = Bytes s' ++ D' ++ junk /\ (b = true <-> Bytes s' <> [])
      /\ (Err s <> None -> Err s' = Err s) /\ (b = false -> Err s' <> Some ErrTooLong -> exists x, quiet s' x).

  Lemma ended_step : forall s0 s r fuel D junk x, ended f s D x -> (forall e1, Err s0 = Some e1 -> sc_err s0 = Some x) ->
    step_from s0 (D ++ junk) (scan_loop rd (S fuel) s r).
  Proof.
    intros s0 s r fuel D junk x (HF & B & HX & HD) HE.
    assert (HErr : forall s', sc_err s' = Some x -> Err s0 <> None -> Err s' = Err s0).
    { intros s' H' H. destruct (Err s0) as [e1|] eqn:E0; [|congruence]. specialize (HE e1 eq_refl). unfold Err in *. rewrite H'. rewrite HE in E0. exact E0. }
    destruct (scan_done f OK rd fuel s r x HF B HX) as [(HP & s' & HS & HX' & HF' & B' & HP' & HT)|(n & s' & Hn & Hs & HS & HT & HF' & B' & HX' & HP)].
    - exists false, s', r, [], junk. unfold Bytes. rewrite HT. split; [exact HS|].
      assert (Q : ended f s' [] x) by (split; [exact HF'|]; split; [exact B'|]; split; [exact HX'|]; symmetry; exact HP').
      split; [eapply st_ended; exact Q|]. split; [rewrite HD, HP; reflexivity|]. split; [split; congruence|]. split; [apply HErr; exact HX'|]. intros _ _. exists x. exact Q.
    - exists true, s', r, (skipn n D), junk. unfold Bytes. rewrite HT. split; [exact HS|].
      split. { apply (st_ended _ _ _ x). split; [exact HF'|]. split; [exact B'|]. split; [exact HX'|]. rewrite HP, <- HD. reflexivity. }
      split. { rewrite <- HD, app_assoc, firstn_skipn. reflexivity. }
      split. { split; [|reflexivity]. intros _ E. apply (f_equal (@length N)) in E. rewrite firstn_length in E. cbn [length] in E. lia. }
      split; [apply HErr; exact HX'|discriminate].
  Qed.

  Lemma step : forall s r D fuel, state s r D -> length D + 2 < fuel -> step_from s D (Scan rd fuel s r).
  Proof.
    intros s r D fuel HS Hf. destruct fuel as [|fuel]; [lia|]. unfold Scan. destruct HS as [rest HL HT|x HE].
    2:{ rewrite <- (app_nil_r D). apply ended_step with (x := x); [exact HE|]. intros e1 H. destruct HE as (_ & _ & HX & _). exact HX. }
    assert (Hrest : length rest <= length D). { destruct HL as (_ & _ & _ & _ & ->). rewrite app_length. lia. }
    assert (HN : sc_err s = None) by apply HL.
    assert (HX0 : forall x e1, Err s = Some e1 -> sc_err s = Some x). { intros x e1. unfold Err. rewrite HN. discriminate. }
    destruct (scan_live f OK rd (S fuel) (with_called s) r D rest e HL ltac:(lia))
      as [n s' r' rest2 G1 G2 G3 G4 G5 G6 G7 G8 G9 G10|fu s' r' G2 G3|fu s' r' D1 D2 G2 G3 G4 G5|s' r' p q G1 G2 G3 G4 G5 G6 G7].
    - exists true, s', r', (skipn n D), []. split; [exact G3|]. split; [apply (st_live _ _ _ rest2); [exact G7|right; exact G10]|].
      unfold Bytes. rewrite G4. split; [rewrite app_nil_r; symmetry; apply firstn_skipn|]. split.
      { split; [|reflexivity]. intros _ E. apply (f_equal (@length N)) in E. rewrite firstn_length in E. cbn [length] in E. lia. }
      split; [|discriminate]. unfold Err. rewrite HN. congruence.
    - rewrite G3. rewrite <- (app_nil_r D). apply ended_step with (x := SRead e); [exact G2|apply HX0].
    - rewrite G4, G2. apply ended_step with (x := ErrNoProgress); [exact G3|apply HX0].
    - exists false, s', r', p, q. split; [exact G1|]. split; [apply (st_ended _ _ _ ErrTooLong); exact G6|].
      unfold Bytes. rewrite (G7 HT). split; [exact G3|]. split; [split; congruence|]. split; [unfold Err; rewrite HN; congruence|].
      intros _ H. exfalso. apply H. unfold Err. rewrite G2. reflexivity.
  Qed.

  Lemma quiet_run : forall n s r fuel x, quiet s x -> exists l, scans rd (S fuel) n s r = Ok l /\ length l = n
    /\ Forall (fun o => o = {| sn_more := false; sn_token := []; sn_err := Err s |}) l.
  Proof.
    induction n as [|n IH]; intros s r fuel x Q; cbn [scans]; [exists []; auto|].
    destruct (quiet_step s r fuel x Q) as (s' & HS & Q' & HT). rewrite HS. cbn [bind].
    assert (EE : Err s' = Err s). { unfold Err. destruct Q as (_ & _ & -> & _), Q' as (_ & _ & -> & _). reflexivity. }
    destruct (IH s' r fuel x Q') as (l & HR & HL & HA). rewrite HR. cbn [bind]. eexists; split; [reflexivity|]. cbn [length]. split; [lia|].
    unfold Bytes. rewrite HT, EE. constructor; [reflexivity|]. rewrite <- EE. exact HA.
  Qed.

  (** An error the scanner already has is what every observation shows. *)
  Lemma run : forall n s r D fuel, state s r D -> length D + 2 < fuel -> exists l, scans rd fuel n s r = Ok l /\ length l = n /\ promises D l
    /\ (Err s <> None -> Forall (fun o => sn_err o = Err s) l).
  Proof.
    induction n as [|n IH]; intros s r D fuel HS Hf; cbn [scans].
    - exists []. split; [reflexivity|]. split; [reflexivity|]. split; [|constructor].
      constructor; [intros o []|exists D; reflexivity| |]; intros [|i] j o o' _ H; discriminate.
    - destruct (step s r D fuel HS Hf) as (b & s' & r' & D' & junk & HSc & HS' & HD & HB & HE & HQ). rewrite HSc. cbn [bind].
      assert (Hf' : length D' + 2 < fuel). { rewrite HD, !app_length in Hf. lia. }
      destruct (IH s' r' D' fuel HS' Hf') as (l & HR & HL & HP & HA). rewrite HR. cbn [bind]. eexists; split; [reflexivity|]. cbn [length]. split; [lia|].
      split.
      2:{ intros H. constructor; [apply HE; exact H|]. pose proof (HE H) as EE. rewrite EE in HA. exact (HA H). }
      constructor.
      + intros o [<-|Ho]; [exact HB|]. apply (p_token _ _ HP). exact Ho.
      + destruct (p_prefix _ _ HP) as (rest & E). exists (rest ++ junk). cbn [map concat sn_token]. rewrite HD, E, <- !app_assoc. reflexivity.
      + intros [|i] [|j] o o' Hij Hi Hj He; try lia; cbn [nth_error] in Hi, Hj.
        * injection Hi as <-. cbn [sn_err] in *. specialize (HA He). rewrite Forall_forall in HA. apply HA. eapply nth_error_In. exact Hj.
        * apply (p_error _ _ HP i j o o'); auto. lia.
      + intros [|i] [|j] o o' Hij Hi Hj Hm Hl; try lia; cbn [nth_error] in Hi, Hj.
        * injection Hi as <-. cbn [sn_err sn_more] in *. destruct (HQ Hm Hl) as (x & Q). destruct fuel as [|fuel]; [lia|].
          destruct (quiet_run n s' r' fuel x Q) as (l' & HR' & _ & HA'). rewrite HR in HR'. injection HR' as <-.
          rewrite Forall_forall in HA'. rewrite (HA' o' (nth_error_In _ _ Hj)). f_equal; [congruence|].
          destruct (Bytes s') eqn:EB; [reflexivity|]. assert (b = true) by (apply HB; congruence). congruence.
        * apply (p_end _ _ HP i j o o'); auto. lia.
  Qed.
End Runs.

Lemma keeps_promises_ok : forall f, split_ok f -> keeps_promises f.
Proof.
  intros f OK rd r d e s fuel n HD HS Hf. destruct (run f OK rd e n s r d fuel) as (l & H1 & H2 & H3 & _); [|exact Hf|exists l; auto].
  apply (st_live _ _ _ _ _ _ d); [apply fresh_live; assumption|]. destruct HS as [|buf max s HS]; [left; reflexivity|injection HS as <-; left; reflexivity].
Qed.
