(** The scanner on a split function that keeps the contract. *)
From Verif Require Import Base ListFacts Engine SpecIter Drive Scanner SpecReader.

Lemma put_0 : forall buf d, firstn (length d) (put buf 0 d) = d.
Proof. intros. unfold put. cbn [firstn app]. rewrite firstn_app, firstn_all, Nat.sub_diag. cbn [firstn]. apply app_nil_r. Qed.
Lemma put_len : forall buf pos d, pos + length d <= length buf -> length (put buf pos d) = length buf.
Proof. intros buf pos d H. unfold put. rewrite !app_length, firstn_length, skipn_length. lia. Qed.

(** The unread part of the buffer. *)
Definition pending (s : scanner) : bytes := firstn (sc_end s - sc_start s) (skipn (sc_start s) (sc_buf s)).
Definition bounds (s : scanner) : Prop := sc_start s <= sc_end s <= length (sc_buf s).

Lemma pending_len : forall s, bounds s -> length (pending s) = sc_end s - sc_start s.
Proof. intros s [H1 H2]. unfold pending. rewrite firstn_length, skipn_length. lia. Qed.
Lemma pending_slice : forall s, bounds s -> slice (sc_buf s) (sc_start s) (sc_end s) = Ok (pending s).
Proof.
  intros s [H1 H2]. unfold slice. rewrite (proj2 (Nat.ltb_ge _ _)) by lia. rewrite (proj2 (Nat.ltb_ge _ _)) by lia. reflexivity.
Qed.
Lemma pending_put : forall buf pos bs start, start <= pos -> pos + length bs <= length buf ->
  firstn (pos + length bs - start) (skipn start (put buf pos bs)) = firstn (pos - start) (skipn start buf) ++ bs.
Proof.
  intros buf pos bs start H1 H2. unfold put.
  rewrite skipn_app, firstn_length, Nat.min_l by lia. replace (start - pos) with 0 by lia. cbn [skipn].
  rewrite skipn_firstn_comm. rewrite firstn_app. rewrite firstn_length, skipn_length, Nat.min_l by lia.
  rewrite firstn_firstn, Nat.min_r by lia. f_equal.
  replace (pos + length bs - start - (pos - start)) with (length bs) by lia. rewrite firstn_app, firstn_all, Nat.sub_diag. cbn [firstn]. apply app_nil_r.
Qed.

Lemma pending_reset : forall s B, bounds s -> pending (with_buf s (put B 0 (pending s)) 0 (sc_end s - sc_start s)) = pending s.
Proof.
  intros s B H. change (firstn (sc_end s - sc_start s - 0) (put B 0 (pending s)) = pending s). rewrite Nat.sub_0_r, <- (pending_len s H). apply put_0.
Qed.

Section Facts.
  Variable f : splitfun.
  Hypothesis OK : split_ok f.
  Variable rd : reader.

  Definition limit (s : scanner) (n : nat) : Prop := (sc_max s <= N.of_nat n)%N \/ (maxInt / 2 < N.of_nat n)%N.

  (** One round of shifting, growing and reading. *)
  Lemma shift_ok : forall s, bounds s -> exists s', shift s = Ok s' /\ bounds s' /\ pending s' = pending s /\ sc_split s' = sc_split s
    /\ sc_err s' = sc_err s /\ sc_max s' = sc_max s /\ length (sc_buf s') = length (sc_buf s)
    /\ (sc_end s' = length (sc_buf s') -> sc_start s' = 0) /\ sc_token s' = sc_token s.
  Proof.
    intros s B. pose proof B as [B1 B2]. unfold shift. destruct (_ && _) eqn:E.
    - rewrite pending_slice by exact B. cbn [bind]. eexists; split; [reflexivity|].
      pose proof (pending_len s B) as HL.
      assert (HB : length (put (sc_buf s) 0 (pending s)) = length (sc_buf s)) by (apply put_len; lia).
      rewrite (pending_reset s _ B). unfold bounds. cbn [with_buf sc_start sc_end sc_buf sc_split sc_err sc_max]. rewrite HB.
      split; [lia|]. auto 10.
    - exists s. repeat (split; [solve [auto]|]). split; [|reflexivity]. intros E1. apply andb_false_iff in E. destruct E as [E|E].
      + apply Nat.ltb_ge in E. lia.
      + apply orb_false_iff in E. destruct E as [E _]. apply Nat.eqb_neq in E. congruence.
  Qed.
  Lemma grow_ok : forall s, bounds s -> (sc_end s = length (sc_buf s) -> sc_start s = 0) ->
    (exists s', grow s = Ok (Some s') /\ bounds s' /\ pending s' = pending s /\ sc_split s' = sc_split s
      /\ sc_err s' = sc_err s /\ sc_max s' = sc_max s /\ sc_end s' < length (sc_buf s'))
    \/ grow s = Ok None /\ limit s (length (pending s)) /\ pending s = sc_buf s.
  Proof.
    intros s B HF. pose proof B as [B1 B2]. unfold grow. destruct (Nat.eqb (sc_end s) (length (sc_buf s))) eqn:E.
    - apply Nat.eqb_eq in E. specialize (HF E). cbv zeta. destruct (_ || _) eqn:EL.
      + right. split; [reflexivity|]. split; [|unfold pending; rewrite HF, E, Nat.sub_0_r; apply firstn_all]. unfold limit. rewrite pending_len by exact B. replace (sc_end s - sc_start s) with (length (sc_buf s)) by lia.
        apply orb_prop in EL. destruct EL as [EL|EL]; [left; apply N.leb_le; exact EL|right; apply N.ltb_lt; exact EL].
      + left. apply orb_false_iff in EL. destruct EL as [EL _]. apply N.leb_gt in EL.
        rewrite pending_slice by exact B. cbn [bind]. eexists; split; [reflexivity|].
        pose proof (pending_len s B) as HL.
        set (nz := N.min _ _).
        assert (HN : length (sc_buf s) < N.to_nat nz).
        { unfold nz. destruct (N.of_nat (length (sc_buf s)) * 2 =? 0)%N eqn:EZ; [apply N.eqb_eq in EZ; unfold startBufSize|apply N.eqb_neq in EZ]; lia. }
        assert (HB : length (put (repeat 0%N (N.to_nat nz)) 0 (pending s)) = N.to_nat nz).
        { rewrite put_len; rewrite repeat_length; lia. }
        rewrite (pending_reset s _ B). unfold bounds. cbn [with_buf sc_start sc_end sc_buf sc_split sc_err sc_max]. rewrite HB.
        split; [lia|]. repeat split; auto. lia.
    - apply Nat.eqb_neq in E. left. exists s. repeat split; auto. lia.
  Qed.
  Lemma fill_ok : forall tries s r rest e, bounds s -> sc_err s = None -> sc_end s < length (sc_buf s) -> delivers rd r rest e ->
    exists s' r', fill rd tries s r = (s', r') /\ sc_split s' = sc_split s /\ bounds s' /\ sc_max s' = sc_max s /\
     (sc_err s' = None /\ (exists bs rest', bs <> [] /\ rest = bs ++ rest' /\ pending s' = pending s ++ bs /\ delivers rd r' rest' e /\ (forall k, lively rd k r -> k <= tries -> lively rd 100 r'))
      \/ sc_err s' = Some (SRead e) /\ pending s' = pending s ++ rest
      \/ sc_err s' = Some ErrNoProgress /\ pending s' = pending s /\ (forall k, lively rd k r -> k <= tries -> False)).
  Proof.
    induction tries as [|tries IH]; intros s r rest e B HE HR HD; inversion HD as [? ? ? HD' HD2]; subst; cbn [fill];
      set (room := length (sc_buf s) - sc_end s) in *; destruct (rd_read rd r room) as [[bs err] r'] eqn:ER;
      destruct (HD' room bs err r' ltac:(lia) ER) as (HL & rest' & Er & HM); assert (HM2 : err = None -> delivers rd r' rest' e) by (intros ->; exact (HD2 room bs r' rest' ltac:(lia) ER Er)); clear HD' HD2; rewrite (proj2 (Nat.ltb_ge _ _)) by lia;
      pose proof B as [B1 B2];
      set (s1 := with_buf s (put (sc_buf s) (sc_end s) bs) (sc_start s) (sc_end s + length bs));
      assert (Bs1 : bounds s1) by (unfold bounds, s1; cbn [with_buf sc_start sc_end sc_buf]; rewrite put_len; lia);
      assert (Ps1 : pending s1 = pending s ++ bs) by (unfold pending, s1; cbn [with_buf sc_start sc_end sc_buf]; apply pending_put; lia).
    1,2: (assert (HV : forall k, lively rd k r -> match err, bs with Some _, _ => True | None, [] => exists k', k = S k' /\ lively rd k' r' | None, _ :: _ => lively rd 100 r' end)
        by (intros k Hk; inversion Hk as [? ? Hk1 Hk2]; subst; destruct err; [exact I|]; destruct bs;
          [destruct (Hk1 room r' ltac:(lia) ER) as [Hk3 Hk4]; destruct k; [congruence|]; exists k; auto|apply (Hk2 room (n :: bs) r' ltac:(lia) ER); discriminate]));
      destruct err as [e'|]; [destruct HM as [HM|[HM ->]]; [discriminate|]; injection HM as ->; rewrite app_nil_r in Er; subst bs; eexists _, _; (split; [reflexivity|]);
        cbn [set_err sc_split sc_max sc_err s1 with_buf]; rewrite HE; (split; [reflexivity|]); (split; [exact Bs1|]); (split; [reflexivity|]); right; left; auto|];
      destruct bs as [|c bs];
      [|cbn [length Nat.ltb Nat.leb]; eexists _, _; (split; [reflexivity|]); (split; [reflexivity|]); (split; [exact Bs1|]); (split; [reflexivity|]); left; (split; [exact HE|]);
        exists (c :: bs), rest'; (split; [discriminate|]); (split; [exact Er|]); (split; [exact Ps1|]); (split; [exact (HM2 eq_refl)|]); intros k Hk _; exact (HV k Hk)];
      cbn [length Nat.ltb Nat.leb]; cbn [app] in Er; subst rest'; rewrite app_nil_r in Ps1.
    - eexists _, _. split; [reflexivity|]. cbn [set_err sc_split sc_max sc_err s1 with_buf]. rewrite HE. split; [reflexivity|]. split; [exact Bs1|]. split; [reflexivity|].
      right; right. split; [reflexivity|]. split; [exact Ps1|]. intros k Hk Hle. destruct (HV k Hk) as (k' & -> & _). lia.
    - destruct (IH s1 r' rest e Bs1 HE) as (s' & r2 & F & F1 & F2 & F3 & F4); [|exact (HM2 eq_refl)|].
      { cbn [s1 with_buf sc_end sc_buf]. rewrite put_len by (cbn [length]; lia). cbn [length]. lia. }
      exists s', r2. split; [exact F|]. split; [exact F1|]. split; [exact F2|]. split; [exact F3|]. rewrite Ps1 in F4.
      destruct F4 as [(G1 & b2 & rest2 & G2 & G3 & G4 & G5 & G6)|[(G1 & G2)|(G1 & G2 & G3)]].
      + left. split; [exact G1|]. exists b2, rest2. split; [exact G2|]. split; [exact G3|]. split; [exact G4|]. split; [exact G5|]. intros k Hk Hle. destruct (HV k Hk) as (k' & -> & Hk2). apply (G6 k' Hk2). lia.
      + right; left. auto.
      + right; right. split; [exact G1|]. split; [exact G2|]. intros k Hk Hle. destruct (HV k Hk) as (k' & -> & Hk2). apply (G3 k' Hk2). lia.
  Qed.

  (** Once there is an error, what is pending is cut up as at the end of the data. *)
  Lemma scan_done : forall fuel s r x, sc_split s = f -> bounds s -> sc_err s = Some x ->
    (pending s = [] /\ exists s', scan_loop rd (S fuel) s r = Ok (false, s', r) /\ sc_err s' = Some x
       /\ sc_split s' = f /\ bounds s' /\ pending s' = [] /\ sc_token s' = None)
    \/ exists n s', 0 < n <= length (pending s) /\ f (pending s) true = Ok (e_done n (firstn n (pending s)))
       /\ scan_loop rd (S fuel) s r = Ok (true, s', r) /\ sc_token s' = Some (firstn n (pending s))
       /\ sc_split s' = f /\ bounds s' /\ sc_err s' = Some x /\ pending s' = skipn n (pending s).
  Proof.
    intros fuel s r x HF B HX. cbn [scan_loop]. rewrite HX, orb_true_r, (pending_slice s B), HF. cbn [bind].
    destruct (pending s) as [|c p] eqn:EP.
    - left. split; [reflexivity|]. rewrite (so_nil f OK). cbn [bind e_more so_err so_advance so_token]. cbn [Z.ltb Z.compare Z.to_nat].
      rewrite (proj2 (Nat.ltb_ge _ _)) by lia. cbn [with_token with_buf sc_err]. rewrite HX. eexists; split; [reflexivity|]. split; [exact HX|]. split; [exact HF|].
      split; [unfold bounds; cbn [with_buf sc_start sc_end sc_buf]; lia|]. split; reflexivity.
    - right. rewrite <- EP. destruct (so_eof f OK (pending s)) as (n & Hn & Hs); [rewrite EP; discriminate|]. rewrite Hs.
      cbn [bind e_done so_err so_advance so_token]. rewrite (proj2 (Z.ltb_ge _ _)) by lia. rewrite Nat2Z.id.
      pose proof (pending_len s B) as HL. pose proof B as [B1 B2]. rewrite (proj2 (Nat.ltb_ge _ _)) by lia. rewrite (proj2 (Nat.ltb_lt 0 n)) by lia.
      cbn [negb orb]. eexists n, _. split; [exact Hn|]. split; [reflexivity|]. split; [reflexivity|]. split; [reflexivity|].
      split; [exact HF|]. split; [unfold bounds; cbn [with_token with_buf sc_start sc_end sc_buf]; lia|]. split; [exact HX|].
      unfold pending at 1. cbn [with_token with_buf sc_start sc_end sc_buf]. unfold pending. rewrite skipn_firstn_comm, skipn_skipn.
      f_equal; [lia|]. f_equal. lia.
  Qed.

  (** The state of a scanner that has not met an error: [rest] is still with the reader. *)
  Definition live (s : scanner) (r : rd_St rd) (D rest : bytes) (e : rerr) : Prop :=
    sc_split s = f /\ bounds s /\ sc_err s = None /\ delivers rd r rest e /\ D = pending s ++ rest.
  Definition ended (s : scanner) (D : bytes) (x : serr) : Prop := sc_split s = f /\ bounds s /\ sc_err s = Some x /\ D = pending s.

  (** There is no token before there is a buffer. *)
  Definition tokened (s : scanner) : Prop := sc_token s = None \/ sc_buf s <> [].

  (** What one call of Scan can come to. *)
  Inductive outcome (s : scanner) (r : rd_St rd) (D rest : bytes) (e : rerr) (m : res (bool * scanner * rd_St rd)) : Prop :=
  | out_token : forall n s' r' rest', 0 < n <= length D -> f D true = Ok (e_done n (firstn n D)) -> m = Ok (true, s', r') ->
      sc_token s' = Some (firstn n D) -> sc_max s' = sc_max s -> length rest' <= length rest -> live s' r' (skipn n D) rest' e ->
      (lively rd 100 r -> lively rd 100 r') ->
      (forall t b, f (firstn n D ++ pending s' ++ t) b = Ok (e_done n (firstn n D))) -> sc_buf s' <> [] -> outcome s r D rest e m
  | out_read : forall fuel' s' r', ended s' D (SRead e) -> m = scan_loop rd (S fuel') s' r' -> outcome s r D rest e m
  | out_stuck : forall fuel' s' r' D1 D2, D = (pending s ++ D1) ++ D2 -> ended s' (pending s ++ D1) ErrNoProgress -> m = scan_loop rd (S fuel') s' r' ->
      ~ lively rd 100 r -> outcome s r D rest e m
  | out_long : forall s' r' p q, m = Ok (false, s', r') -> sc_err s' = Some ErrTooLong -> D = p ++ q -> f p false = Ok e_more ->
      limit s (length p) -> ended s' p ErrTooLong -> (tokened s -> sc_token s' = None) -> outcome s r D rest e m.

  Lemma outcome_eq : forall s r D rest e m m', m = m' -> outcome s r D rest e m' -> outcome s r D rest e m.
  Proof. intros. subst. assumption. Qed.

  Definition more_ fuel (s : scanner) (r : rd_St rd) : res (bool * scanner * rd_St rd) :=
    match sc_err s with
    | Some _ => Ok (false, with_buf s (sc_buf s) 0 0, r)
    | None =>
      s <- shift s ;;
      g <- grow s ;;
      match g with
      | None => Ok (false, set_err s ErrTooLong, r)
      | Some s =>
        let '(s, r') := fill rd maxConsecutiveEmptyReads s r in
        scan_loop rd fuel s r'
      end
    end.

  Lemma scan_live : forall fuel s r D rest e, live s r D rest e -> length rest + 2 <= fuel -> outcome s r D rest e (scan_loop rd fuel s r).
  Proof.
    induction fuel as [|fuel IH]; intros s r D rest e (HF & B & HX & HD & ->) Hf; [lia|].
    pose proof B as [B1 B2]. pose proof (pending_len s B) as HL.
    (* what happens when no token can be made *)
    assert (MORE : forall s0, sc_split s0 = f -> bounds s0 -> sc_err s0 = None -> pending s0 = pending s -> sc_max s0 = sc_max s ->
        (tokened s -> sc_token s0 = None \/ pending s0 = [] /\ tokened s0) -> f (pending s) false = Ok e_more -> outcome s r (pending s ++ rest) rest e (more_ fuel s0 r)).
    { intros s0 F0 B0 X0 P0 M0 T0 HM. unfold more_. rewrite X0.
      destruct (shift_ok s0 B0) as (s1 & -> & Bs1 & P1 & F1 & X1 & M1 & L1 & Z1 & T1). cbn [bind].
      destruct (grow_ok s1 Bs1 Z1) as [(s2 & -> & Bs2 & P2 & F2 & X2 & M2 & R2)|(-> & HLim & HW)]; cbn [bind].
      2:{ eapply out_long with (p := pending s) (q := rest); [reflexivity| |reflexivity|exact HM| | |].
          - cbn [set_err sc_err]. rewrite X1, X0; reflexivity.
          - rewrite P1, P0 in HLim. unfold limit in *. rewrite M1, M0 in HLim. exact HLim.
          - split; [cbn [set_err sc_split]; congruence|]. split; [exact Bs1|]. split; [cbn [set_err sc_err]; rewrite X1, X0; reflexivity|].
            rewrite <- P0, <- P1. reflexivity.
          - intros HT. cbn [set_err sc_token]. rewrite T1. destruct (T0 HT) as [|(E1 & [|E2])]; auto.
            destruct E2. apply length_zero_iff_nil. rewrite <- L1, <- HW, P1, E1. reflexivity. }
      destruct (fill_ok maxConsecutiveEmptyReads s2 r rest e Bs2 ltac:(congruence) R2 HD) as (s3 & r3 & -> & F3 & Bs3 & M3 & HC).
      assert (P3 : pending s2 = pending s) by congruence. rewrite P3 in HC.
      assert (HF3 : sc_split s3 = f) by congruence.
      destruct fuel as [|fuel']; [lia|].
      destruct HC as [(X3 & bs & rest' & Hbs & Er & P4 & HD' & HLV)|[(X3 & P4)|(X3 & P4 & HNL)]].
      - assert (Hlive : live s3 r3 (pending s ++ rest) rest' e).
        { split; [exact HF3|]. split; [exact Bs3|]. split; [exact X3|]. split; [exact HD'|]. rewrite P4, Er, app_assoc. reflexivity. }
        assert (Hlen : length rest' < length rest). { rewrite Er, app_length. destruct bs; [congruence|]. cbn [length]. lia. }
        assert (HV0 : lively rd 100 r -> lively rd 100 r3). { intros HV. apply (HLV 100 HV). unfold maxConsecutiveEmptyReads. lia. }
        destruct (IH s3 r3 _ rest' e Hlive ltac:(lia)) as [n s' r' rest2 G1 G2 G3 G4 G5 G6 G7 G8 G9 G10|fu s' r' G2 G3|fu s' r' D1 D2 G2 G3 G4 G5|s' r' p q G1 G2 G3 G4 G5 G6 G7].
        + apply (out_token _ _ _ _ _ _ n s' r' rest2); auto; try congruence; try lia.
        + exact (out_read _ _ _ _ _ _ fu s' r' G2 G3).
        + assert (EP : pending s3 ++ D1 = pending s ++ bs ++ D1) by (rewrite P4, app_assoc; reflexivity). rewrite EP in G2, G3. apply (out_stuck _ _ _ _ _ _ fu s' r' (bs ++ D1) D2); auto.
        + apply (out_long _ _ _ _ _ _ s' r' p q); auto.
          * unfold limit in *. replace (sc_max s) with (sc_max s3) by congruence. exact G5.
          * intros _. apply G7. right. intros E. assert (HPe : pending s3 = []) by (unfold pending; rewrite E, skipn_nil, firstn_nil; reflexivity).
            rewrite P4 in HPe. apply app_eq_nil in HPe. tauto.
      - apply (out_read _ _ _ _ _ _ fuel' s3 r3); [|reflexivity]. unfold ended. rewrite P4. auto.
      - apply (out_stuck _ _ _ _ _ _ fuel' s3 r3 [] rest); [rewrite app_nil_r; reflexivity|unfold ended; rewrite P4, app_nil_r; auto|reflexivity|].
        intros HV. apply (HNL 100 HV). unfold maxConsecutiveEmptyReads. lia. }
    cbn [scan_loop]. fold (more_ fuel). rewrite HX, orb_false_r. destruct (sc_start s <? sc_end s) eqn:ES.
    2:{ apply Nat.ltb_ge in ES. apply (outcome_eq _ _ _ _ _ _ (more_ fuel s r)); [unfold more_; rewrite HX; reflexivity|].
        assert (HPe : pending s = []) by (apply length_zero_iff_nil; lia). apply MORE; auto. rewrite HPe. apply (so_nil f OK). }
    rewrite (pending_slice s B), HF. cbn [bind]. destruct (so_stream f OK (pending s)) as [HM|(n & Hn & Hs & Hst)].
    - rewrite HM. cbn [bind e_more so_err so_advance so_token]. cbn [Z.ltb Z.compare Z.to_nat].
      rewrite (proj2 (Nat.ltb_ge _ _)) by lia.
      set (s0 := with_token _ _ _). cbv beta.
      assert (P0 : pending s0 = pending s). { unfold pending, s0. cbn [with_token with_buf sc_start sc_end sc_buf]. rewrite Nat.add_0_r. reflexivity. }
      apply (outcome_eq _ _ _ _ _ _ (more_ fuel s0 r)); [reflexivity|].
      apply MORE; auto. unfold bounds, s0. cbn [with_token with_buf sc_start sc_end sc_buf]. lia.
    - rewrite Hs. cbn [bind e_done so_err so_advance so_token]. rewrite (proj2 (Z.ltb_ge _ _)) by lia. rewrite Nat2Z.id.
      rewrite (proj2 (Nat.ltb_ge _ _)) by lia. cbn [negb orb].
      assert (HFN : firstn n (pending s ++ rest) = firstn n (pending s)) by (apply firstn_app_le; lia).
      assert (HPN : forall tok k, pending (with_token (with_buf s (sc_buf s) (sc_start s + n) (sc_end s)) tok k) = skipn n (pending s)).
      { intros. unfold pending. cbn [with_token with_buf sc_start sc_end sc_buf]. rewrite skipn_firstn_comm, skipn_skipn. f_equal; [lia|]. f_equal. lia. }
      eapply (out_token _ _ _ _ _ _ n _ r rest); [rewrite app_length; lia|rewrite HFN; apply Hst|reflexivity| |reflexivity|lia| |auto| |].
      { rewrite HFN. reflexivity. }
      2:{ intros t b. rewrite HFN. rewrite HPN, app_assoc, firstn_skipn. apply Hst. }
      2:{ cbn [with_token with_buf sc_buf]. intros E. rewrite E in B2. cbn [length] in B2. lia. }
      split; [exact HF|]. split; [unfold bounds; cbn [with_token with_buf sc_start sc_end sc_buf]; lia|]. split; [exact HX|]. split; [exact HD|].
      rewrite skipn_app_le by lia. rewrite HPN. reflexivity.
  Qed.

  (** ** The client's loop *)
  Lemma called_pending : forall s, pending (with_called s) = pending s. Proof. reflexivity. Qed.

  Lemma all_done : forall D fuel s r x, length D < fuel -> ended s D x ->
    exists l, scan_all rd fuel s r = Ok (l, match x with SRead EOF => None | _ => Some x end) /\ chop f (S (length D)) D = Ok l.
  Proof.
    intros D. remember (length D) as k eqn:Ek. revert D Ek. induction k as [k IH] using lt_wf_ind. intros D -> fuel s r x Hf (HF & B & HX & HD).
    destruct fuel as [|fuel]; [lia|]. cbn [scan_all]. unfold Scan.
    destruct (scan_done fuel (with_called s) r x HF B HX) as [(HP & s' & HS & HX' & _)|(n & s' & Hn & Hs & HS & HT & HF' & B' & HX' & HP)]; rewrite HS; cbn [bind].
    - rewrite called_pending in HP. exists []. assert (D = []) as -> by congruence. split; [|reflexivity]. unfold Err. rewrite HX'. destruct x as [[]| | | | | |]; reflexivity.
    - rewrite called_pending, <- HD in *.
      destruct (IH (length (skipn n D)) ltac:(rewrite skipn_length; lia) (skipn n D) eq_refl fuel s' r x) as (l & HA & HC).
      + rewrite skipn_length. lia.
      + split; [exact HF'|]. split; [exact B'|]. split; [exact HX'|]. symmetry. exact HP.
      + rewrite HA. cbn [bind]. unfold Bytes. rewrite HT. eexists; split; [reflexivity|].
        cbn [chop]. destruct D as [|c D0]; [cbn in Hn; lia|]. cbn [is_nil]. rewrite Hs. cbn [bind e_done so_token so_advance]. rewrite Nat2Z.id.
        rewrite (chop_fuel f OK _ (S (length (skipn n (c :: D0)))) (skipn n (c :: D0))) by (try rewrite skipn_length; lia). rewrite HC. reflexivity.
  Qed.


  Lemma chop_step : forall D n l, 0 < n <= length D -> f D true = Ok (e_done n (firstn n D)) -> chop f (S (length (skipn n D))) (skipn n D) = Ok l ->
    chop f (S (length D)) D = Ok (firstn n D :: l).
  Proof.
    intros D n l Hn Hs HC. cbn [chop]. destruct D as [|c D0]; [cbn in Hn; lia|]. cbn [is_nil]. rewrite Hs. cbn [bind e_done so_token so_advance]. rewrite Nat2Z.id.
    rewrite (chop_fuel f OK _ (S (length (skipn n (c :: D0)))) (skipn n (c :: D0))) by (try rewrite skipn_length; lia). rewrite HC. reflexivity.
  Qed.

  Inductive final (s : scanner) (r : rd_St rd) (D : bytes) (e : rerr) (l : list bytes) : option serr -> Prop :=
  | fin_ok : e = EOF -> chop f (S (length D)) D = Ok l -> final s r D e l None
  | fin_read : e <> EOF -> chop f (S (length D)) D = Ok l -> final s r D e l (Some (SRead e))
  | fin_stuck : forall D1 D2, ~ lively rd 100 r -> D = (pending s ++ D1) ++ D2 -> chop f (S (length (pending s ++ D1))) (pending s ++ D1) = Ok l -> final s r D e l (Some ErrNoProgress)
  | fin_long : forall l2 (p : bytes), chop f (S (length D)) D = Ok (l ++ l2) -> length p <= length D -> limit s (length p) -> final s r D e l (Some ErrTooLong).

  (** one more Scan of a scanner that has met an error in this very call *)
  Lemma all_ended : forall D fuel fuel' s s0 r r0 x, length D < fuel -> ended s0 D x -> scan_loop rd fuel (with_called s) r = scan_loop rd (S fuel') s0 r0 ->
    exists l, scan_all rd fuel s r = Ok (l, match x with SRead EOF => None | _ => Some x end) /\ chop f (S (length D)) D = Ok l.
  Proof.
    intros D fuel fuel' s s0 r r0 x Hf (HF & B & HX & HD) HE. destruct fuel as [|fuel]; [lia|]. cbn [scan_all]. unfold Scan. rewrite HE.
    destruct (scan_done fuel' s0 r0 x HF B HX) as [(HP & s' & HS & HX' & _)|(n & s' & Hn & Hs & HS & HT & HF' & B' & HX' & HP)]; rewrite HS; cbn [bind].
    - exists []. assert (D = []) as -> by congruence. split; [|reflexivity]. unfold Err. rewrite HX'. destruct x as [[]| | | | | |]; reflexivity.
    - rewrite <- HD in *.
      destruct (all_done (skipn n D) fuel s' r0 x) as (l & HA & HC).
      + rewrite skipn_length. lia.
      + split; [exact HF'|]. split; [exact B'|]. split; [exact HX'|]. symmetry. exact HP.
      + rewrite HA. cbn [bind]. unfold Bytes. rewrite HT. eexists; split; [reflexivity|]. apply chop_step; auto.
  Qed.

  Lemma all_live : forall D fuel s r rest e, length D + 2 < fuel -> live s r D rest e ->
    exists l err, scan_all rd fuel s r = Ok (l, err) /\ final s r D e l err.
  Proof.
    intros D. remember (length D) as k eqn:Ek. revert D Ek. induction k as [k IH] using lt_wf_ind. intros D -> fuel s r rest e Hf HL.
    assert (Hrest : length rest <= length D). { destruct HL as (_ & _ & _ & _ & ->). rewrite app_length. lia. }
    destruct (scan_live fuel (with_called s) r D rest e HL ltac:(lia)) as [n s' r' rest2 G1 G2 G3 G4 G5 G6 G7 G8 G9 G10|fu s' r' G2 G3|fu s' r' D1 D2 G2 G3 G4 G5|s' r' p q G1 G2 G3 G4 G5 G6 G7].
    - destruct fuel as [|fuel]; [lia|]. cbn [scan_all]. unfold Scan. rewrite G3. cbn [bind].
      destruct (IH (length (skipn n D)) ltac:(rewrite skipn_length; lia) (skipn n D) eq_refl fuel s' r' rest2 e ltac:(rewrite skipn_length; lia) G7) as (l & err & HA & HFin).
      rewrite HA. cbn [bind]. eexists _, err. split; [reflexivity|]. unfold Bytes. rewrite G4.
      destruct HFin as [E1 E2|E1 E2|D1 D2 E1 E2 E3|l2 p E1 E2 E3].
      + apply fin_ok; [exact E1|]. apply chop_step; auto.
      + apply fin_read; [exact E1|]. apply chop_step; auto.
      + assert (HP : exists D0, firstn n D ++ pending s' ++ D1 = pending s ++ D0 /\ length (pending s) <= length (firstn n D ++ pending s')).
        { destruct HL as (_ & _ & _ & _ & HD). destruct G7 as (_ & _ & _ & _ & HD').
          assert (HD2 : pending s ++ rest = (firstn n D ++ pending s') ++ rest2) by (rewrite <- HD, <- app_assoc, <- HD'; symmetry; apply firstn_skipn).
          assert (HLe : length (pending s) <= length (firstn n D ++ pending s')). { apply (f_equal (@length N)) in HD2. rewrite !app_length in *. lia. }
          exists (skipn (length (pending s)) (firstn n D ++ pending s') ++ D1). split; [|exact HLe]. rewrite !app_assoc. f_equal.
          assert (E : firstn (length (pending s)) (pending s ++ rest) = firstn (length (pending s)) ((firstn n D ++ pending s') ++ rest2)) by (rewrite HD2; reflexivity).
          rewrite !firstn_app_le in E by lia. rewrite firstn_all in E. rewrite E at 1. symmetry. apply firstn_skipn. }
        destruct HP as (D0 & HP & HLe).
        apply (fin_stuck _ _ _ _ _ D0 D2); [auto| |].
        * rewrite <- HP, <- app_assoc, <- E2. symmetry. apply firstn_skipn.
        * rewrite <- HP.
          assert (LN : length (firstn n D) = n) by (rewrite firstn_length; lia).
          assert (FN : firstn n (firstn n D ++ pending s' ++ D1) = firstn n D). { rewrite firstn_app, LN, Nat.sub_diag, firstn_O, app_nil_r. apply firstn_all2. lia. }
          rewrite <- FN at 3. apply chop_step; [rewrite !app_length; lia|rewrite FN; apply G9|].
          rewrite skipn_app, LN, Nat.sub_diag, skipn_all2 by lia. exact E3.
      + apply (fin_long _ _ _ _ _ l2 p); [|rewrite skipn_length in E2; lia|unfold limit in *; rewrite G5 in E3; exact E3].
        cbn [app]. apply chop_step; auto.
    - destruct (all_ended D fuel fu s s' r r' _ ltac:(lia) G2 G3) as (l & HA & HC). exists l, (match e with EOF => None | _ => Some (SRead e) end).
      split; [rewrite HA; destruct e; reflexivity|]. destruct e; [apply fin_ok; auto|apply fin_read; [discriminate|exact HC]].
    - assert (Hl : length (pending s ++ D1) < fuel). { rewrite G2 in Hf. rewrite (app_length _ D2) in Hf. rewrite called_pending in Hf. lia. }
      destruct (all_ended (pending s ++ D1) fuel fu s s' r r' _ Hl G3 G4) as (l & HA & HC). exists l, (Some ErrNoProgress).
      split; [exact HA|]. apply (fin_stuck _ _ _ _ _ D1 D2); auto.
    - exists [], (Some ErrTooLong). split. { destruct fuel as [|fuel]; [lia|]. cbn [scan_all]. unfold Scan. rewrite G1. cbn [bind]. unfold Err. rewrite G2. reflexivity. }
      destruct (chop_total f OK (S (length D)) D ltac:(lia)) as (l2 & HC & _). apply (fin_long _ _ _ _ _ l2 p); [exact HC|rewrite G3, app_length; lia|exact G5].
  Qed.
End Facts.
