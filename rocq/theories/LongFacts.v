(** A scanner whose buffer has room for a few tokens reads data of any length. *)
From Verif Require Import Base ListFacts Engine SpecIter SpecApi Drive ApiFacts ConformApi Scanner SpecReader ScannerFacts ReaderFacts SpecJoiners AnsiCuts Prompt SpecLong.

Lemma fit_tail : forall k max x l, tokens_fit k max (x :: l) -> tokens_fit k max l.
Proof. intros k max x l H before some after E. apply (H (x :: before) some after). rewrite E. reflexivity. Qed.
Lemma fit_head : forall k max l, tokens_fit k max l -> (N.of_nat (length (concat (firstn k l))) + 3 < N.min max (2 ^ 62))%N.
Proof. intros k max l H. apply (H [] (firstn k l) (skipn k l)); [symmetry; apply firstn_skipn|]. rewrite firstn_length. lia. Qed.

Section Long.
  Variable f : splitfun.
  Hypothesis OK : split_ok f.
  Variable k : nat.
  Hypothesis PR : prompt k f.
  Variable rd : reader.

  Lemma all_long : forall D fuel s r rest e l, length D + 2 < fuel -> live f rd s r D rest e -> lively rd 100 r -> tokens_by f D l -> tokens_fit k (sc_max s) l ->
    scan_all rd fuel s r = Ok (l, match e with EOF => None | _ => Some (SRead e) end).
  Proof.
    intros D. remember (length D) as m eqn:Em. revert D Em. induction m as [m IH] using lt_wf_ind. intros D -> fuel s r rest e l Hf HL HV HT HM.
    assert (Hrest : length rest <= length D). { destruct HL as (_ & _ & _ & _ & ->). rewrite app_length. lia. }
    destruct (scan_live f OK rd fuel (with_called s) r D rest e HL ltac:(lia)) as [n s' r' rest2 G1 G2 G3 G4 G5 G6 G7 G8 G9 G10|fu s' r' G2 G3|fu s' r' D1 D2 G2 G3 G4 G5|s' r' p q G1 G2 G3 G4 G5 G6 G7].
    - destruct fuel as [|fuel]; [lia|]. cbn [scan_all]. unfold Scan. rewrite G3. cbn [bind].
      inversion HT as [HE|d1 n1 l1 Hs Hn HT1 HE]; subst; [cbn in G1; lia|]. rewrite G2 in Hs. unfold e_done in Hs. assert (n1 = n) by (injection Hs; lia). subst n1.
      rewrite (IH (length (skipn n D)) ltac:(rewrite skipn_length; lia) (skipn n D) eq_refl fuel s' r' rest2 e l1 ltac:(rewrite skipn_length; lia) G7 (G8 HV) HT1).
      + cbn [bind]. unfold Bytes. rewrite G4. reflexivity.
      + rewrite G5. exact (fit_tail _ _ _ _ HM).
    - destruct (all_ended f OK rd D fuel fu s s' r r' _ ltac:(lia) G2 G3) as (l' & HA & HC). rewrite (tb_chop _ _ _ HT (S (length D)) ltac:(lia)) in HC. injection HC as ->.
      rewrite HA. destruct e; reflexivity.
    - contradiction.
    - exfalso. rewrite G3 in HT. pose proof (PR p q l G4 HT) as HP. pose proof (fit_head _ _ _ HM) as HF. unfold limit in G5. change (sc_max (with_called s)) with (sc_max s) in G5.
      assert (maxInt / 2 = 4611686018427387903)%N by reflexivity. change (2 ^ 62)%N with 4611686018427387904%N in HF. lia.
  Qed.
End Long.
Lemma reads_long_ok : forall k f, split_ok f -> prompt k f -> forall iterate,
  (forall d fuel l, length d < fuel -> chop f (S (length d)) d = Ok l -> iterate fuel d = Ok l) -> reads_long k iterate f.
Proof.
  intros k f OK PR iterate AGREE rd r d e s fuel l HD HV HS Hf HI HM.
  destruct (tb_ex0 f (so_eof f OK) (S (length d)) d ltac:(lia)) as (l' & Hl').
  assert (iterate fuel d = Ok l') as HI' by (apply AGREE; [lia|]; apply (tb_chop _ _ _ Hl'); lia). rewrite HI in HI'. injection HI' as <-.
  exact (all_long f OK k PR rd d fuel s r d e l Hf (fresh_live _ _ _ _ _ _ HS HD) HV Hl' HM).
Qed.
