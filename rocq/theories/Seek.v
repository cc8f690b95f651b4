(** The lookahead function [subsequent], which words/seek.go, phrases/seek.go and sentences/seek.go share up to
    the lookup and the ignored properties. *)
From Verif Require Import Base ListFacts Trie Engine.

Section Seek.
  Variable lk : bytes -> res (N * nat).
  Variable ign : N.
  Variable props : N.

  (** Same text as subsequent_loop in the three models. *)
  Fixpoint gsub_loop (fuel : nat) (properties : N) (data : bytes) (atEOF : bool) (i : nat)
    : res (option nat * bool) :=
    match fuel with
    | O => OutOfFuel
    | S fuel' =>
      if (i <? length data)%nat then
        d <- slice_from data i ;;
        ' (v, w) <- lk d ;;
        if Nat.eqb w 0 then
          if atEOF then Ok (None, false) else Ok (None, true)
        else if is v ign then gsub_loop fuel' properties data atEOF (i + w)
        else if is v properties then Ok (Some i, false)
        else Ok (None, false)
      else
        if atEOF then Ok (None, false) else Ok (None, true)
    end.

  (** On the remaining bytes, relative to them. *)
  Fixpoint rsub (fuel : nat) (d : bytes) (atEOF : bool) : res (option nat * bool) :=
    match fuel with
    | O => OutOfFuel
    | S fuel' =>
      if is_nil d then Ok (None, negb atEOF)
      else
        ' (v, w) <- lk d ;;
        if Nat.eqb w 0 then Ok (None, negb atEOF)
        else if is v ign then
          d' <- slice_from d w ;;
          ' (r, m) <- rsub fuel' d' atEOF ;;
          Ok (option_map (fun n => w + n) r, m)
        else if is v props then Ok (Some 0, false)
        else Ok (None, false)
    end.

  Hypothesis LK : lk_ok lk.

  Lemma gsub_rsub : forall fuel data atEOF i, i <= length data -> length data - i < fuel ->
    gsub_loop fuel props data atEOF i
    = (' (r, m) <- rsub fuel (skipn i data) atEOF ;; Ok (option_map (fun n => i + n) r, m)).
  Proof.
    induction fuel as [|fuel IH]; intros data atEOF i Hi Hf; [lia|].
    cbn [gsub_loop rsub].
    destruct (i <? length data) eqn:E.
    - apply Nat.ltb_lt in E.
      assert (Hn : skipn i data <> []) by (intros Hx; apply (f_equal (@length N)) in Hx; rewrite skipn_length in Hx; simpl in Hx; lia).
      unfold slice_from at 1. replace (length data <? i) with false by (symmetry; apply Nat.ltb_ge; lia). cbn [bind].
      assert (is_nil (skipn i data) = false) as -> by (destruct (skipn i data); [congruence|reflexivity]).
      destruct (LK _ Hn) as (v & w & Hl & Hw & _). rewrite Hl. cbn [bind].
      destruct (Nat.eqb w 0) eqn:E0. { destruct atEOF; reflexivity. }
      apply Nat.eqb_neq in E0. rewrite skipn_length in Hw.
      destruct (is v ign).
      + rewrite IH by lia. unfold slice_from. rewrite skipn_length.
        replace (length data - i <? w) with false by (symmetry; apply Nat.ltb_ge; lia). cbn [bind].
        rewrite skipn_skipn. replace (w + i) with (i + w) by lia.
        destruct (rsub fuel (skipn (i + w) data) atEOF) as [[r m]| |]; cbn [bind]; try reflexivity.
        destruct r; cbn [option_map]; [rewrite Nat.add_assoc|]; reflexivity.
      + destruct (is v props); cbn [bind option_map]; [rewrite Nat.add_0_r|]; reflexivity.
    - apply Nat.ltb_ge in E. rewrite skipn_all2 by lia. cbn [is_nil bind option_map]. destruct atEOF; reflexivity.
  Qed.

  Lemma rsub_total : forall fuel d atEOF, length d < fuel ->
    exists r m, rsub fuel d atEOF = Ok (r, m)
      /\ (atEOF = true -> m = false)
      /\ (m = true -> r = None)
      /\ (forall n, r = Some n -> n < length d).
  Proof.
    induction fuel as [|fuel IH]; intros d atEOF Hf; [lia|].
    destruct d as [|c d0].
    { simpl. exists None, (negb atEOF). repeat split; try discriminate; intros; subst; auto. }
    set (d := c :: d0) in *. assert (Hd : d <> []) by discriminate.
    cbn [rsub]. change (is_nil d) with false. cbv iota.
    destruct (LK d Hd) as (v & w & Hl & Hw & _). rewrite Hl. cbn [bind].
    destruct (Nat.eqb w 0) eqn:E0.
    { exists None, (negb atEOF). repeat split; try discriminate; intros; subst; auto. }
    apply Nat.eqb_neq in E0.
    destruct (is v ign).
    - unfold slice_from. replace (length d <? w) with false by (symmetry; apply Nat.ltb_ge; lia). cbn [bind].
      destruct (IH (skipn w d) atEOF) as (r & m & Hr & H1 & H2 & H3). { rewrite skipn_length. lia. }
      rewrite Hr. cbn [bind]. exists (option_map (fun n => w + n) r), m. repeat split; auto.
      + intros. rewrite H2; auto.
      + intros n Hn. destruct r as [k|]; [|discriminate]. cbn in Hn. injection Hn as <-.
        specialize (H3 _ eq_refl). rewrite skipn_length in H3. lia.
    - destruct (is v props); eexists _, _; (split; [reflexivity|]); repeat split; try discriminate.
      intros n Hn. injection Hn as <-. simpl. lia.
  Qed.

  Lemma rsub_stable : forall fuel d r, rsub fuel d false = Ok (r, false) ->
    forall fuel' t b, length (d ++ t) < fuel' -> rsub fuel' (d ++ t) b = Ok (r, false).
  Proof.
    induction fuel as [|fuel IH]; intros d r H fuel' t b Hf; [discriminate|].
    destruct d as [|c d0]; [simpl in H; discriminate|].
    set (d := c :: d0) in *. assert (Hd : d <> []) by discriminate.
    cbn [rsub] in H. change (is_nil d) with false in H. cbv iota in H.
    destruct (LK d Hd) as (v & w & Hl & Hw & Hst). rewrite Hl in H. cbn [bind] in H.
    destruct (Nat.eqb w 0) eqn:E0; [discriminate|].
    destruct fuel' as [|fuel']; [lia|]. cbn [rsub]. change (is_nil (d ++ t)) with false. cbv iota.
    pose proof (proj1 (Nat.eqb_neq _ _) E0) as E1. rewrite (Hst E1). cbn [bind]. rewrite E0.
    destruct (is v ign).
    - unfold slice_from in H |- *. rewrite app_length.
      replace (length d <? w) with false in H by (symmetry; apply Nat.ltb_ge; lia). cbn [bind] in H.
      replace (length d + length t <? w) with false by (symmetry; apply Nat.ltb_ge; lia). cbn [bind].
      rewrite skipn_app. replace (w - length d) with 0 by lia. cbn [skipn].
      destruct (rsub fuel (skipn w d) false) as [[r' m]| |] eqn:Er; try discriminate.
      cbn [bind] in H. injection H as <- ->.
      rewrite (IH _ _ Er fuel' t b); [reflexivity|]. rewrite app_length, skipn_length. rewrite app_length in Hf. lia.
    - exact H.
  Qed.

  (** More fuel does not change the result. *)
  Lemma rsub_fuel : forall f1 f2 d b, length d < f1 -> length d < f2 -> rsub f1 d b = rsub f2 d b.
  Proof.
    induction f1 as [|f1 IH]; intros f2 d b H1 H2; [lia|]. destruct f2 as [|f2]; [lia|].
    destruct d as [|c d0]; [reflexivity|]. set (d := c :: d0) in *. assert (Hd : d <> []) by discriminate.
    cbn [rsub]. change (is_nil d) with false. cbv iota.
    destruct (LK d Hd) as (v & w & Hl & Hw & _). rewrite Hl. cbn [bind].
    destruct (Nat.eqb w 0) eqn:E0; [reflexivity|]. apply Nat.eqb_neq in E0.
    destruct (is v ign); [|reflexivity]. unfold slice_from.
    replace (length d <? w) with false by (symmetry; apply Nat.ltb_ge; lia). cbn [bind].
    rewrite (IH f2); [reflexivity| |]; rewrite skipn_length; lia.
  Qed.

  Definition gsubsequent (data : bytes) (atEOF : bool) : res (option nat * bool) :=
    gsub_loop (S (length data)) props data atEOF 0.

  Lemma gsubsequent_rsub : forall d b, gsubsequent d b = rsub (S (length d)) d b.
  Proof.
    intros. unfold gsubsequent. rewrite gsub_rsub by lia. simpl skipn.
    destruct (rsub _ d b) as [[[n|] m]| |]; reflexivity.
  Qed.

  Lemma gsubsequent_total : forall d atEOF,
    exists r m, gsubsequent d atEOF = Ok (r, m)
      /\ (atEOF = true -> m = false) /\ (m = true -> r = None) /\ (forall n, r = Some n -> n < length d).
  Proof. intros. rewrite gsubsequent_rsub. apply rsub_total. lia. Qed.

  Lemma gsubsequent_stable : forall d r, gsubsequent d false = Ok (r, false) ->
    forall t b, gsubsequent (d ++ t) b = Ok (r, false).
  Proof. intros d r H t b. rewrite gsubsequent_rsub in H |- *. eapply rsub_stable; [exact H | lia]. Qed.
End Seek.
