(** The lookahead on well-formed text: it finds the first character that is not ignored. *)
From Verif Require Import Base ListFacts Trie Engine Seek SpecUtf8 SpecRules UcdFacts Conform.

Section SeekText.
  Variable lk : bytes -> res (N * nat).
  Variable ign : N.
  Variable P : N -> N.
  Hypothesis LK : lk_ok lk.
  Hypothesis HP : forall x rest, scalar x -> lk (utf8 x ++ rest) = Ok (P x, length (utf8 x)).

  Definition skipped (c : N) : bool := is (P c) ign.
  (** The property word of the first character that is not ignored; 0 if there is none. *)
  Fixpoint nextv (a : text) : N :=
    match a with [] => 0%N | c :: r => if skipped c then nextv r else P c end.

  Lemma seek_text : forall a, scalars a -> exists a1 a2, a = a1 ++ a2 /\ Forall (fun c => skipped c = true) a1
    /\ (a2 = [] /\ nextv a = 0%N \/ exists c r, a2 = c :: r /\ skipped c = false /\ nextv a = P c)
    /\ forall props, gsubsequent lk ign props (encode a) true
         = Ok (if is (nextv a) props then Some (length (encode a1)) else None, false).
  Proof.
    intros a Hs.
    enough (HR : exists a1 a2, a = a1 ++ a2 /\ Forall (fun c => skipped c = true) a1
      /\ (a2 = [] /\ nextv a = 0%N \/ exists c r, a2 = c :: r /\ skipped c = false /\ nextv a = P c)
      /\ forall props fuel, length (encode a) < fuel -> rsub lk ign props fuel (encode a) true
         = Ok (if is (nextv a) props then Some (length (encode a1)) else None, false)).
    { destruct HR as (a1 & a2 & H1 & H2 & H3 & H4). exists a1, a2. repeat split; auto.
      intros props. rewrite gsubsequent_rsub by exact LK. apply H4. lia. }
    induction a as [|c a IH].
    - exists [], []. repeat split; auto. intros props fuel Hf. destruct fuel; [lia|]. reflexivity.
    - inversion Hs as [|? ? Hc Hs']; subst. destruct (IH Hs') as (a1 & a2 & H1 & H2 & H3 & H4). clear IH.
      assert (HL : forall props fuel, length (encode (c :: a)) < S fuel ->
        rsub lk ign props (S fuel) (encode (c :: a)) true =
          if skipped c then (' (r, m) <- rsub lk ign props fuel (encode a) true ;; Ok (option_map (fun n => length (utf8 c) + n) r, m))
          else if is (P c) props then Ok (Some 0, false) else Ok (None, false)).
      { intros props fuel Hf. cbn [rsub]. rewrite encode_cons. destruct (utf8_nonnil c) as (b0 & s0 & Eu).
        assert (is_nil (utf8 c ++ encode a) = false) as -> by (rewrite Eu; reflexivity).
        rewrite HP by exact Hc. cbn [bind]. rewrite Eu at 1. cbn [length Nat.eqb]. unfold skipped.
        destruct (is (P c) ign); [|reflexivity]. rewrite slice_from_ok by (rewrite app_length; lia). cbn [bind].
        rewrite skipn_app, skipn_all, Nat.sub_diag. reflexivity. }
      assert (Hlen : forall fuel, length (encode (c :: a)) < S fuel -> length (encode a) < fuel).
      { intros fuel Hf. rewrite encode_cons, app_length in Hf. pose proof (utf8_len c). lia. }
      cbn [nextv]. destruct (skipped c) eqn:E.
      + exists (c :: a1), a2. split; [rewrite H1; reflexivity|]. split; [constructor; auto|]. split; [exact H3|].
        intros props fuel Hf. destruct fuel as [|fuel]; [lia|]. rewrite HL by exact Hf. rewrite H4 by (apply Hlen; exact Hf).
        cbn [bind]. rewrite encode_cons, app_length. destruct (is (nextv a) props); reflexivity.
      + exists [], (c :: a). split; [reflexivity|]. split; [constructor|]. split; [right; exists c, a; auto|].
        intros props fuel Hf. destruct fuel as [|fuel]; [lia|]. rewrite HL by exact Hf. destruct (is (P c) props); reflexivity.
  Qed.
End SeekText.
